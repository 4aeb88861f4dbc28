(** Specification for C03-C09: JSON values, their texts (RFC 8259, written as an inductive
    grammar), their token sequences, and nesting of token sequences.  Independent of the reader
    and of the writer. *)

From Coq Require Import ZArith List Bool.
From Verif Require Import Base Json_Model.
Import ListNotations.
Open Scope Z_scope.

Inductive jv :=
| JNull | JBool (b : bool)
| JNum (text : list Z)                 (* by its decimal text *)
| JStr (s : list Z)
| JArr (l : list jv)
| JObj (l : list (list Z * jv)).

(** *** Texts *)
Definition is_ws (c : Z) : Prop := c = 32 \/ c = 9 \/ c = 10 \/ c = 13.
Definition ws (l : list Z) : Prop := Forall is_ws l.

Definition dig (c : Z) : Prop := 48 <= c <= 57.
Definition digits1 (l : list Z) : Prop := l <> [] /\ Forall dig l.
(** RFC 8259 section 6: minus, int, frac, exp *)
Definition number_text (t : list Z) : Prop :=
  exists sign int frac exp, t = sign ++ int ++ frac ++ exp
    /\ (sign = [] \/ sign = [45])
    /\ digits1 int /\ (int = [48] \/ hd 0 int <> 48)
    /\ (frac = [] \/ exists f, frac = 46 :: f /\ digits1 f)
    /\ (exp = [] \/ exists e s d, exp = e :: s ++ d /\ (e = 101 \/ e = 69) /\ (s = [] \/ s = [43] \/ s = [45]) /\ digits1 d).

(** Two-character escapes: the letter after the backslash and the character meant. *)
Definition escapes : list (Z * Z) :=
  [(34, 34); (92, 92); (47, 47); (98, 8); (102, 12); (110, 10); (114, 13); (116, 9)].
Definition hex_value (c v : Z) : Prop :=
  (48 <= c <= 57 /\ v = c - 48) \/ (97 <= c <= 102 /\ v = c - 87) \/ (65 <= c <= 70 /\ v = c - 55).
Definition is_hex_digit (c : Z) : Prop := exists v, hex_value c v.

(** The text of a string between the quotes.  [plain] says which characters may stand for
    themselves (besides never the quote and the backslash).  Of the \u escapes only those from 0000 to
    00FF are here, and none is followed by a further hex digit: that is all the reader
    supports (C04_unicode_refuted, C04_unicode_hex_refuted). *)
Inductive str_text (plain : Z -> Prop) : list Z -> list Z -> Prop :=
| st_nil : str_text plain [] []
| st_plain : forall c s t, plain c -> c <> 34 -> c <> 92 -> str_text plain s t -> str_text plain (c :: s) (c :: t)
| st_esc : forall e c s t, In (e, c) escapes -> str_text plain s t -> str_text plain (c :: s) (92 :: e :: t)
| st_hex : forall a b x y s t, hex_value a x -> hex_value b y -> ~ is_hex_digit (hd 0 (t ++ [34])) ->
    str_text plain s t -> str_text plain (16 * x + y :: s) (92 :: 117 :: 48 :: 48 :: a :: b :: t).

Definition null_text : list Z := [110; 117; 108; 108].
Definition true_text : list Z := [116; 114; 117; 101].
Definition false_text : list Z := [102; 97; 108; 115; 101].

(** The text of a value, of the elements between brackets, of the members between braces. *)
Inductive val (plain : Z -> Prop) : jv -> list Z -> Prop :=
| v_null : val plain JNull null_text
| v_true : val plain (JBool true) true_text
| v_false : val plain (JBool false) false_text
| v_num : forall t, number_text t -> val plain (JNum t) t
| v_str : forall s t, str_text plain s t -> val plain (JStr s) ([34] ++ t ++ [34])
| v_arr : forall l t, elems plain l t -> val plain (JArr l) ([91] ++ t ++ [93])
| v_obj : forall l t, members plain l t -> val plain (JObj l) ([123] ++ t ++ [125])
with elems (plain : Z -> Prop) : list jv -> list Z -> Prop :=
| e_nil : forall w, ws w -> elems plain [] w
| e_one : forall v t w1 w2, ws w1 -> val plain v t -> ws w2 -> elems plain [v] (w1 ++ t ++ w2)
| e_cons : forall v t w1 w2 v' l t', ws w1 -> val plain v t -> ws w2 -> elems plain (v' :: l) t' ->
    elems plain (v :: v' :: l) (w1 ++ t ++ w2 ++ [44] ++ t')
with members (plain : Z -> Prop) : list (list Z * jv) -> list Z -> Prop :=
| m_nil : forall w, ws w -> members plain [] w
| m_one : forall n v nt t w1 w2 w3 w4, ws w1 -> str_text plain n nt -> ws w2 -> ws w3 -> val plain v t -> ws w4 ->
    members plain [(n, v)] (w1 ++ [34] ++ nt ++ [34] ++ w2 ++ [58] ++ w3 ++ t ++ w4)
| m_cons : forall n v nt t w1 w2 w3 w4 m l t', ws w1 -> str_text plain n nt -> ws w2 -> ws w3 -> val plain v t -> ws w4 ->
    members plain (m :: l) t' ->
    members plain ((n, v) :: m :: l) (w1 ++ [34] ++ nt ++ [34] ++ w2 ++ [58] ++ w3 ++ t ++ w4 ++ [44] ++ t').

(** RFC 8259: a plain character is not a control character.  The reader accepts any. *)
Definition rfc_char (c : Z) : Prop := 32 <= c <= 255.
Definition any_char (c : Z) : Prop := 0 <= c <= 255.

(** A document: one value with white space around it. *)
Definition document (plain : Z -> Prop) (v : jv) (t : list Z) : Prop :=
  exists w1 t' w2, ws w1 /\ val plain v t' /\ ws w2 /\ t = w1 ++ t' ++ w2.

(** *** Tokens *)
Fixpoint tokens (v : jv) : list token :=
  match v with
  | JNull => [TNull] | JBool b => [TBool b] | JNum t => [TNum t] | JStr s => [TStr s]
  | JArr l => TBegA :: flat_map tokens l ++ [TEndA]
  | JObj l => TBegO :: flat_map (fun p => match p with (n, v) => TProp n :: tokens v end) l ++ [TEndO]
  end.

Fixpoint depth (v : jv) : Z :=
  match v with
  | JArr l => 1 + fold_right Z.max 0 (map depth l)
  | JObj l => 1 + fold_right Z.max 0 (map (fun p => match p with (_, v) => depth v end) l)
  | _ => 0
  end.

Definition is_num (v : jv) : bool := match v with JNum _ => true | _ => false end.

(** The token fits a buffer of [size] bytes: 8 bytes before the value, the null after it, and no
    null inside (the caller reads a C string).  A number has at most 25 characters. *)
Definition tok_fits (size : Z) (t : token) : Prop :=
  match t with
  | TStr s | TProp s => zlen s + 9 <= size /\ ~ In 0 s
  | _ => True
  end.
Definition num_fits (t : token) : Prop := match t with TNum d => zlen d <= 25 | _ => True end.

(** *** Nesting (C06): the stack of open brackets after a token sequence, None when a closing
    bracket does not match. *)
Fixpoint nesting (open : list token) (l : list token) : option (list token) :=
  match l with
  | [] => Some open
  | TBegA :: l' => nesting (TBegA :: open) l'
  | TBegO :: l' => nesting (TBegO :: open) l'
  | TEndA :: l' => match open with TBegA :: o => nesting o l' | _ => None end
  | TEndO :: l' => match open with TBegO :: o => nesting o l' | _ => None end
  | _ :: l' => nesting open l'
  end.
(** Every prefix nests correctly and never deeper than [max]. *)
Definition nests (max : Z) (l : list token) : Prop :=
  forall n, exists o, nesting [] (firstn n l) = Some o /\ zlen o <= max.

(** *** Writer calls *)
(** Several values one after another, with white space around them. *)
Inductive docs (plain : Z -> Prop) : list jv -> list Z -> Prop :=
| docs_nil : forall w, ws w -> docs plain [] w
| docs_snoc : forall vs t v tv w, docs plain vs t -> val plain v tv -> ws w -> docs plain (vs ++ [v]) (t ++ tv ++ w).

(** The tokens among the calls. *)
Definition op_tokens (ops : list put_op) : list token := flat_map (fun o => match o with Tok t => [t] | Ws _ => [] end) ops.

(** Arguments: strings of plain characters other than quote and backslash, numbers whose printed
    text is a JSON number; white space writers write white space. *)
Definition plain_string (plain : Z -> Prop) (s : list Z) : Prop := Forall (fun c => plain c /\ c <> 34 /\ c <> 92) s.
Definition op_ok (plain : Z -> Prop) (o : put_op) : Prop :=
  match o with
  | Tok (TStr s) | Tok (TProp s) => plain_string plain s
  | Tok (TNum t) => number_text t
  | Ws c => is_ws c
  | _ => True
  end.

(** *** Positions in a document *)
(** The containers around a position, innermost first (true = object). *)
Definition top (k : list bool) : bool := match k with true :: _ => true | _ => false end.
Definition closer (k : list bool) : Z := if top k then 125 else 93.
(** What stands after a value inside the containers [k] ([rest]), and what is left of it when the
    white space and the comma after the value are gone ([rest']): at top level nothing is skipped. *)
Definition follow (k : list bool) (rest rest' : list Z) : Prop :=
  match k with
  | [] => rest' = rest
  | _ => exists w, ws w /\ (rest = w ++ 44 :: rest' \/ exists r, rest' = closer k :: r /\ rest = w ++ rest')
  end.
(** A character follows that does not belong to a number. *)
Definition number_over (rest : list Z) : Prop :=
  exists c r, rest = c :: r /\ ~ dig c /\ c <> 46 /\ c <> 101 /\ c <> 69.
(** Text without a quote and without a backslash. *)
Definition unquoted (l : list Z) : Prop := Forall (fun c => c <> 34 /\ c <> 92) l.
(** A good reader inside the containers [k], before the text [l]; [e] = a property name is expected next. *)
Definition reader_at (max : Z) (k : list bool) (e : bool) (l : list Z) : rd :=
  {| inp := l; eofb := false; failb := false; badb := false; maxl := max; stk := k; expp := e; mem := None; num := [] |}.
