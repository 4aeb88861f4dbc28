(** Specification vocabulary for C10-C15, independent of the model of src/http.h. *)

From Coq Require Import ZArith List Bool.
From Verif Require Import Base ListMem.
Import ListNotations.
Open Scope Z_scope.

(** ** Characters *)
Definition printable (c : Z) : Prop := 33 <= c <= 126.
Definition blank (c : Z) : Prop := c = 32 \/ c = 9.
Definition digit (c : Z) : Prop := 48 <= c <= 57.
(** ( ) < > [ ] { } @ , ; : backslash / double-quote ? = *)
Definition separators : list Z := [40; 41; 60; 62; 91; 93; 123; 125; 64; 44; 59; 58; 92; 47; 34; 63; 61].
Definition token_char (c : Z) : Prop := printable c /\ ~ In c separators.
Definition CRLF : list Z := [13; 10].

(** ** Parts of a message *)
Definition protocol_text (p : list Z) : Prop :=
  exists a b, p = [72; 84; 84; 80; 47] ++ a ++ [46] ++ b /\ Forall digit a /\ Forall digit b /\ a <> [] /\ b <> [].
Definition header_name_text (n : list Z) : Prop := n <> [] /\ Forall token_char n.

(** White space inside a header value: blanks and folds (a line break followed by a blank). *)
Inductive gap : list Z -> Prop :=
| gap_nil : gap []
| gap_blank : forall c g, blank c -> gap g -> gap (c :: g)
| gap_fold : forall c g, blank c -> gap g -> gap (13 :: 10 :: c :: g).
(** A header value: words of printable characters separated by white space, with blanks at the end.
    The words are what the value means. *)
Inductive value_text : bool -> list Z -> list (list Z) -> Prop :=
| value_end : forall first t, Forall blank t -> value_text first t []
| value_word : forall first g w rest words,
    gap g -> (first = false -> g <> []) -> w <> [] -> Forall printable w -> value_text false rest words ->
    value_text first (g ++ w ++ rest) (w :: words).
(** Words with a space in between. *)
Fixpoint join (words : list (list Z)) : list Z :=
  match words with
  | [] => []
  | [w] => w
  | w :: words' => w ++ [32] ++ join words'
  end.
(** A reason phrase: printable characters and blanks, not starting with a blank. *)
Definition reason_text (r : list Z) : Prop :=
  Forall (fun c => printable c \/ blank c) r /\ match r with c :: _ => ~ blank c | [] => True end.

(** ** Query strings: path?k1=v1&k2=v2... *)
Fixpoint query_text (params : list (list Z)) : list Z :=
  match params with
  | [] => []
  | [p] => p
  | p :: ps => p ++ [38] ++ query_text ps
  end.
(** The value of the first parameter of the form name=value. *)
Inductive lookup (name : list Z) : list (list Z) -> option (list Z) -> Prop :=
| lookup_nil : lookup name [] None
| lookup_here : forall v ps, lookup name ((name ++ [61] ++ v) :: ps) (Some v)
| lookup_next : forall p ps r, (forall v, p <> name ++ [61] ++ v) -> lookup name ps r -> lookup name (p :: ps) r.

(** ** Lines *)
Definition prefix (a b : list Z) : Prop := exists c, b = a ++ c.
