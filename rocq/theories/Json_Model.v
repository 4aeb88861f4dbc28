(** Model of src/json.h: json_state, json_istream, json_ostream, on top of the stream
    wrappers of src/stream.h.

    Input stream: the remaining bytes and the state bits, with the libstdc++ rules: peek/get on
    a stream that is not good set failbit and return EOF; peek at the end sets eofbit; get at the
    end sets eofbit and failbit.  EOF converted to char is the byte 255.

    Outcomes: [Oob_token] = a write outside the caller's token buffer, [Oob_local] = a write
    outside the local array digits, [Loop] = the fuel ran out. *)

From Coq Require Import ZArith List Bool.
From Verif Require Import Base ListMem Ascii_Model Table_Model.
Import ListNotations.
Open Scope Z_scope.

(** src/json.h:158-640 *)
Inductive res (A : Type) := Ret (a : A) | Oob_token | Oob_local | Loop | Throw.
Arguments Ret {A}. Arguments Oob_token {A}. Arguments Oob_local {A}. Arguments Loop {A}. Arguments Throw {A}.

(** ** json_state: src/json.h:40-133.  The bit stack with its top index is a list, top first
    (true = object); size::invalid + 1 = 0 levels is the empty list. *)
Record rd := {
  inp : list Z; eofb : bool; failb : bool; badb : bool;      (* std::istream *)
  maxl : Z; stk : list bool; expp : bool;                     (* json_state *)
  mem : option (list Z);                                      (* the token buffer, None = nullptr (skipping) *)
  num : list Z                                                (* the text given to atof, see [store_number] *)
}.

(** src/json.h:62-65: levels() *)
Definition levels (s : rd) : Z := zlen (stk s).
(** src/json.h:74-80: expect_property() *)
Definition expect_property (s : rd) : bool :=
  expp s && match stk s with true :: _ => true | _ => false end.

(** Updates of the stream bits, of the levels, of the token buffer: src/stream.h:101-117, src/json.h:40-127, 358-360. *)
Definition upd_flags (s : rd) (l : list Z) (e f b : bool) : rd :=
  {| inp := l; eofb := e; failb := f; badb := b; maxl := maxl s; stk := stk s; expp := expp s; mem := mem s; num := num s |}.
(** src/json.h:40-127, 358-360 *)
Definition upd_stk (s : rd) (k : list bool) (e : bool) : rd :=
  {| inp := inp s; eofb := eofb s; failb := failb s; badb := badb s; maxl := maxl s; stk := k; expp := e; mem := mem s; num := num s |}.
(** src/json.h:40-127, 358-360 *)
Definition upd_mem (s : rd) (m : option (list Z)) (n : list Z) : rd :=
  {| inp := inp s; eofb := eofb s; failb := failb s; badb := badb s; maxl := maxl s; stk := stk s; expp := expp s; mem := m; num := n |}.

(** src/json.h:83-89: set_expect_property() *)
Definition set_expect_property (s : rd) (e : bool) : rd :=
  upd_stk s (stk s) (e && match stk s with true :: _ => true | _ => false end).
(** src/json.h:92-104: push_level; the second component is its result *)
Definition push_level (s : rd) (level : bool) : rd * bool :=
  if maxl s <=? levels s then (s, false) else (upd_stk s (level :: stk s) (expp s), true).
(** src/json.h:107-127: pop_level *)
Definition pop_level (s : rd) (level : bool) : rd * bool :=
  match stk s with
  | [] => (s, false)
  | l :: k => if Bool.eqb l level then (upd_stk s k (expp s), true) else (s, false)
  end.

(** ** The stream: src/stream.h:95-126 over std::istream *)
Definition is_good (s : rd) : bool := negb (eofb s) && negb (failb s) && negb (badb s).
(** src/stream.h:95-126 *)
Definition set_bad (s : rd) : rd := upd_flags s (inp s) false true true.
(** src/stream.h:95-126 *)
Definition set_bad_if (s : rd) (c : bool) : rd := if c then set_bad s else s.
(** src/stream.h:95-126 *)
Definition set_fail (s : rd) : rd := upd_flags s (inp s) (eofb s) true (badb s).
(** src/json.h:622-645: std::istream::peek, as a char *)
Definition peek (s : rd) : Z * rd :=
  if is_good s then match inp s with
                    | c :: _ => (c, s)
                    | [] => (255, upd_flags s [] true (failb s) (badb s))
                    end
  else (255, set_fail s).
(** src/json.h:622-632: std::istream::get, as a char *)
Definition get (s : rd) : Z * rd :=
  if is_good s then match inp s with
                    | c :: l => (c, upd_flags s l (eofb s) (failb s) (badb s))
                    | [] => (255, upd_flags s [] true true (badb s))
                    end
  else (255, set_fail s).

(** src/json.h:633-643: peek_char (json::is_valid is always true, src/ascii.h:183-185). *)
Definition peek_char (s : rd) : Z * rd := peek s.
(** src/json.h:621-630: get_char *)
Definition get_char (s : rd) : Z * rd :=
  let '(ch, s) := peek_char s in if is_good s then (ch, snd (get s)) else (ch, s).

(** src/json.h:590-605: the characters stored, before the terminating null.  The stores
    themselves are checked by the callers.  [limit] = size - 1 (size_t). *)
Fixpoint get_chars (fuel : nat) (pred : Z -> bool) (limit : Z) (n : Z) (s : rd) : res (list Z * rd) :=
  match fuel with
  | O => Loop
  | S fuel' =>
      if is_good s then
        let '(ch, s) := peek_char s in
        if pred ch then
          if n =? limit then Ret ([], set_fail s)
          else let '(ch, s) := get s in
               match get_chars fuel' pred limit (n + 1) s with
               | Ret (l, s) => Ret (ch :: l, s)
               | e => e
               end
        else Ret ([], s)
      else Ret ([], s)
  end.
(** src/json.h:608-618: skip_chars, with its count *)
Fixpoint skip_chars (fuel : nat) (pred : Z -> bool) (s : rd) : res (Z * rd) :=
  match fuel with
  | O => Loop
  | S fuel' =>
      if is_good s then
        let '(ch, s) := peek_char s in
        if pred ch then
          let '(_, s) := get s in
          match skip_chars fuel' pred s with
          | Ret (n, s) => Ret (n + 1, s)
          | e => e
          end
        else Ret (0, s)
      else Ret (0, s)
  end.
(** src/json.h:584-587: skip_spaces *)
Definition skip_spaces (fuel : nat) (s : rd) : res rd :=
  match skip_chars fuel json_is_space s with
  | Ret (_, s) => Ret s | Oob_token => Oob_token | Oob_local => Oob_local | Loop => Loop | Throw => Throw
  end.

(** size - 1 at src/json.h:595 *)
Definition limit_of (size : Z) : Z := wrap_u64 (size - 1).

(** A store into the token buffer at value offset 8 (json::value_t is 8-aligned,
    src/i/json.i.h:61-74). *)
Definition value_offset : Z := 8.
(** src/json.h:367-405, 591-605 *)
Definition store (s : rd) (p : Z) (w : list Z) : res rd :=
  match mem s with
  | None => Ret s
  | Some m => match write_at m (value_offset + p) w with
              | Some m' => Ret (upd_mem s (Some m') (num s))
              | None => Oob_token
              end
  end.

(** src/json.h:557-569: get_or_skip_string_content(buffer + p, size); returns the count. *)
Definition string_content (fuel : nat) (p size : Z) (s : rd) : res (Z * rd) :=
  match mem s with
  | None => skip_chars fuel json_is_string_content s
  | Some _ =>
      match get_chars fuel json_is_string_content (limit_of size) 0 s with
      | Ret (l, s) => match store s p (l ++ [0]) with
                      | Ret s => Ret (zlen l, s)
                      | Oob_token => Oob_token | Oob_local => Oob_local | Loop => Loop | Throw => Throw
                      end
      | Oob_token => Oob_token | Oob_local => Oob_local | Loop => Loop | Throw => Throw
      end
  end.

(** src/json.h:483-554: get_escaped_char, from the backslash on. *)
Definition get_escaped_char (fuel : nat) (s : rd) : res (Z * rd) :=
  let '(ch, s) := peek_char s in
  if ch =? 92 then
    let '(_, s) := get s in
    let '(ch, s) := peek_char s in
    if (ch =? 34) || (ch =? 92) || (ch =? 47) then Ret (ch, snd (get s))
    else if ch =? 98 then Ret (8, snd (get s))
    else if ch =? 102 then Ret (12, snd (get s))
    else if ch =? 110 then Ret (10, snd (get s))
    else if ch =? 114 then Ret (13, snd (get s))
    else if ch =? 116 then Ret (9, snd (get s))
    else if ch =? 117 then
      let '(_, s) := get s in
      match get_chars fuel is_hex (limit_of 5) 0 s with          (* 519-521 *)
      | Ret (h, s) =>
          match h with
          | [a; b; c; d] =>
              if (a =? 48) && (b =? 48) then Ret (Z.lor (Z.shiftl (hex c) 4) (hex d), s)   (* 531-533 *)
              else Ret (0, set_bad s)                                                    (* 534-541 *)
          | _ => Ret (0, set_bad s)                                                      (* 523-530 *)
          end
      | Oob_token => Oob_token | Oob_local => Oob_local | Loop => Loop | Throw => Throw
      end
    else Ret (ch, s)
  else Ret (0, set_bad s).

(** src/json.h:379-393: the loop of get_or_skip_string; [g] = gcount. *)
Fixpoint string_loop (fuel : nat) (size g : Z) (s : rd) : res (Z * rd) :=
  match fuel with
  | O => Loop
  | S fuel' =>
      match string_content fuel' g (wrap_u64 (size - g)) s with           (* 380 *)
      | Ret (n, s) =>
          let g := g + n in
          let '(ch, s) := peek_char s in                                  (* 382 *)
          if ch =? 34 then Ret (g, snd (get s))                           (* 383-386 *)
          else if ch =? 92 then                                           (* 387-392 *)
            match get_escaped_char fuel' s with
            | Ret (ech, s) =>
                match mem s with
                | None => string_loop fuel' size g s
                | Some _ => match store s g [ech] with
                            | Ret s => string_loop fuel' size (g + 1) s
                            | Oob_token => Oob_token | Oob_local => Oob_local | Loop => Loop | Throw => Throw
                            end
                end
            | Oob_token => Oob_token | Oob_local => Oob_local | Loop => Loop | Throw => Throw
            end
          else string_loop fuel' size g s
      | Oob_token => Oob_token | Oob_local => Oob_local | Loop => Loop | Throw => Throw
      end
  end.

(** src/json.h:366-405: get_or_skip_string; returns gcount. *)
Definition get_or_skip_string (fuel : nat) (size : Z) (s : rd) : res (Z * rd) :=
  let '(ch, s) := peek_char s in
  match (if ch =? 34 then string_loop fuel size 0 (snd (get s)) else Ret (0, s)) with
  | Ret (g, s) => match store s g [0] with
                  | Ret s => Ret (g, s)
                  | Oob_token => Oob_token | Oob_local => Oob_local | Loop => Loop | Throw => Throw
                  end
  | Oob_token => Oob_token | Oob_local => Oob_local | Loop => Loop | Throw => Throw
  end.

(** char digits[19 + 6 + 1]: src/json.h:416 *)
Definition digits_size : Z := 26.
(** src/json.h:578-581 on the local array digits[26]: characters from index [n] on. *)
Definition get_digits (fuel : nat) (n : Z) (s : rd) : res (list Z * rd) :=
  match get_chars fuel is_digit (limit_of (wrap_u64 (digits_size - n))) 0 s with
  | Ret (l, s) => if n + zlen l + 1 <=? digits_size then Ret (l, s) else Oob_local     (* the null at 602 *)
  | e => e
  end.
(** digits[gcount++] = base::get(): src/json.h:420, 427, 434, 438 *)
Definition get_digit_char (d : list Z) (s : rd) : res (list Z * rd) :=
  let '(ch, s) := get s in
  if zlen d + 1 <=? digits_size then Ret (d ++ [ch], s) else Oob_local.

(** src/json.h:158-640 *)
Definition bind {A B} (x : res A) (f : A -> res B) : res B :=
  match x with Ret a => f a | Oob_token => Oob_token | Oob_local => Oob_local | Loop => Loop | Throw => Throw end.
Notation "'do' a <- x ; y" := (bind x (fun a => y)) (at level 200, a pattern, x at level 100, y at level 200).

(** src/json.h:418-423: the sign and the integer part *)
Definition number_int (fuel : nat) (s : rd) : res (list Z * rd) :=
  let '(ch, s) := peek_char s in
  do (d, s) <- (if (ch =? 43) || (ch =? 45) then get_digit_char [] s else Ret ([], s));
  do (l, s) <- get_digits fuel (zlen d) s;
  Ret (d ++ l, s).
(** src/json.h:425-430: the fraction *)
Definition number_frac (fuel : nat) (d : list Z) (s : rd) : res (list Z * rd) :=
  let '(ch, s) := peek_char s in
  if ch =? 46 then
    do (d, s) <- get_digit_char d s;
    do (l, s) <- get_digits fuel (zlen d) s;
    Ret (d ++ l, s)
  else Ret (d, s).
(** src/json.h:432-442: the exponent *)
Definition number_exp (fuel : nat) (d : list Z) (s : rd) : res (list Z * rd) :=
  let '(ch, s) := peek_char s in
  if (ch =? 101) || (ch =? 69) then
    do (d, s) <- get_digit_char d s;
    let '(ch, s) := peek_char s in
    do (d, s) <- (if (ch =? 43) || (ch =? 45) then get_digit_char d s else Ret (d, s));
    do (l, s) <- get_digits fuel (zlen d) s;
    Ret (d ++ l, s)
  else Ret (d, s).
(** src/json.h:408-455: get_or_skip_number.  atof is not modelled: its argument is kept in [num]
    (446-450; the value has 8 bytes at offset 8, inside every buffer get_token accepts). *)
Definition get_or_skip_number (fuel : nat) (s : rd) : res rd :=
  do (d, s) <- number_int fuel s;
  do (d, s) <- number_frac fuel d s;
  do (d, s) <- number_exp fuel d s;
  if zlen d + 1 <=? digits_size                                   (* 444 *)
  then Ret (match mem s with None => s | Some _ => upd_mem s (mem s) d end)
  else Oob_local.

(** src/json.h:458-480: get_literal *)
Fixpoint get_literal (lit : list Z) (s : rd) : rd :=
  match lit with
  | [] => s
  | c :: lit' => let '(ch, s) := get_char s in if ch =? c then get_literal lit' s else set_bad s
  end.

(** src/i/json.i.h:44-55 *)
Inductive item := none | null | boolean | number | string | begin_array | end_array | begin_object | end_object | property.

(** The literals: src/json.h:256, 262, 272 and 769, 793, 796 *)
Definition lit_null : list Z := [110; 117; 108; 108].
(** src/json.h:262 *)
Definition lit_false : list Z := [102; 97; 108; 115; 101].
(** src/json.h:272 *)
Definition lit_true : list Z := [116; 114; 117; 101].

(** sizeof(json::item_t): src/i/json.i.h:41, used at src/json.h:207 *)
Definition sizeof_item : Z := 2.

(** src/json.h:214-253: a property name or a closing brace is expected. *)
Definition token_property (fuel : nat) (size : Z) (ch : Z) (s : rd) : res (item * bool * rd) :=
  if ch =? 34 then
    do (g, s) <- get_or_skip_string fuel (wrap_u64 (size - sizeof_item)) s;
    do (it, s) <-
      (if is_good s then
         do s <- skip_spaces fuel s;
         let '(ch, s) := peek_char s in
         if ch =? 58 then Ret (property, snd (get s)) else Ret (property, set_bad s)
       else Ret (none, s));
    Ret (it, false, set_expect_property s false)
  else if ch =? 125 then
    let '(_, s) := get s in
    let '(s, ok) := pop_level s true in
    Ret (end_object, true, set_expect_property (set_bad_if s (negb ok)) true)
  else Ret (none, true, set_bad s).

(** src/json.h:254-320: a value or a closing bracket is expected. *)
Definition token_value (fuel : nat) (size : Z) (ch : Z) (s : rd) : res (item * bool * rd) :=
  do (r, s) <-
    (if ch =? 110 then
       let s := get_literal lit_null s in
       Ret ((if is_good s then null else none, true), s)
     else if ch =? 102 then
       let s := get_literal lit_false s in
       if is_good s then do s <- store s 0 [0]; Ret ((boolean, true), s) else Ret ((none, true), s)
     else if ch =? 116 then
       let s := get_literal lit_true s in
       if is_good s then do s <- store s 0 [1]; Ret ((boolean, true), s) else Ret ((none, true), s)
     else if is_digit ch || (ch =? 43) || (ch =? 45) then
       do s <- get_or_skip_number fuel s; Ret ((number, true), s)
     else if ch =? 34 then
       do (g, s) <- get_or_skip_string fuel (wrap_u64 (size - sizeof_item)) s;
       Ret ((if is_good s then string else none, true), s)
     else if ch =? 91 then
       let '(_, s) := get s in
       let '(s, ok) := push_level s false in Ret ((begin_array, false), set_bad_if s (negb ok))
     else if ch =? 93 then
       let '(_, s) := get s in
       let '(s, ok) := pop_level s false in Ret ((end_array, true), set_bad_if s (negb ok))
     else if ch =? 123 then
       let '(_, s) := get s in
       let '(s, ok) := push_level s true in Ret ((begin_object, false), set_bad_if s (negb ok))
     else Ret ((none, true), set_bad s));
  Ret (r, set_expect_property s true).

(** src/json.h:323-350: the comma or closing bracket after a token. *)
Definition trailing (fuel : nat) (s : rd) : res rd :=
  do s <- skip_spaces fuel s;
  let '(ch, s) := peek_char s in
  if ch =? 44 then Ret (snd (get s))
  else if expect_property s then Ret (set_bad_if s (negb (ch =? 125)))
  else Ret (set_bad_if s (negb (ch =? 93))).

(** src/json.h:198-363: get_or_skip_token.  gcount and the item stored at offset 0 of the
    buffer (352, 359) are not kept; the item is returned. *)
Definition get_or_skip_token (fuel : nat) (size : Z) (s : rd) : res (item * rd) :=
  do s <- skip_spaces fuel s;
  let '(ch, s) := peek_char s in
  do (r, s) <- (if expect_property s then token_property fuel size ch s else token_value fuel size ch s);
  let '(it, trail) := r in
  do s <- (if trail && (0 <? levels s) then trailing fuel s else Ret s);
  Ret (it, s).

(** sizeof(json::token_t): src/i/json.i.h:71-74 *)
Definition sizeof_token : Z := 16.

(** the buffer argument of get_or_skip_token: src/json.h:172, 186 *)
Definition with_mem (s : rd) (m : option (list Z)) : rd := upd_mem s m [].

(** src/json.h:157-173: get_token(buffer, size) with [m] = the size bytes of the buffer. *)
Definition get_token (fuel : nat) (m : list Z) (s : rd) : res (item * rd) :=
  if zlen m <? sizeof_token then Throw
  else get_or_skip_token fuel (zlen m) (with_mem s (Some m)).

(** src/json.h:176-195: skip_value; [n] bounds the iterations of the do-while loop. *)
Fixpoint skip_loop (fuel n : nat) (base : Z) (s : rd) : res (item * rd) :=
  match n with
  | O => Loop
  | S n' =>
      do (it, s) <- get_or_skip_token fuel 0 (with_mem s None);
      if base <? levels s then skip_loop fuel n' base s else Ret (it, s)
  end.
(** src/json.h:177-195 *)
Definition skip_value (fuel : nat) (s : rd) : res (item * rd) := skip_loop fuel fuel (levels s) s.

(** A fresh reader (src/json.h:139-147). *)
Definition reader (max_levels : Z) (input : list Z) : rd :=
  {| inp := input; eofb := false; failb := false; badb := false; maxl := max_levels; stk := []; expp := false; mem := None; num := [] |}.

(** src/i/json.i.h:71-80: What the caller finds in the token after get_token. *)
Inductive token := TNone | TNull | TBool (b : bool) | TNum (text : list Z) | TStr (s : list Z)
  | TBegA | TEndA | TBegO | TEndO | TProp (s : list Z).
(** src/json.h:158-173 *)
Definition observe (it : item) (s : rd) : option token :=
  let value := match mem s with Some m => drop value_offset m | None => [] end in
  match it with
  | none => Some TNone | null => Some TNull
  | boolean => match value with b :: _ => Some (TBool (negb (b =? 0))) | [] => None end
  | number => Some (TNum (num s))
  | string => option_map TStr (c_str value)
  | property => option_map TProp (c_str value)
  | begin_array => Some TBegA | end_array => Some TEndA | begin_object => Some TBegO | end_object => Some TEndO
  end.

(** src/json.h:158-173: n calls of get_token, each with a buffer of [size] bytes; the tokens found. *)
Fixpoint get_tokens (fuel : nat) (n : nat) (bufs : nat -> list Z) (s : rd) : res (list (option token) * rd) :=
  match n with
  | O => Ret ([], s)
  | S n' => do (it, s1) <- get_token fuel (bufs n') s;
            do (l, s2) <- get_tokens fuel n' bufs s1;
            Ret (observe it s1 :: l, s2)
  end.

(** ** json_ostream *)
(** src/i/json.i.h:331 *)
Record wr := { out : list Z; room : option nat;      (* what the sink still accepts, None = everything *)
               wbad : bool;                            (* some error bit is set *)
               wmax : Z; wstk : list bool; wexp : bool; skip_comma : bool }.

(** json_state of the writer: src/json.h:62-127, as for the reader. *)
Definition wlevels (w : wr) : Z := zlen (wstk w).
(** src/json.h:62-127 *)
Definition wexpect (w : wr) : bool := wexp w && match wstk w with true :: _ => true | _ => false end.
(** src/stream.h:102-105 *)
Definition w_set_bad (w : wr) : wr :=
  {| out := out w; room := room w; wbad := true; wmax := wmax w; wstk := wstk w; wexp := wexp w; skip_comma := skip_comma w |}.
(** src/json.h:62-127 *)
Definition w_upd (w : wr) (k : list bool) (e : bool) (sc : bool) : wr :=
  {| out := out w; room := room w; wbad := wbad w; wmax := wmax w; wstk := k;
     wexp := e && match k with true :: _ => true | _ => false end; skip_comma := sc |}.

(** src/json.h:1008: std::ostream::put on a good stream *)
Definition w_put1 (w : wr) (c : Z) : wr :=
  match room w with
  | Some O => w_set_bad w
  | Some (S n) => {| out := out w ++ [c]; room := Some n; wbad := wbad w; wmax := wmax w; wstk := wstk w; wexp := wexp w; skip_comma := skip_comma w |}
  | None => {| out := out w ++ [c]; room := None; wbad := wbad w; wmax := wmax w; wstk := wstk w; wexp := wexp w; skip_comma := skip_comma w |}
  end.
(** src/json.h:980-1004: put_chars *)
Fixpoint put_chars (w : wr) (l : list Z) : wr :=
  match l with
  | [] => w
  | c :: l' => if wbad w then w else put_chars (w_put1 w c) l'
  end.

(** The comma in front of an array element: src/json.h:765-767 and the like; levels() > 0, top_level() (68-71) and _skip_comma. *)
Definition comma_if (w : wr) (level : bool) : wr :=
  if (0 <? wlevels w) && match wstk w with l :: _ => Bool.eqb l level | [] => negb level end && negb (skip_comma w)
  then put_chars w [44] else w.

(** src/json.h:753-773 put_null, 776-801 put_boolean, 804-827 put_number ([text] is what
    snprintf %.16lg prints), 830-856 put_string. *)
Definition put_scalar (w : wr) (text : list Z) : wr :=
  if wexpect w then w_set_bad w
  else let w := comma_if w false in
       let w := put_chars w text in
       w_upd w (wstk w) true false.
(** the three put_chars at src/json.h:850-852 *)
Definition put_string_text (s : list Z) : list Z := [34] ++ s ++ [34].
(** src/json.h:859-885: put_property *)
Definition put_property (w : wr) (s : list Z) : wr :=
  if negb (wexpect w) then w_set_bad w
  else let w := comma_if w true in
       let w := put_chars w ([34] ++ s ++ [34; 58]) in
       w_upd w (wstk w) false true.
(** src/json.h:92-104 with set_bad_if(!push_level(..)) *)
Definition w_push (w : wr) (l : bool) : wr :=
  if wmax w <=? wlevels w then w_set_bad w else w_upd w (l :: wstk w) (wexp w) (skip_comma w).
(** src/json.h:107-127 with set_bad_if(!pop_level(..)) *)
Definition w_pop (w : wr) (l : bool) : wr :=
  match wstk w with
  | [] => w_set_bad w
  | l' :: k => if Bool.eqb l' l then w_upd w k (wexp w) (skip_comma w) else w_set_bad w
  end.
(** src/json.h:888-910: put_begin_array *)
Definition put_begin_array (w : wr) : wr :=
  if wexpect w then w_set_bad w
  else let w := put_chars (comma_if w false) [91] in
       let w := w_push w false in w_upd w (wstk w) false true.
(** src/json.h:913-931: put_end_array *)
Definition put_end_array (w : wr) : wr :=
  if wexpect w then w_set_bad w
  else let w := w_pop (put_chars w [93]) false in w_upd w (wstk w) true false.
(** src/json.h:934-956: put_begin_object *)
Definition put_begin_object (w : wr) : wr :=
  if wexpect w then w_set_bad w
  else let w := put_chars (comma_if w false) [123] in
       let w := w_push w true in w_upd w (wstk w) true true.
(** src/json.h:959-977: put_end_object *)
Definition put_end_object (w : wr) : wr :=
  if negb (wexpect w) then w_set_bad w
  else let w := w_pop (put_chars w [125]) true in w_upd w (wstk w) true false.

(** The calls: tokens (src/json.h:669-726 put_token dispatches to the same functions,
    its size being the length of the string) and the white space writers (729-750). *)
Inductive put_op := Tok (t : token) | Ws (c : Z).
(** src/json.h:669-726 *)
Definition put_token (w : wr) (t : token) : wr :=
  match t with
  | TNone => w_set_bad w
  | TNull => put_scalar w lit_null
  | TBool b => put_scalar w (if b then lit_true else lit_false)
  | TNum text => put_scalar w text
  | TStr s => put_scalar w (put_string_text s)
  | TProp s => put_property w s
  | TBegA => put_begin_array w
  | TEndA => put_end_array w
  | TBegO => put_begin_object w
  | TEndO => put_end_object w
  end.
(** src/json.h:669-726 *)
Definition put_op_run (w : wr) (o : put_op) : wr := match o with Tok t => put_token w t | Ws c => put_chars w [c] end.
(** src/json.h:669-726 *)
Definition put_ops (w : wr) (ops : list put_op) : wr := fold_left put_op_run ops w.
(** A fresh writer (src/json.h:649-658). *)
Definition writer (max_levels : Z) (room : option nat) : wr :=
  {| out := []; room := room; wbad := false; wmax := max_levels; wstk := []; wexp := false; skip_comma := false |}.
