(** Model of src/ascii.h: character classes and string comparison. *)

From Coq Require Import ZArith List Bool.
From Verif Require Import Base.
Import ListNotations.
Open Scope Z_scope.

(** src/ascii.h:34-36.  The parameters are [char]; all bounds used in the
    code are in [0,0x7f], so on signed chars a byte >= 0x80 (negative) is never
    between them, and neither is its unsigned view. *)
Definition is_between (ch low high : Z) : bool := (low <=? ch) && (ch <=? high).

(** src/ascii.h:39-41 *)
Definition is_ascii (ch : Z) : bool := is_between ch 0 127.
(** src/ascii.h:44-46 *)
Definition is_digit (ch : Z) : bool := is_between ch 48 57.
(** src/ascii.h:49-51 *)
Definition is_hex (ch : Z) : bool := is_digit ch || is_between ch 65 70 || is_between ch 97 102.
(** src/ascii.h:54-56 *)
Definition is_upperalpha (ch : Z) : bool := is_between ch 65 90.
(** src/ascii.h:59-61 *)
Definition is_loweralpha (ch : Z) : bool := is_between ch 97 122.
(** src/ascii.h:64-66 *)
Definition is_alpha (ch : Z) : bool := is_upperalpha ch || is_loweralpha ch.
(** src/ascii.h:69-71 *)
Definition to_upper (ch : Z) : Z := if is_loweralpha ch then 65 + (ch - 97) else ch.
(** src/ascii.h:74-76 *)
Definition to_lower (ch : Z) : Z := if is_upperalpha ch then 97 + (ch - 65) else ch.
(** src/ascii.h:79-81 *)
Definition is_space (ch : Z) : bool := (ch =? 32) || (ch =? 9).
(** src/ascii.h:84-86 *)
Definition is_control (ch : Z) : bool := is_between ch 0 31 || (ch =? 127).
(** src/ascii.h:89-91 *)
Definition is_stdprint (ch : Z) : bool := is_between ch 32 126.
(** src/ascii.h:94-96 *)
Definition is_abcprint (ch : Z) : bool := is_between ch 33 126.
(** src/ascii.h:99-101 *)
Definition is_abcprint_or_space (ch : Z) : bool := is_abcprint ch || is_space ch.
(** src/ascii.h:104-116 *)
Definition hex (ch : Z) : Z :=
  if is_digit ch then ch - 48
  else if is_between ch 65 70 then 10 + (ch - 65)
  else if is_between ch 97 102 then 10 + (ch - 97)
  else 0.

(** src/ascii.h:168-173: space, tab, ( ) < > [ ] { } @ , ; : backslash / double-quote ? = *)
Definition http_is_separator (ch : Z) : bool :=
  is_space ch ||
  (ch =? 40) || (ch =? 41) || (ch =? 60) || (ch =? 62) || (ch =? 91) || (ch =? 93) || (ch =? 123) || (ch =? 125) ||
  (ch =? 64) || (ch =? 44) || (ch =? 59) || (ch =? 58) || (ch =? 92) || (ch =? 47) || (ch =? 34) || (ch =? 63) || (ch =? 61).
(** src/ascii.h:176-178 *)
Definition http_is_token (ch : Z) : bool := is_abcprint ch && negb (http_is_separator ch).

(** src/ascii.h:188-190 *)
Definition json_is_space (ch : Z) : bool := is_space ch || (ch =? 13) || (ch =? 10).
(** src/ascii.h:193-195 (with is_valid = true, 183-185) *)
Definition json_is_string_content (ch : Z) : bool := negb (ch =? 34) && negb (ch =? 92).

(** src/ascii.h:147-195: A C string in memory: the bytes from the pointer on.  Reading beyond the
    end of the list is outside the allocation, reported as [None]. *)
Definition char_at (mem : list Z) (i : nat) : option Z := nth_error mem i.

(** The loop of src/ascii.h:128-143, at index [i], with [fuel] iterations left
    before [max_chars] is reached.  [None] = a read outside the allocation. *)
Fixpoint are_equal_loop (case_sensitive : bool) (m1 m2 : list Z) (i : nat) (fuel : nat) : option bool :=
  match fuel with
  | O => Some true                                              (* 143 *)
  | S fuel' =>
      match char_at m1 i, char_at m2 i with
      | Some ch1, Some ch2 =>
          let eq := if case_sensitive then ch1 =? ch2 else to_lower ch1 =? to_lower ch2 in   (* 132 *)
          if negb eq then Some false                            (* 134-136 *)
          else if (ch1 =? 0) && (ch2 =? 0) then Some true       (* 138-140 *)
          else are_equal_loop case_sensitive m1 m2 (S i) fuel'
      | _, _ => None
      end
  end.

(** src/ascii.h:119-144.  A null pointer is [None]. *)
Definition are_equal4 (s1 s2 : option (list Z)) (case_sensitive : bool) (max_chars : nat) : option bool :=
  match s1 with
  | None => match s2 with None => Some true | Some _ => Some false end   (* 120-122 *)
  | Some m1 =>
      match s2 with
      | None => Some false                                               (* 124-126 *)
      | Some m2 => are_equal_loop case_sensitive m1 m2 0 max_chars
      end
  end.

(** size::strlen = SIZE_MAX (src/size.h).  The unbounded forms stop at the
    terminators, so any bound above both lengths gives the same result; the
    model uses the length of the first allocation plus one. *)
Definition unbounded (s1 : option (list Z)) : nat :=
  match s1 with None => 0%nat | Some m => S (List.length m) end.

(** src/ascii.h:147-149 *)
Definition are_equal (s1 s2 : option (list Z)) : option bool := are_equal4 s1 s2 true (unbounded s1).
(** src/ascii.h:152-154 *)
Definition are_equal_i (s1 s2 : option (list Z)) : option bool := are_equal4 s1 s2 false (unbounded s1).
(** src/ascii.h:157-159 *)
Definition are_equal_n (s1 s2 : option (list Z)) (n : nat) : option bool := are_equal4 s1 s2 true n.
(** src/ascii.h:162-164 *)
Definition are_equal_i_n (s1 s2 : option (list Z)) (n : nat) : option bool := are_equal4 s1 s2 false n.
