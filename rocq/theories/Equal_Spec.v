(** Specification for C117: what a comparison of blobs says and shows.  A shown piece of a blob is read back
    with parse_dump_line of Table_Spec.v. *)

From Coq Require Import String.
From Coq Require Import ZArith List Bool.
From Verif Require Import Base Table_Spec.
Import ListNotations.
Open Scope Z_scope.

(** The uninitialised buffers of the lines have their size. *)
Definition raws_ok (raw : nat -> list Z * list Z) : Prop := forall i, zlen (fst (raw i)) = 2050 /\ zlen (snd (raw i)) = 2050.

(** The first [size] bytes are the same. *)
Definition same_bytes (size : Z) (a b : list Z) : Prop := forall k, 0 <= k < size -> nth (Z.to_nat k) a 0 = nth (Z.to_nat k) b 0.

(** The message [e] = (severity, text) says [word] and shows the piece of both blobs from [offset] on:
    [da] of the actual one and [de] of the expected one. *)
Definition shows (e : Z * list Z) (severity : Z) (word : string) (offset : Z) (da de : list Z) : Prop :=
  exists a x, e = (severity, bytes_of_string word ++ bytes_of_string ": are_equal(actual=" ++ a ++ bytes_of_string ", expected=" ++ x ++ bytes_of_string ")")
  /\ zlen a = 72 /\ zlen x = 72
  /\ parse_dump_line a = Some (offset, da) /\ parse_dump_line x = Some (offset, de).

(** 16 bytes of a blob *)
Definition piece (i : nat) (d : list Z) : list Z := firstn 16 (skipn (16 * i) d).

(** The byte at [k] is shown as different. *)
Definition difference_shown (es : list (Z * list Z)) (k : Z) (actual expected : list Z) : Prop :=
  exists i e o da de j, nth_error es i = Some e /\ shows e 3 "Fail" o da de
  /\ k = 16 * Z.of_nat i + Z.of_nat j
  /\ nth_error da j = nth_error actual (Z.to_nat k) /\ nth_error de j = nth_error expected (Z.to_nat k)
  /\ nth_error da j <> nth_error de j.
