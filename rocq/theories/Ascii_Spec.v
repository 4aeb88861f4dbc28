(** Independent specification for C01. *)

From Coq Require Import ZArith List Bool.
Import ListNotations.
Open Scope Z_scope.

(** The memory of a C string: its characters, the terminating NUL, and
    whatever bytes happen to follow. *)
Definition c_string (chars rest : list Z) : list Z := chars ++ 0 :: rest.

(** Characters of a C string are not NUL. *)
Definition no_nul (chars : list Z) : Prop := Forall (fun c => c <> 0) chars.

(** Lower case of the English letters; 'A'=65 'Z'=90 'a'=97. *)
Definition lower (c : Z) : Z :=
  if Z.leb 65 c && Z.leb c 90 then c + 32 else c.

(** Two characters differ at most by letter case. *)
Definition same_letter (c d : Z) : Prop :=
  c = d \/ (65 <= c <= 90 /\ d = c + 32) \/ (65 <= d <= 90 /\ c = d + 32).
