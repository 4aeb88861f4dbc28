(** Model of the solver in samples/basic/equations.h: equations_endpoint::process_rest_request,
    lines 214-236 (from the determinants to the status).  The arithmetic is exact: any field stands
    for the double of the code (C54 is about exact arithmetic); parsing and sending are not modelled here. *)

From Coq Require Import ZArith Bool SpecFloat.
Open Scope Z_scope.

(** samples/basic/equations.h:215-236: The operators the code uses on double. *)
Record arith (F : Type) := { zero : F; sub : F -> F -> F; mul : F -> F -> F; div : F -> F -> F; is_zero : F -> bool }.
Arguments zero {F}. Arguments sub {F}. Arguments mul {F}. Arguments div {F}. Arguments is_zero {F}.

(** samples/basic/equations.h:215-236: status, x and y for the matrix a and the right-hand side b *)
Definition solve {F} (o : arith F) (a00 a01 a10 a11 b0 b1 : F) : Z * F * F :=
  let det := sub o (mul o a00 a11) (mul o a01 a10) in
  let det_x := sub o (mul o b0 a11) (mul o a01 b1) in
  let det_y := sub o (mul o a00 b1) (mul o b0 a10) in
  if negb (is_zero o det) then (1, div o det_x det, div o det_y det)
  else if negb (is_zero o det_x) || negb (is_zero o det_y) then (0, zero o, zero o)
  else (2, zero o, zero o).

(** samples/basic/equations.h:215-236: double: the IEEE 754 operations, rounding to nearest even (Coq.Floats.SpecFloat with 53 and 1024) *)
Definition double_arith : arith spec_float :=
  {| zero := S754_zero false; sub := SFsub 53 1024; mul := SFmul 53 1024; div := SFdiv 53 1024;
     is_zero := fun x => SFeqb x (S754_zero false) |}.
