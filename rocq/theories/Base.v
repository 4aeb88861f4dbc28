(** Shared basics: bytes, fixed-width integers.

    A C++ [char] is represented by its byte value, a [Z] in [0,255] (the
    signed view differs only for bytes >= 0x80, see [schar]). *)

From Coq Require Import ZArith List Bool.
From Coq Require Import Ascii String.
Import ListNotations.
Open Scope Z_scope.

Definition byte_ok (c : Z) : Prop := 0 <= c < 256.

(** The value of a byte seen as a signed [char] (x86/ARM-Linux gcc default is
    signed on x86; the comparisons in the code are against ASCII constants). *)
Definition schar (c : Z) : Z := if c <? 128 then c else c - 256.

(** Two's complement truncations (C++ integral conversions). *)
Definition wrap_u8 (x : Z) : Z := x mod 2 ^ 8.
Definition wrap_u16 (x : Z) : Z := x mod 2 ^ 16.
Definition wrap_u32 (x : Z) : Z := x mod 2 ^ 32.
Definition wrap_u64 (x : Z) : Z := x mod 2 ^ 64.
Definition wrap_s16 (x : Z) : Z := (x + 2 ^ 15) mod 2 ^ 16 - 2 ^ 15.
Definition wrap_s32 (x : Z) : Z := (x + 2 ^ 31) mod 2 ^ 32 - 2 ^ 31.
Definition wrap_s64 (x : Z) : Z := (x + 2 ^ 63) mod 2 ^ 64 - 2 ^ 63.

(** String literals as byte lists, for readable examples. *)
Fixpoint bytes_of_string (s : string) : list Z :=
  match s with
  | EmptyString => []
  | String c s' => Z.of_nat (nat_of_ascii c) :: bytes_of_string s'
  end.

(** [zlen] avoids [nat] arithmetic in statements. *)
Definition zlen {A} (l : list A) : Z := Z.of_nat (List.length l).
