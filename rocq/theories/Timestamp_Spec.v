(** Independent specification of the calendar (C16-C18). *)

From Coq Require Import ZArith Bool.
Open Scope Z_scope.

Definition date : Type := Z * Z * Z.   (* year, month, day *)

Definition leap (y : Z) : bool :=
  (y mod 4 =? 0) && (negb (y mod 100 =? 0) || (y mod 400 =? 0)).

Definition month_days (y m : Z) : Z :=
  if m =? 2 then (if leap y then 29 else 28)
  else if (m =? 4) || (m =? 6) || (m =? 9) || (m =? 11) then 30 else 31.

(** The day after a given day in the Gregorian calendar. *)
Definition next_day (d : date) : date :=
  let '(y, m, k) := d in
  if k <? month_days y m then (y, m, k + 1)
  else if m <? 12 then (y, m + 1, 1)
  else (y + 1, 1, 1).

(** The Gregorian date of the n-th day after Jan 1, 1970. *)
Definition gregorian (n : nat) : date := Nat.iter n next_day (1970, 1, 1).

Definition is_leap_day (d : date) : bool := let '(_, m, k) := d in (m =? 2) && (k =? 29).

(** Nanoseconds per day. *)
Definition day_ns : Z := 86400 * 1000000000.

(** Lexicographic order on dates. *)
Definition date_le (a b : date) : Prop :=
  let '(y1, m1, d1) := a in let '(y2, m2, d2) := b in
  y1 < y2 \/ (y1 = y2 /\ (m1 < m2 \/ (m1 = m2 /\ d1 <= d2))).

(** The 64-bit nanosecond counts. *)
Definition int64 (n : Z) : Prop := - 2 ^ 63 <= n < 2 ^ 63.
