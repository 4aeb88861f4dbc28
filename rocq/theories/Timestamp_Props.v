(** C16, C17, C18: timestamp. *)

From Coq Require Import ZArith Bool List.
From Verif Require Import Base Timestamp_Model Timestamp_Spec Timestamp_Proofs.
Open Scope Z_scope.

(** C16 full claim: forall n, 0 <= n < 2^63 ->
      (year, month, day) (reset n) = gregorian (n / day_ns).
    It is false: 1972-02-29 is shown as 1972-03-01 ... *)
Theorem C16_date_refuted : exists n, 0 <= n < 2 ^ 63
  /\ gregorian (Z.to_nat (n / day_ns)) = (1972, 2, 29)
  /\ (year (reset n), month (reset n), day (reset n)) = (1972, 3, 1).
Proof. exists (789 * day_ns). vm_compute. repeat split; congruence. Qed.

(** ... 2070-02-28 is shown as 2070-03-01, and from 2100-03-02 on the date lags a day. *)
Theorem C16_date_refuted_2070 : exists n, 0 <= n < 2 ^ 63
  /\ gregorian (Z.to_nat (n / day_ns)) = (2070, 2, 28)
  /\ (year (reset n), month (reset n), day (reset n)) = (2070, 3, 1).
Proof.
  exists (36583 * day_ns). split; [vm_compute; split; congruence|]. split; [|vm_compute; reflexivity].
  change (36583 * day_ns / day_ns) with 36583. exact day_36583.
Qed.
Theorem C16_date_refuted_2100 : exists n, 0 <= n < 2 ^ 63
  /\ gregorian (Z.to_nat (n / day_ns)) = (2100, 3, 2)
  /\ (year (reset n), month (reset n), day (reset n)) = (2100, 3, 1).
Proof.
  exists (47542 * day_ns). split; [vm_compute; split; congruence|]. split; [|vm_compute; reflexivity].
  change (47542 * day_ns / day_ns) with 47542. exact day_47542.
Qed.

(** Before the epoch (negative counts) the date is wrong as well: 1969-12-31 is shown as 1970-01-01. *)
Theorem C16_date_refuted_negative : exists n, int64 n /\ - day_ns < n < 0
  /\ (year (reset n), month (reset n), day (reset n)) = (1970, 1, 1)
  /\ hours (reset n) < 0.
Proof. exists (-7200 * 1000000000). vm_compute. repeat split; congruence. Qed.

(** Up to and including 2100-03-01 (every nanosecond of it) the date is right
    exactly when the day is neither a leap day nor 2070-02-28. *)
Theorem C16_date_partial : forall n, 0 <= n < 47542 * day_ns ->
  ((year (reset n), month (reset n), day (reset n)) = gregorian (Z.to_nat (n / day_ns))
   <-> (is_leap_day (gregorian (Z.to_nat (n / day_ns))) = false /\ n / day_ns <> 36583)).
Proof. exact timestamp_date. Qed.
Example C16_ex : gregorian (Z.to_nat (19000 * day_ns / day_ns)) = (2022, 1, 8)
  /\ (year (reset (19000 * day_ns + 5)), month (reset (19000 * day_ns + 5)), day (reset (19000 * day_ns + 5))) = (2022, 1, 8)
  /\ gregorian (Z.to_nat 47541) = (2100, 3, 1).
Proof. split; [|split; [vm_compute; reflexivity|exact day_47541]]. vm_compute. reflexivity. Qed.

(** C17: for every non-negative 64-bit nanosecond count the time parts are in
    range and recombine to the time since midnight. *)
Theorem C17_time_of_day_partial : forall n, 0 <= n < 2 ^ 63 ->
  let t := reset n in
  0 <= hours t < 24 /\ 0 <= minutes t < 60 /\ 0 <= seconds t < 60 /\ 0 <= nanoseconds t < 1000000000
  /\ milliseconds t = nanoseconds t / 1000000 /\ microseconds t = nanoseconds t / 1000
  /\ ((hours t * 60 + minutes t) * 60 + seconds t) * 1000000000 + nanoseconds t = n mod day_ns.
Proof. exact timestamp_time. Qed.
Example C17_ex : let t := reset (86399999999999 + 100 * day_ns) in
  (hours t, minutes t, seconds t, milliseconds t, microseconds t, nanoseconds t) = (23, 59, 59, 999, 999999, 999999999).
Proof. vm_compute. reflexivity. Qed.
(** For negative counts the claim fails: the parts are negative. *)
Theorem C17_time_of_day_refuted : exists n, int64 n /\ ~ (0 <= seconds (reset n) < 60).
Proof. exists (-1000000000). vm_compute. split; [split; congruence|]. intros [H _]. apply H. reflexivity. Qed.

(** C18: the comparison operators are exactly the order of the time points
    (for all 64-bit counts, negative ones included), hence mutually consistent and total. *)
Theorem C18_comparisons : forall n m, int64 n -> int64 m ->
  ts_eq (reset n) (reset m) = (n =? m) /\ ts_ne (reset n) (reset m) = negb (n =? m)
  /\ ts_lt (reset n) (reset m) = (n <? m) /\ ts_le (reset n) (reset m) = (n <=? m)
  /\ ts_gt (reset n) (reset m) = (m <? n) /\ ts_ge (reset n) (reset m) = (m <=? n).
Proof. exact ts_cmp. Qed.
Example C18_ex : int64 (-5) /\ int64 (2 ^ 63 - 1) /\ ts_lt (reset (-5)) (reset (2 ^ 63 - 1)) = true.
Proof. vm_compute. repeat split; congruence. Qed.

(** The shown date never goes back ... *)
Theorem C18_shown_date_monotone : forall n m, 0 <= n <= m -> m < 2 ^ 63 ->
  date_le (year (reset n), month (reset n), day (reset n)) (year (reset m), month (reset m), day (reset m)).
Proof. exact timestamp_date_mono. Qed.
(** ... but the shown date and time do: on a leap day the next midnight shows the
    same date with an earlier time. *)
Theorem C18_shown_datetime_refuted : exists n m, 0 <= n < m /\ m < 2 ^ 63
  /\ (year (reset n), month (reset n), day (reset n)) = (year (reset m), month (reset m), day (reset m))
  /\ hours (reset m) < hours (reset n).
Proof. exists (789 * day_ns + 23 * 3600 * 1000000000). exists (790 * day_ns). vm_compute. repeat split; congruence. Qed.

Print Assumptions C16_date_refuted.
Print Assumptions C16_date_refuted_2070.
Print Assumptions C16_date_refuted_2100.
Print Assumptions C16_date_refuted_negative.
Print Assumptions C16_date_partial.
Print Assumptions C17_time_of_day_partial.
Print Assumptions C17_time_of_day_refuted.
Print Assumptions C18_comparisons.
Print Assumptions C18_shown_date_monotone.
Print Assumptions C18_shown_datetime_refuted.
