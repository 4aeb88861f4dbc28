From Coq Require Import ZArith Bool Lia ZifyBool List.
From Verif Require Import Base Timestamp_Model Timestamp_Spec.
Open Scope Z_scope.

Ltac Zify.zify_post_hook ::= Z.to_euclidean_division_equations.

Definition date_eqb (a b : date) : bool :=
  let '(y1, m1, d1) := a in let '(y2, m2, d2) := b in (y1 =? y2) && (m1 =? m2) && (d1 =? d2).
Lemma date_eqb_eq : forall a b, date_eqb a b = true <-> a = b.
Proof.
  intros [[y1 m1] d1] [[y2 m2] d2]; unfold date_eqb. split; intro H.
  - repeat (apply andb_prop in H; destruct H as [H ?]). f_equal; [f_equal|]; lia.
  - injection H; intros; subst. rewrite !Z.eqb_refl. reflexivity.
Qed.

(** Check [p day date] on [fuel] successive days starting at day [n], date [d]. *)
Fixpoint check (p : Z -> date -> bool) (fuel : nat) (n : Z) (d : date) : bool :=
  match fuel with
  | O => true
  | S f => p n d && check p f (n + 1) (next_day d)
  end.

Lemma check_sound : forall p fuel k,
  check p fuel (Z.of_nat k) (gregorian k) = true ->
  forall i, (k <= i < k + fuel)%nat -> p (Z.of_nat i) (gregorian i) = true.
Proof.
  induction fuel; intros; [lia|].
  simpl in H. apply andb_prop in H; destruct H.
  destruct (Nat.eq_dec i k); [subst; auto|].
  apply (IHfuel (S k)); [|lia].
  replace (Z.of_nat (S k)) with (Z.of_nat k + 1) by lia. exact H1.
Qed.

(** *** C16: the date as a 4-year cycle counted from Mar 1, 1970 *)

Lemma wrap_s32_id : forall x, - 2 ^ 31 <= x < 2 ^ 31 -> wrap_s32 x = x.
Proof. intros; unfold wrap_s32. rewrite Z.mod_small; lia. Qed.
Lemma wrap_s16_id : forall x, - 2 ^ 15 <= x < 2 ^ 15 -> wrap_s16 x = x.
Proof. intros; unfold wrap_s16. rewrite Z.mod_small; lia. Qed.

Definition march_list : list Z := (31 :: 30 :: 31 :: 30 :: 31 :: 31 :: 30 :: 31 :: 30 :: 31 :: 31 :: 29 :: nil)%list.

(** The years since the start of the cycle, the month, the day and the success
    flag on day [s] of the cycle, as the code computes them. *)
Definition cyc (s : Z) : Z * Z * Z * bool :=
  let '(v, b) := months (reduce_years {| v_year := 0; v_month := 3; v_day := 1; v_rem := s |}) march_list in
  (v_year v, v_month v, v_day v, b).

Lemma months_shift : forall k l y m d r,
  months {| v_year := y + k; v_month := m; v_day := d; v_rem := r |} l =
  let '(v, b) := months {| v_year := y; v_month := m; v_day := d; v_rem := r |} l in
  ({| v_year := v_year v + k; v_month := v_month v; v_day := v_day v; v_rem := v_rem v |}, b).
Proof.
  induction l as [|h t IH]; intros; cbn [months]; [reflexivity|].
  unfold reset_date_if_done; cbn [v_year v_month v_day v_rem].
  destruct (r <? h); [reflexivity|].
  destruct (max_month <? m + 1).
  - replace (y + k + 1) with (y + 1 + k) by lia. apply IH.
  - apply IH.
Qed.

(** The number of days the code works with after its century adjustments. *)
Definition adj (r : Z) : Z :=
  if r <? 36524 then r
  else if r =? 36524 then r + 1
  else if r <? 73049 then r
  else r + (r - 36525) / 36524.

Lemma reduce_years_small : forall y m d s, 0 <= s < 1461 ->
  reduce_years {| v_year := y; v_month := m; v_day := d; v_rem := s |} =
  let v := reduce_years {| v_year := 0; v_month := m; v_day := d; v_rem := s |} in
  {| v_year := y + v_year v; v_month := m; v_day := d; v_rem := v_rem v |}.
Proof.
  intros. unfold reduce_years. cbn [v_year v_month v_day v_rem].
  change days_per_400_years with 146097. change days_per_100_years_leap with 36525.
  change days_per_100_years with 36524. change days_per_4_years with 1461.
  change days_per_1_year_leap with 366. change days_per_1_year with 365.
  replace (146097 <=? s) with false by lia. replace (36525 <=? s) with false by lia.
  replace (36524 <=? s) with false by lia. replace (1461 <=? s) with false by lia.
  destruct (365 <=? s).
  - destruct (366 <=? s - 365).
    + destruct (365 <=? s - 365 - 366); cbn [v_year v_month v_day v_rem]; f_equal; lia.
    + destruct (365 <=? s - 365); cbn [v_year v_month v_day v_rem]; f_equal; lia.
  - destruct (366 <=? s).
    + destruct (365 <=? s - 366); cbn [v_year v_month v_day v_rem]; f_equal; lia.
    + destruct (365 <=? s); cbn [v_year v_month v_day v_rem]; f_equal; lia.
Qed.

Lemma reduce_years_cycle : forall y m d r, 0 <= r < 109573 ->
  reduce_years {| v_year := y; v_month := m; v_day := d; v_rem := r |} =
  reduce_years {| v_year := y + 4 * (adj r / 1461); v_month := m; v_day := d; v_rem := adj r mod 1461 |}.
Proof.
  intros. 
  assert (forall y' s, 0 <= s -> 
     y' + 4 * (s / 1461) = (if 1461 <=? s then y' + 4 * (s / 1461) else y') /\
     s mod 1461 = if 1461 <=? s then s mod 1461 else s) as G.
  { intros. destruct (1461 <=? s) eqn:E; split; try reflexivity; try lia. }
  unfold reduce_years at 1. cbn [v_year v_month v_day v_rem].
  change days_per_400_years with 146097. change days_per_100_years_leap with 36525.
  change days_per_100_years with 36524. change days_per_4_years with 1461.
  change days_per_1_year_leap with 366. change days_per_1_year with 365.
  replace (146097 <=? r) with false by lia.
  unfold reduce_years. cbn [v_year v_month v_day v_rem].
  change days_per_400_years with 146097. change days_per_100_years_leap with 36525.
  change days_per_100_years with 36524. change days_per_4_years with 1461.
  change days_per_1_year_leap with 366. change days_per_1_year with 365.
  set (s := adj r mod 1461). assert (0 <= s < 1461) by (subst s; lia).
  replace (146097 <=? s) with false by lia. replace (36525 <=? s) with false by lia.
  replace (36524 <=? s) with false by lia. replace (1461 <=? s) with false by lia.
  assert (exists y2 r2, (if 36525 <=? r then (y + 100, r - 36525) else (y, r)) = (y2, r2) /\
     exists r3, (if 36524 <=? r2 then r2 + cdiv r2 36524 else r2) = r3 /\ 0 <= r3 /\
     y2 + 4 * (r3 / 1461) = y + 4 * (adj r / 1461) /\ r3 mod 1461 = s) as (y2 & r2 & -> & r3 & -> & P & Q & R).
  { unfold s, adj, cdiv. destruct (36525 <=? r) eqn:E1.
    - do 2 eexists; split; [reflexivity|]. replace (r <? 36524) with false by lia. replace (r =? 36524) with false by lia.
      destruct (36524 <=? r - 36525) eqn:E2.
      + replace (r <? 73049) with false by lia. eexists; split; [reflexivity|].
        rewrite Z.quot_div_nonneg by lia. set (c := (r - 36525) / 36524). assert (0 <= c) by (subst c; lia).
        clearbody c. lia.
      + replace (r <? 73049) with true by lia. eexists; split; [reflexivity|]. lia.
    - do 2 eexists; split; [reflexivity|].
      destruct (36524 <=? r) eqn:E2.
      + assert (r = 36524) by lia. subst r. eexists; split; [reflexivity|]. vm_compute. intuition congruence.
      + replace (r <? 36524) with true by lia. eexists; split; [reflexivity|]. lia. }
  destruct (G y2 r3 P) as [G1 G2]. rewrite G1 in Q. rewrite G2 in R.
  assert ((if 1461 <=? r3 then (y2 + 4 * cdiv r3 1461, cmod r3 1461) else (y2, r3)) = (y + 4 * (adj r / 1461), s)) as ->.
  { unfold cdiv, cmod. rewrite Z.quot_div_nonneg, Z.rem_mod_nonneg by lia. destruct (1461 <=? r3); f_equal; lia. }
  reflexivity.
Qed.

(** Every day of the cycle. *)
Definition cyc_ok (s : Z) : bool :=
  let '(y, m, d, b) := cyc s in
  b && (0 <=? y) && (y <=? 4) && (1 <=? m) && (m <=? 12) && (1 <=? d) && (d <=? 31).
Lemma cyc_ok_table : check (fun s _ => cyc_ok s) (Z.to_nat 1461) 0 (1970, 1, 1) = true.
Proof. vm_compute. reflexivity. Qed.

Lemma check_Z : forall p N, check (fun s _ => p s) (Z.to_nat N) 0 (1970, 1, 1) = true ->
  forall s, 0 <= s < N -> p s = true.
Proof.
  intros p N H s Hs.
  pose proof (check_sound (fun s _ => p s) (Z.to_nat N) 0 H (Z.to_nat s)) as K. cbn beta in K.
  rewrite Z2Nat.id in K by lia. apply K. lia.
Qed.

Lemma reset_date_cyc : forall n, 59 <= n < 109632 ->
  reset_date n = let '(y, m, d, b) := cyc (adj (n - 59) mod 1461) in
                 ((1970 + 4 * (adj (n - 59) / 1461) + y, m, d), true).
Proof.
  intros n Hn. unfold reset_date. fold march_list. cbn [months].
  unfold reset_date_if_done at 1. cbn [v_rem v_year v_month v_day].
  replace (n <? 31) with false by lia. change (max_month <? 1 + 1) with false. cbn iota.
  unfold reset_date_if_done at 1. cbn [v_rem v_year v_month v_day].
  replace (n - 31 <? 28) with false by lia. change (max_month <? 1 + 1 + 1) with false. cbn iota beta.
  change (1 + 1 + 1) with 3. replace (n - 31 - 28) with (n - 59) by lia.
  rewrite reduce_years_cycle by lia.
  set (r := adj (n - 59)).
  assert (0 <= r < 109632) as Hr.
  { subst r. unfold adj. destruct (n - 59 <? 36524) eqn:?; [lia|]. destruct (n - 59 =? 36524) eqn:?; [lia|].
    destruct (n - 59 <? 73049) eqn:?; lia. }
  assert (0 <= r mod 1461 < 1461) by lia.
  rewrite reduce_years_small by lia.
  pose proof (check_Z cyc_ok 1461 cyc_ok_table (r mod 1461) ltac:(lia)) as T.
  unfold cyc_ok, cyc in *.
  destruct (reduce_years {| v_year := 0; v_month := 3; v_day := 1; v_rem := r mod 1461 |}) as [y m d s] eqn:E.
  cbn [v_year v_month v_day v_rem] in *.
  assert (m = 3 /\ d = 1) as [-> ->].
  { unfold reduce_years in E. cbn [v_year v_month v_day v_rem] in E.
    repeat match type of E with context [let '(_, _) := ?p in _] => destruct p end.
    injection E; auto. }
  replace (1970 + 4 * (r / 1461) + y) with (y + (1970 + 4 * (r / 1461))) by lia.
  rewrite months_shift.
  destruct (months _ march_list) as [[y' m' d' s'] b]. cbn [v_year v_month v_day v_rem] in *.
  rewrite !wrap_s16_id by lia. assert (b = true) as -> by (destruct b; [reflexivity|discriminate]).
  do 3 f_equal. lia.
Qed.

(** *** The specification is periodic as well, as long as there is no missing leap day. *)
Definition shift4 (k : Z) (d : date) : date := let '(y, m, x) := d in (y + 4 * k, m, x).
Definition before_2096 (d : date) : Prop := let '(y, m, x) := d in y < 2096 \/ (y = 2096 /\ (m < 2 \/ (m = 2 /\ x <= 28))).
Definition valid (d : date) : Prop := let '(y, m, x) := d in 1970 <= y /\ 1 <= m <= 12 /\ 1 <= x.

Lemma leap_shift : forall y, 1970 <= y < 2096 -> leap (y + 4) = leap y.
Proof. intros. unfold leap. assert (exists k, 0 <= k < 126 /\ y = 1970 + k) as (k & Hk & ->) by (exists (y - 1970); lia).
  clear H. assert ((1970 + k + 4) mod 4 = (1970 + k) mod 4) as -> by lia.
  destruct ((1970 + k) mod 4 =? 0) eqn:E; [|reflexivity]. cbn [andb].
  destruct (1970 + k =? 2000) eqn:E2. { assert (k = 30) by lia. subst. reflexivity. }
  destruct (1970 + k + 4 =? 2000) eqn:E3. { assert (k = 26) by lia. subst. reflexivity. }
  assert ((1970 + k) mod 100 <> 0) by lia. assert ((1970 + k + 4) mod 100 <> 0) by lia.
  replace ((1970 + k) mod 100 =? 0) with false by lia. replace ((1970 + k + 4) mod 100 =? 0) with false by lia.
  reflexivity.
Qed.

Lemma next_shift : forall d, valid d -> before_2096 (next_day d) -> next_day (shift4 1 d) = shift4 1 (next_day d).
Proof.
  intros [[y m] x] (Hy & Hm & Hx) B. unfold shift4. cbn [next_day].
  assert (y < 2096 \/ y = 2096) as [L|L].
  { unfold next_day in B. destruct (x <? month_days y m), (m <? 12); cbn in B; lia. }
  - change (4 * 1) with 4. unfold month_days. rewrite leap_shift by lia.
    fold (month_days y m). destruct (x <? month_days y m), (m <? 12); f_equal; f_equal; lia.
  - subst y. unfold next_day in B.
    assert (m = 1 \/ (m = 2 /\ x < 28)) as [-> | [-> X]].
    { destruct (x <? month_days 2096 m), (m <? 12) eqn:E2; cbn in B; lia. }
    + change (2096 + 4 * 1) with 2100. cbn [month_days]. change (month_days 2100 1) with 31. change (month_days 2096 1) with 31.
      destruct (x <? 31); reflexivity.
    + change (2096 + 4 * 1) with 2100. change (month_days 2100 2) with 28. change (month_days 2096 2) with 29.
      replace (x <? 28) with true by lia. replace (x <? 29) with true by lia. reflexivity.
Qed.

Lemma gregorian_S : forall k, gregorian (S k) = next_day (gregorian k).
Proof. reflexivity. Qed.
Lemma month_days_bound : forall y m, 28 <= month_days y m <= 31.
Proof. intros; unfold month_days. destruct (m =? 2); [destruct (leap y); lia|]. destruct (_ || _)%bool; lia. Qed.
Lemma gregorian_valid : forall k, valid (gregorian k).
Proof.
  induction k; [cbn; lia|]. rewrite gregorian_S. destruct (gregorian k) as [[y m] x]. cbn in IHk |- *.
  destruct (x <? month_days y m) eqn:E; cbn; [lia|]. destruct (m <? 12) eqn:E2; cbn; lia.
Qed.
Lemma before_pred : forall d, valid d -> before_2096 (next_day d) -> before_2096 d.
Proof.
  intros [[y m] x] V B. cbn in V. unfold next_day in B. pose proof (month_days_bound y m).
  destruct (x <? month_days y m) eqn:E; [unfold before_2096 in *; lia|].
  destruct (m <? 12) eqn:E2; cbn in B |- *; [|lia].
  assert (y < 2096 \/ (y = 2096 /\ m = 1)) as [|[-> ->]] by lia; lia.
Qed.

Lemma shift4_S : forall k d, shift4 (k + 1) d = shift4 1 (shift4 k d).
Proof. intros k [[y m] x]. unfold shift4. do 2 f_equal. lia. Qed.

Lemma gregorian_shift : forall k, before_2096 (gregorian k) -> gregorian (k + 1461) = shift4 1 (gregorian k).
Proof.
  induction k; intros.
  - vm_compute. reflexivity.
  - cbn [Nat.add]. rewrite !gregorian_S. rewrite gregorian_S in H.
    rewrite IHk by (apply before_pred; [apply gregorian_valid|assumption]).
    apply next_shift; [apply gregorian_valid|assumption].
Qed.

(** The first cycle. *)
Definition gcyc (s : nat) : date := gregorian (59 + s).

Lemma gregorian_cycles : forall q s, (s < 1461)%nat ->
  before_2096 (shift4 (Z.of_nat q - 1) (gcyc s)) \/ q = O ->
  gregorian (59 + s + 1461 * q) = shift4 (Z.of_nat q) (gcyc s).
Proof.
  induction q; intros s Hs B.
  - cbn [Z.of_nat]. rewrite Nat.mul_0_r, Nat.add_0_r. unfold gcyc. destruct (gregorian _) as [[y m] x]. unfold shift4. do 2 f_equal; lia.
  - destruct B as [B|]; [|discriminate].
    replace (59 + s + 1461 * S q)%nat with ((59 + s + 1461 * q) + 1461)%nat by lia.
    replace (Z.of_nat (S q) - 1) with (Z.of_nat q) in B by lia.
    assert (gregorian (59 + s + 1461 * q) = shift4 (Z.of_nat q) (gcyc s)) as E.
    { apply IHq; [assumption|]. destruct q; [right; reflexivity|left].
      unfold before_2096, shift4 in *. destruct (gcyc s) as [[y m] x]. lia. }
    rewrite gregorian_shift by (rewrite E; exact B). rewrite E, <- shift4_S. f_equal. lia.
Qed.

(** On the first cycle, the code agrees with the calendar exactly off Feb 29
    (the 731st and 1461st... days are covered by the table). *)
Definition cyc_agrees (n : Z) (d : date) : bool :=
  (n <? 59) ||
  (let '(y, m, x, b) := cyc (n - 59) in
   Bool.eqb (date_eqb (1970 + y, m, x) d) (negb (is_leap_day d)) && b
   && let '(gy, gm, gx) := d in (1970 <=? gy) && (gy <=? 1974)
   && (((n - 59 <? 730) && ((gy <? 1972) || ((gy =? 1972) && ((gm <? 2) || ((gm =? 2) && (gx <=? 28)))))) || (730 <=? n - 59))).
Lemma cyc_agrees_table : check cyc_agrees (59 + Z.to_nat 1461) 0 (1970, 1, 1) = true.
Proof. vm_compute. reflexivity. Qed.

Lemma cyc_agrees_at : forall s, 0 <= s < 1461 ->
  let '(y, m, x, b) := cyc s in
  ((1970 + y, m, x) = gcyc (Z.to_nat s) <-> is_leap_day (gcyc (Z.to_nat s)) = false)
  /\ (let '(gy, _, _) := gcyc (Z.to_nat s) in 1970 <= gy <= 1974)
  /\ (s < 730 -> before_2096 (shift4 31 (gcyc (Z.to_nat s)))).
Proof.
  intros s Hs.
  pose proof (check_sound cyc_agrees (59 + Z.to_nat 1461) 0 cyc_agrees_table (59 + Z.to_nat s)) as K.
  assert (0 <= 59 + Z.to_nat s < 0 + (59 + Z.to_nat 1461))%nat as B by lia. specialize (K B). clear B.
  fold (gcyc (Z.to_nat s)) in K. replace (Z.of_nat (59 + Z.to_nat s)) with (s + 59) in K by lia.
  unfold cyc_agrees in K. replace (s + 59 <? 59) with false in K by lia. cbn [orb] in K.
  replace (s + 59 - 59) with s in K by lia.
  destruct (cyc s) as [[[y m] x] b]. destruct (gcyc (Z.to_nat s)) as [[gy gm] gx] eqn:E.
  apply andb_prop in K. destruct K as [K1 K2]. apply andb_prop in K1. destruct K1 as [K1 Kb].
  apply Bool.eqb_prop in K1. rewrite <- date_eqb_eq, K1.
  split; [destruct (is_leap_day _); cbn; intuition congruence|].
  apply andb_prop in K2. destruct K2 as [K2 K3]. split; [lia|].
  intros. unfold shift4, before_2096. lia.
Qed.

Lemma is_leap_shift : forall k d, is_leap_day (shift4 k d) = is_leap_day d.
Proof. intros k [[y m] x]. reflexivity. Qed.
Lemma shift4_eq : forall k a b, shift4 k a = shift4 k b <-> a = b.
Proof.
  intros k [[y m] x] [[y' m'] x']. cbn. split; intro H; injection H; intros; subst; f_equal; f_equal; lia.
Qed.

(** The date of a day before 2100-03-01. *)
Lemma gregorian_closed : forall n, 59 <= n <= 47540 ->
  gregorian (Z.to_nat n) = shift4 ((n - 59) / 1461) (gcyc (Z.to_nat ((n - 59) mod 1461))).
Proof.
  intros n Hn. set (q := (n - 59) / 1461). set (s := (n - 59) mod 1461).
  assert (n = 59 + s + 1461 * q /\ 0 <= s < 1461 /\ 0 <= q <= 32 /\ (q = 32 -> s < 730)) as (E & Hs & Hq & L) by (subst q s; lia).
  clearbody q s.
  replace (Z.to_nat n) with (59 + Z.to_nat s + 1461 * Z.to_nat q)%nat by lia.
  rewrite gregorian_cycles; [rewrite Z2Nat.id by lia; reflexivity|lia|].
  destruct (Z.eq_dec q 0); [right; subst; reflexivity|left].
  rewrite Z2Nat.id by lia.
  pose proof (cyc_agrees_at s Hs) as C. destruct (cyc s) as [[[? ?] ?] ?].
  destruct (gcyc (Z.to_nat s)) as [[y m] x]. destruct C as (_ & C1 & C2).
  unfold shift4, before_2096 in *. destruct (Z.eq_dec q 32); [|lia]. subst q. apply C2; auto.
Qed.

Lemma day_47540 : gregorian (Z.to_nat 47540) = (2100, 2, 28).
Proof. rewrite gregorian_closed by lia. vm_compute. reflexivity. Qed.
Lemma day_47541 : gregorian (Z.to_nat 47541) = (2100, 3, 1).
Proof. replace (Z.to_nat 47541) with (S (Z.to_nat 47540)) by lia. rewrite gregorian_S, day_47540. reflexivity. Qed.
Lemma day_47542 : gregorian (Z.to_nat 47542) = (2100, 3, 2).
Proof. replace (Z.to_nat 47542) with (S (Z.to_nat 47541)) by lia. rewrite gregorian_S, day_47541. reflexivity. Qed.
Lemma day_36583 : gregorian (Z.to_nat 36583) = (2070, 2, 28).
Proof. rewrite gregorian_closed by lia. vm_compute. reflexivity. Qed.

Definition first_days (n : Z) (d : date) : bool := date_eqb (fst (reset_date n)) d && snd (reset_date n) && negb (is_leap_day d).
Lemma first_days_table : check first_days 59 0 (1970, 1, 1) = true.
Proof. vm_compute. reflexivity. Qed.

Lemma reset_date_correct : forall n, 0 <= n <= 47541 ->
  (fst (reset_date n) = gregorian (Z.to_nat n) /\ snd (reset_date n) = true)
  <-> (is_leap_day (gregorian (Z.to_nat n)) = false /\ n <> 36583).
Proof.
  intros n Hn.
  destruct (Z_lt_ge_dec n 59).
  { pose proof (check_sound first_days 59 0 first_days_table (Z.to_nat n) ltac:(lia)) as K.
    rewrite Z2Nat.id in K by lia. unfold first_days in K.
    apply andb_prop in K; destruct K as [K K3]. apply andb_prop in K; destruct K as [K1 K2].
    apply date_eqb_eq in K1. apply negb_true_iff in K3. split; intros; split; auto; lia. }
  destruct (Z.eq_dec n 36583) as [->|N1].
  { rewrite day_36583. split; intros [A B]; [vm_compute in A; discriminate|congruence]. }
  destruct (Z.eq_dec n 47541) as [->|N2].
  { rewrite day_47541. split; intros _; vm_compute; split; congruence. }
  rewrite gregorian_closed by lia. rewrite reset_date_cyc by lia.
  assert (adj (n - 59) = n - 59) as ->.
  { unfold adj. destruct (n - 59 <? 36524) eqn:?; [lia|]. replace (n - 59 =? 36524) with false by lia.
    replace (n - 59 <? 73049) with true by lia. reflexivity. }
  set (q := (n - 59) / 1461). set (s := (n - 59) mod 1461).
  assert (0 <= s < 1461) as Hs by (subst s; lia).
  pose proof (cyc_agrees_at s Hs) as C. destruct (cyc s) as [[[y m] x] b]. destruct C as (C & _ & _).
  cbn [fst snd]. rewrite is_leap_shift, <- C.
  replace (1970 + 4 * q + y, m, x) with (shift4 q (1970 + y, m, x)) by (unfold shift4; do 2 f_equal; lia).
  rewrite shift4_eq. intuition.
Qed.

(** *** The date is always set, and never goes back, on the whole range. *)
Definition date_leb (a b : date) : bool :=
  let '(y1, m1, d1) := a in let '(y2, m2, d2) := b in
  (y1 <? y2) || ((y1 =? y2) && ((m1 <? m2) || ((m1 =? m2) && (d1 <=? d2)))).
Lemma date_leb_le : forall a b, date_leb a b = true <-> date_le a b.
Proof. intros [[y1 m1] d1] [[y2 m2] d2]; unfold date_leb, date_le. lia. Qed.
Lemma date_le_refl : forall d, date_le d d.
Proof. intros [[y m] d]; unfold date_le; lia. Qed.
Lemma date_le_trans : forall a b c, date_le a b -> date_le b c -> date_le a c.
Proof. intros [[y1 m1] d1] [[y2 m2] d2] [[y3 m3] d3]; unfold date_le; lia. Qed.

Definition cycd (s : Z) : date := let '(y, m, d, _) := cyc s in (y, m, d).
Definition mono_step (s : Z) : bool :=
  date_leb (cycd s) (if s =? 1460 then (4, 3, 1) else cycd (s + 1)).
Lemma mono_table : check (fun s _ => mono_step s) (Z.to_nat 1461) 0 (1970, 1, 1) = true.
Proof. vm_compute. reflexivity. Qed.

Definition cal (r : Z) : date := let '(y, m, d) := cycd (r mod 1461) in (1970 + 4 * (r / 1461) + y, m, d).

Lemma cal_step : forall r, 0 <= r -> date_le (cal r) (cal (r + 1)).
Proof.
  intros. unfold cal.
  set (q := r / 1461). set (s := r mod 1461). assert (0 <= s < 1461 /\ r = 1461 * q + s) as [Hs E] by (subst q s; lia). clearbody q s.
  pose proof (check_Z mono_step 1461 mono_table s ltac:(lia)) as T. unfold mono_step in T. apply date_leb_le in T.
  destruct (s =? 1460) eqn:E2.
  - replace ((r + 1) mod 1461) with 0 by lia. replace ((r + 1) / 1461) with (q + 1) by lia.
    change (cycd 0) with (0, 3, 1). destruct (cycd s) as [[y m] d]. unfold date_le in *. lia.
  - replace ((r + 1) mod 1461) with (s + 1) by lia. replace ((r + 1) / 1461) with q by lia.
    destruct (cycd s) as [[y m] d]. destruct (cycd (s + 1)) as [[y' m'] d']. cbn in *. lia.
Qed.
Lemma cal_mono_aux : forall k r, 0 <= r -> date_le (cal r) (cal (r + Z.of_nat k)).
Proof.
  induction k; intros.
  - replace (r + Z.of_nat 0) with r by lia. apply date_le_refl.
  - eapply date_le_trans; [apply IHk; lia|]. replace (r + Z.of_nat (S k)) with (r + Z.of_nat k + 1) by lia. apply cal_step; lia.
Qed.
Lemma cal_mono : forall a b, 0 <= a <= b -> date_le (cal a) (cal b).
Proof. intros. replace b with (a + Z.of_nat (Z.to_nat (b - a))) by lia. apply cal_mono_aux; lia. Qed.

Lemma adj_mono : forall a b, 0 <= a <= b -> 0 <= adj a <= adj b.
Proof.
  intros. unfold adj.
  destruct (a <? 36524) eqn:?; destruct (b <? 36524) eqn:?; try lia;
  destruct (b =? 36524) eqn:?; destruct (a =? 36524) eqn:?; try lia;
  destruct (a <? 73049) eqn:?; destruct (b <? 73049) eqn:?; lia.
Qed.

Lemma reset_date_cal : forall n, 59 <= n < 109632 -> reset_date n = (cal (adj (n - 59)), true).
Proof.
  intros. rewrite reset_date_cyc by assumption. unfold cal, cycd. destruct (cyc _) as [[[y m] d] b]. reflexivity.
Qed.

Definition first_mono (n : Z) (_ : date) : bool := snd (reset_date n) && date_leb (fst (reset_date n)) (fst (reset_date (n + 1))).
Lemma first_mono_table : check first_mono 59 0 (1970, 1, 1) = true.
Proof. vm_compute. reflexivity. Qed.

Lemma reset_date_step : forall n, 0 <= n <= 106751 ->
  snd (reset_date n) = true /\ date_le (fst (reset_date n)) (fst (reset_date (n + 1))).
Proof.
  intros n Hn. destruct (Z_lt_ge_dec n 59).
  - pose proof (check_sound first_mono 59 0 first_mono_table (Z.to_nat n) ltac:(lia)) as K.
    rewrite Z2Nat.id in K by lia. unfold first_mono in K. apply andb_prop in K. rewrite <- date_leb_le. exact K.
  - rewrite !reset_date_cal by lia. split; [reflexivity|]. cbn [fst]. apply cal_mono, adj_mono. lia.
Qed.

Lemma reset_date_mono_aux : forall k n, 0 <= n -> n + Z.of_nat k <= 106751 ->
  date_le (fst (reset_date n)) (fst (reset_date (n + Z.of_nat k))).
Proof.
  induction k; intros.
  - replace (n + Z.of_nat 0) with n by lia. apply date_le_refl.
  - eapply date_le_trans; [apply (IHk n); lia|].
    replace (n + Z.of_nat (S k)) with (n + Z.of_nat k + 1) by lia.
    apply reset_date_step; lia.
Qed.
Lemma reset_date_mono : forall n m, 0 <= n <= m -> m <= 106751 ->
  date_le (fst (reset_date n)) (fst (reset_date m)).
Proof.
  intros. replace m with (n + Z.of_nat (Z.to_nat (m - n))) by lia. apply reset_date_mono_aux; lia.
Qed.

(** *** The projections of [reset] *)
Lemma reset_fields : forall n,
  let t := reset n in
  days_since_epoch t = wrap_s32 (cdiv n nanoseconds_per_day)
  /\ nanoseconds_since_midnight t = cmod n nanoseconds_per_day
  /\ (year t, month t, day t) = fst (reset_date (wrap_s32 (cdiv n nanoseconds_per_day))).
Proof.
  intros. subst t. unfold reset.
  destruct (reset_date _) as [[[y m] d] b]. cbn. auto.
Qed.

Lemma nspd : nanoseconds_per_day = 86400000000000.
Proof. reflexivity. Qed.

Lemma days_fit : forall n, int64 n ->
  wrap_s32 (cdiv n nanoseconds_per_day) = Z.quot n 86400000000000.
Proof.
  intros n H. unfold cdiv. rewrite nspd. apply wrap_s32_id. unfold int64 in H.
  assert (- 106752 <= Z.quot n 86400000000000 <= 106752) by lia. lia.
Qed.

Lemma reset_date_of_ns : forall n, 0 <= n < 2 ^ 63 ->
  (year (reset n), month (reset n), day (reset n)) = fst (reset_date (n / day_ns))
  /\ 0 <= n / day_ns <= 106751.
Proof.
  intros n Hn. destruct (reset_fields n) as (_ & _ & E). rewrite E.
  rewrite days_fit by (unfold int64; lia).
  unfold day_ns. change (86400 * 1000000000) with 86400000000000.
  rewrite Z.quot_div_nonneg by lia. split; [reflexivity|]. lia.
Qed.

Lemma timestamp_date : forall n, 0 <= n < 47542 * day_ns ->
  (year (reset n), month (reset n), day (reset n)) = gregorian (Z.to_nat (n / day_ns))
  <-> (is_leap_day (gregorian (Z.to_nat (n / day_ns))) = false /\ n / day_ns <> 36583).
Proof.
  intros n Hn. unfold day_ns in Hn.
  destruct (reset_date_of_ns n) as [E _]; [lia|]. rewrite E.
  assert (0 <= n / day_ns <= 47541) as B by (unfold day_ns; lia).
  pose proof (reset_date_correct _ B) as R.
  pose proof (reset_date_step (n / day_ns)) as S. 
  assert (snd (reset_date (n / day_ns)) = true) as S' by (apply S; lia).
  split; intro.
  - apply R; auto.
  - apply R in H. apply H.
Qed.

(** *** C17 *)
Lemma timestamp_time : forall n, 0 <= n < 2 ^ 63 ->
  let t := reset n in
  0 <= hours t < 24 /\ 0 <= minutes t < 60 /\ 0 <= seconds t < 60 /\ 0 <= nanoseconds t < 1000000000
  /\ milliseconds t = nanoseconds t / 1000000 /\ microseconds t = nanoseconds t / 1000
  /\ ((hours t * 60 + minutes t) * 60 + seconds t) * 1000000000 + nanoseconds t = n mod day_ns.
Proof.
  intros n Hn t. subst t. unfold reset. destruct (reset_date _) as [[[y m] d] b]. cbn [hours minutes seconds milliseconds microseconds nanoseconds].
  unfold cmod, cdiv, nanosecond_count, second_count, minute_count, hour_count, microsecond_count, millisecond_count, day_ns.
  rewrite nspd. change (86400 * 1000000000) with 86400000000000.
  rewrite Z.rem_rem by lia.
  rewrite (Z.rem_mod_nonneg n 86400000000000) by lia.
  set (r := n mod 86400000000000). assert (0 <= r < 86400000000000) by (subst r; lia). clearbody r.
  rewrite (Z.rem_mod_nonneg r 1000000000), (Z.quot_div_nonneg r 1000000000) by lia.
  set (ns := r mod 1000000000). assert (0 <= ns < 1000000000) by (subst ns; lia).
  set (q := r / 1000000000). assert (r = q * 1000000000 + ns /\ 0 <= q < 86400) by (subst q ns; lia).
  clearbody ns q.
  rewrite (Z.rem_mod_nonneg q 60), (Z.quot_div_nonneg q 60) by lia.
  set (q2 := q / 60). assert (0 <= q2 < 1440 /\ q = q2 * 60 + q mod 60 /\ 0 <= q mod 60 < 60) by (subst q2; lia).
  set (s := q mod 60) in *. clearbody q2 s.
  rewrite (Z.rem_mod_nonneg q2 60), (Z.quot_div_nonneg q2 60) by lia.
  set (q3 := q2 / 60). assert (0 <= q3 < 24 /\ q2 = q3 * 60 + q2 mod 60 /\ 0 <= q2 mod 60 < 60) by (subst q3; lia).
  set (mi := q2 mod 60) in *. clearbody q3 mi.
  rewrite (Z.rem_mod_nonneg q3 24) by lia. rewrite (Z.mod_small q3 24) by lia.
  rewrite !Z.quot_div_nonneg by lia.
  assert (0 <= ns / 1000000 < 1000) by lia. assert (0 <= ns / 1000 < 1000000) by lia.
  rewrite !wrap_s16_id by lia. rewrite !wrap_s32_id by lia. lia.
Qed.

(** *** C18 *)
Lemma ts_fields : forall n, int64 n ->
  days_since_epoch (reset n) = Z.quot n 86400000000000
  /\ nanoseconds_since_midnight (reset n) = Z.rem n 86400000000000.
Proof.
  intros n H. destruct (reset_fields n) as (A & B & _).
  rewrite A, B, days_fit by assumption. unfold cmod. rewrite nspd. auto.
Qed.

Lemma ts_cmp : forall n m, int64 n -> int64 m ->
  ts_eq (reset n) (reset m) = (n =? m) /\ ts_ne (reset n) (reset m) = negb (n =? m)
  /\ ts_lt (reset n) (reset m) = (n <? m) /\ ts_le (reset n) (reset m) = (n <=? m)
  /\ ts_gt (reset n) (reset m) = (m <? n) /\ ts_ge (reset n) (reset m) = (m <=? n).
Proof.
  intros n m Hn Hm. unfold ts_ne, ts_lt, ts_le, ts_eq, ts_gt, ts_ge.
  destruct (ts_fields n Hn) as [-> ->]. destruct (ts_fields m Hm) as [-> ->].
  unfold int64 in *.
  set (a := Z.quot n 86400000000000). set (b := Z.quot m 86400000000000).
  set (c := Z.rem n 86400000000000). set (d := Z.rem m 86400000000000).
  assert (n = 86400000000000 * a + c) by (subst a c; apply Z.quot_rem'; lia).
  assert (m = 86400000000000 * b + d) by (subst b d; apply Z.quot_rem'; lia).
  assert (- 86400000000000 < c < 86400000000000) by (subst c; lia).
  assert (- 86400000000000 < d < 86400000000000) by (subst d; lia).
  assert (0 <= n -> 0 <= c) by (subst c; lia). assert (n <= 0 -> c <= 0) by (subst c; lia).
  assert (0 <= m -> 0 <= d) by (subst d; lia). assert (m <= 0 -> d <= 0) by (subst d; lia).
  clearbody a b c d.
  destruct (Z_le_gt_dec 0 n); destruct (Z_le_gt_dec 0 m); repeat split; lia.
Qed.

(** Date and time as shown never go back within one day. *)
Lemma timestamp_date_mono : forall n m, 0 <= n <= m -> m < 2 ^ 63 ->
  date_le (year (reset n), month (reset n), day (reset n)) (year (reset m), month (reset m), day (reset m)).
Proof.
  intros. destruct (reset_date_of_ns n) as [-> ?]; [lia|]. destruct (reset_date_of_ns m) as [-> ?]; [lia|].
  apply reset_date_mono; [|lia]. split; [lia|]. apply Z.div_le_mono; [reflexivity|lia].
Qed.
