(** Proofs about lines and the ultrasonic sensor. *)

From Coq Require Import ZArith Lia List Bool.
From Verif Require Import Gpio_Model Gpio_Spec.
Import ListNotations.
Open Scope Z_scope.

(** What is read at a moment. *)
Definition lvl (e : env) (t : Z) : Z := match bits e t with None => invalid | Some b => Z.land b mask end.

Lemma pass_at : forall e d s, at_ (pass e d s) = at_ s + d + Z.of_N (lag e (ops s)).
Proof. reflexivity. Qed.
Lemma get_level_is : forall e s, get_level e s = (lvl e (at_ (pass e 0 s)), pass e 0 s).
Proof. intros e s. unfold get_level, lvl. destruct (bits e (at_ (pass e 0 s))); reflexivity. Qed.
Lemma us_le : forall d, 0 <= d -> us_of_ns d * 1000 <= d < us_of_ns d * 1000 + 1000 /\ 0 <= us_of_ns d.
Proof.
  intros d H. unfold us_of_ns. rewrite Z.quot_div_nonneg by lia. pose proof (Z.div_mod d 1000 ltac:(lia)). pose proof (Z.mod_pos_bound d 1000 ltac:(lia)).
  pose proof (Z.div_pos d 1000 H ltac:(lia)). lia.
Qed.

(** ** The loop *)
Definition last_turn (e : env) (dl level T start : Z) (s s' : st) : Prop :=
  s' = s \/ lvl e (at_ s) <> level /\ exists p c, at_ s <= p /\ lvl e p <> level /\ p <= at_ s' <= p + 2 * dl /\ start <= c <= p /\ p <= c + dl /\ us_of_ns (c - start) <= T.
Definition scanned (e : env) (dl level : Z) (s s' : st) : Prop := forall t, at_ s <= t < at_ s' -> exists p, at_ s <= p <= t /\ t <= p + 2 * dl /\ lvl e p <> level.

Lemma expect_loop_spec : forall dl e level T start, brisk dl e -> level <> invalid ->
  forall fuel cur s r s', expect_loop fuel e level T start cur (lvl e (at_ s)) s = Some (r, s') ->
  start <= cur <= at_ s -> at_ s <= cur + dl ->
  at_ s <= at_ s' /\ wires s' = wires s /\ last_turn e dl level T start s s' /\ scanned e dl level s s' /\
  ((r = level /\ lvl e (at_ s') = level) \/ (r = invalid /\ lvl e (at_ s') <> level /\ exists c, start <= c <= at_ s' /\ at_ s' <= c + dl /\ T < us_of_ns (c - start))).
Proof.
  intros dl e level T start B NI. induction fuel as [|fuel IH]; intros cur s r s' E C1 C2; [discriminate|]. cbn [expect_loop] in E.
  destruct (Z.eqb_spec (lvl e (at_ s)) level) as [L|L].
  - injection E as <- <-. split; [lia|]. split; [reflexivity|]. split; [left; reflexivity|]. split; [intros t Ht; lia|]. left. auto.
  - destruct (Z.ltb_spec T (us_of_ns (cur - start))) as [U|U].
    + injection E as <- <-. split; [lia|]. split; [reflexivity|]. split; [left; reflexivity|]. split; [intros t Ht; lia|]. right. split; [reflexivity|]. split; [exact L|]. exists cur. lia.
    + cbn [now] in E. unfold now in E. cbv zeta in E. rewrite get_level_is in E. set (s1 := pass e 0 s) in *. set (s2 := pass e 0 s1) in *.
      assert (K1 := B (ops s)). assert (K2 := B (ops s1)). assert (P1 : at_ s1 = at_ s + 0 + Z.of_N (lag e (ops s))) by reflexivity. assert (P2 : at_ s2 = at_ s1 + 0 + Z.of_N (lag e (ops s1))) by reflexivity.
      assert (N1 := N2Z.is_nonneg (lag e (ops s))). assert (N2 := N2Z.is_nonneg (lag e (ops s1))).
      destruct (IH _ _ _ _ E ltac:(lia) ltac:(lia)) as (M & W & LT & SC & R). split; [lia|]. split; [exact W|]. split; [|split; [|exact R]].
      2: { intros t Ht. destruct (Z.lt_ge_cases t (at_ s2)) as [Q|Q]; [exists (at_ s); repeat split; [lia|lia|lia|exact L]|]. destruct (SC t ltac:(lia)) as (p & J1 & J2 & J3). exists p. repeat split; [lia|lia|lia|exact J3]. }
      right. split; [exact L|]. destruct LT as [->|(_ & p & c & Q)]; [|exists p, c; lia]. exists (at_ s), cur. lia.
Qed.
Lemma expect_level_spec : forall dl e level T fuel s r s', brisk dl e -> level <> invalid -> expect_level fuel e level T s = Some (r, s') ->
  exists start c0 s0, at_ s <= start <= at_ s + dl /\ start <= c0 <= start + dl /\ c0 <= at_ s0 <= c0 + dl /\ wires s' = wires s /\ at_ s0 <= at_ s' /\
  (last_turn e dl level T start s0 s' /\ scanned e dl level s0 s') /\
  ((r = level /\ lvl e (at_ s') = level) \/ (r = invalid /\ lvl e (at_ s') <> level /\ exists c, start <= c <= at_ s' /\ at_ s' <= c + dl /\ T < us_of_ns (c - start))).
Proof.
  intros dl e level T fuel s r s' B NI E. unfold expect_level, now in E. cbv zeta in E. rewrite get_level_is in E.
  set (s1 := pass e 0 s) in *. set (s2 := pass e 0 s1) in *. set (s3 := pass e 0 s2) in *.
  assert (K1 := B (ops s)). assert (K2 := B (ops s1)). assert (K3 := B (ops s2)).
  assert (P1 : at_ s1 = at_ s + 0 + Z.of_N (lag e (ops s))) by reflexivity. assert (P2 : at_ s2 = at_ s1 + 0 + Z.of_N (lag e (ops s1))) by reflexivity. assert (P3 : at_ s3 = at_ s2 + 0 + Z.of_N (lag e (ops s2))) by reflexivity.
  assert (N1 := N2Z.is_nonneg (lag e (ops s))). assert (N2 := N2Z.is_nonneg (lag e (ops s1))). assert (N3 := N2Z.is_nonneg (lag e (ops s2))).
  destruct (expect_loop_spec dl e level T (at_ s1) B NI fuel _ _ _ _ E ltac:(lia) ltac:(lia)) as (M & W & LT & SC & R).
  exists (at_ s1), (at_ s2), s3. repeat (split; [solve [lia | exact W | split; [exact LT|exact SC]]|]). exact R.
Qed.

(** It ends. *)
Lemma expect_loop_ends : forall e level T start, goes_on e -> forall n fuel cur lv s,
  start + 1000 * (T + 1) - cur <= Z.of_nat n -> start <= cur <= at_ s -> (n + 2 <= fuel)%nat -> exists r, expect_loop fuel e level T start cur lv s = Some r.
Proof.
  intros e level T start G. induction n as [|n IH]; intros fuel cur lv s D C F; (destruct fuel as [|fuel]; [lia|]); cbn [expect_loop]; (destruct (lv =? level); [eexists; reflexivity|]); destruct (Z.ltb_spec T (us_of_ns (cur - start))) as [U|U]; try (eexists; reflexivity).
  - exfalso. pose proof (us_le (cur - start) ltac:(lia)). lia.
  - unfold now. cbv zeta. rewrite get_level_is. pose proof (us_le (cur - start) ltac:(lia)).
    pose proof (G (ops s)). pose proof (N2Z.is_nonneg (lag e (ops (pass e 0 s)))).
    apply IH; rewrite ?pass_at; cbn [ops] in *; try lia.
Qed.
Lemma expect_level_ends : forall e level T s fuel, goes_on e -> (Z.to_nat (1000 * (T + 1)) + 2 <= fuel)%nat -> exists r, expect_level fuel e level T s = Some r.
Proof.
  intros e level T s fuel G F. unfold expect_level, now. cbv zeta. rewrite get_level_is.
  set (s1 := pass e 0 s) in *. set (s2 := pass e 0 s1) in *. set (s3 := pass e 0 s2) in *.
  assert (P2 : at_ s2 = at_ s1 + 0 + Z.of_N (lag e (ops s1))) by reflexivity. assert (P3 : at_ s3 = at_ s2 + 0 + Z.of_N (lag e (ops s2))) by reflexivity.
  assert (N2 := N2Z.is_nonneg (lag e (ops s1))). assert (N3 := N2Z.is_nonneg (lag e (ops s2))).
  apply (expect_loop_ends e level T (at_ s1) G (Z.to_nat (1000 * (T + 1)))); lia.
Qed.

(** ** The pulse on the trigger line *)
Lemma put_level_spec : forall dl e level s, brisk dl e -> exists r s', put_level e level s = (r, s') /\ at_ s <= at_ s' <= at_ s + Z.max 0 dl.
Proof.
  intros dl e level s B. unfold put_level. destruct (negb _); [exists invalid, s; split; [reflexivity|lia]|]. cbv zeta.
  assert (K := B (ops s)). assert (N0 := N2Z.is_nonneg (lag e (ops s))).
  destruct (writes e (at_ (pass e 0 s))); eexists _, _; (split; [reflexivity|]); cbn [at_]; rewrite pass_at; lia.
Qed.
Lemma put_level_for_spec : forall dl e level d s, brisk dl e -> 0 <= d -> exists r s', put_level_for e level d s = (r, s') /\ at_ s <= at_ s' <= at_ s + d + 2 * Z.max 0 dl.
Proof.
  intros dl e level d s B D. unfold put_level_for. destruct (put_level_spec dl e level s B) as (r & s' & E & M). rewrite E.
  assert (K := B (ops s')). assert (N0 := N2Z.is_nonneg (lag e (ops s'))).
  destruct (r =? invalid); cbn [negb]; eexists _, _; (split; [reflexivity|]); [lia|]. unfold sleep_for. rewrite pass_at. lia.
Qed.

(** ** The parts of a measurement *)
Definition timeout_of (scale : ratio) (known : option Z) (max_distance : Z) : Z := match known with Some t => t | None => sonic_duration scale (w64 (2 * max_distance)) end.
Lemma measure_parts : forall dl fuel e scale known mx s r s' k, brisk dl e -> measure_distance fuel e scale known mx s = Some (r, s', k) ->
  let T := timeout_of scale known mx in
  k = Some T /\ exists s0 l1 s1, at_ s <= at_ s0 <= at_ s + 20000 + 6 * Z.max 0 dl /\ expect_level fuel e low T s0 = Some (l1, s1) /\
  let u1 := pass e 0 s1 in
  ((l1 = invalid /\ r = mx /\ s' = pass e 0 (pass e 0 u1)) \/
   (l1 <> invalid /\ exists l2 s2, let T2 := T - us_of_ns (at_ u1 - at_ s0) in expect_level fuel e high T2 u1 = Some (l2, s2) /\
    let u2 := pass e 0 s2 in
    ((l2 = invalid /\ r = mx /\ s' = pass e 0 u2) \/
     (l2 <> invalid /\ exists l3 s3, let T3 := T2 - us_of_ns (at_ u2 - at_ u1) in expect_level fuel e low T3 u2 = Some (l3, s3) /\ s' = pass e 0 s3 /\
      ((l3 = invalid /\ r = mx) \/ (l3 <> invalid /\ r = sonic_distance scale (us_of_ns (at_ s' - at_ u2)) / 2)))))).
Proof.
  intros dl fuel e scale known mx s r s' k B E T. unfold measure_distance in E. fold (timeout_of scale known mx) in E. fold T in E. cbv zeta in E.
  destruct (put_level_for_spec dl e low 10000 s B ltac:(lia)) as (ra & sa & Ea & Ma). rewrite Ea in E.
  destruct (put_level_for_spec dl e high 10000 sa B ltac:(lia)) as (rb & sb & Eb & Mb). rewrite Eb in E.
  destruct (put_level_spec dl e low sb B) as (rc & sc & Ec & Mc). rewrite Ec in E.
  unfold now in E at 1. set (s0 := pass e 0 sc) in *. cbv iota beta in E.
  assert (M0 : at_ s0 = at_ sc + 0 + Z.of_N (lag e (ops sc))) by reflexivity. assert (K := B (ops sc)). assert (N0 := N2Z.is_nonneg (lag e (ops sc))).
  destruct (expect_level fuel e low T s0) as [[l1 s1]|] eqn:E1; [|discriminate]. unfold now in E. cbv zeta iota beta in E. set (u1 := pass e 0 s1) in *.
  destruct (Z.eqb_spec l1 invalid) as [I1|I1]; cbn [negb] in E.
  - cbv iota beta in E. destruct (Z.eqb_spec l1 invalid) as [_|]; [|contradiction]. cbn [negb] in E. cbv iota beta in E. destruct (Z.eqb_spec l1 invalid) as [_|]; [|contradiction].
    injection E as <- <- <-. split; [reflexivity|]. exists s0, l1, s1. split; [lia|]. split; [exact E1|]. left. auto.
  - destruct (expect_level fuel e high (T - us_of_ns (at_ u1 - at_ s0)) u1) as [[l2 s2]|] eqn:E2; [|discriminate]. set (u2 := pass e 0 s2) in *.
    destruct (Z.eqb_spec l2 invalid) as [I2|I2]; cbn [negb] in E.
    + cbv iota beta in E. destruct (Z.eqb_spec l2 invalid) as [_|]; [|contradiction].
      injection E as <- <- <-. split; [reflexivity|]. exists s0, l1, s1. split; [lia|]. split; [exact E1|]. right. split; [exact I1|]. exists l2, s2. split; [exact E2|]. left. auto.
    + destruct (expect_level fuel e low _ u2) as [[l3 s3]|] eqn:E3 in E; [|discriminate]. cbv iota beta in E.
      destruct (Z.eqb_spec l3 invalid) as [I3|I3]; injection E as <- <- <-; (split; [reflexivity|]); exists s0, l1, s1; (split; [lia|]); (split; [exact E1|]); right; (split; [exact I1|]); exists l2, s2; (split; [exact E2|]); right; (split; [exact I2|]); exists l3, s3; (split; [exact E3|]); (split; [reflexivity|]); [left|right]; auto.
Qed.

(** The timeout of a call, without wrapping. *)
Lemma timeout_of_is : forall scale known mx T, timeout_is scale known mx T -> 0 < num scale -> 0 < den scale -> timeout_of scale known mx = T.
Proof.
  intros scale known mx T [->|(-> & P & F & ->)] Hn Hd; [reflexivity|]. unfold timeout_of, sonic_duration, w64, sonic_speed, micro. cbn [num den].
  assert (2 * mx * 1000000 <= 2 * mx * num scale * 1000000) by nia.
  rewrite (Z.mod_small (2 * mx)) by lia. replace (2 * mx * (num scale * 1000000)) with (2 * mx * num scale * 1000000) by lia.
  rewrite Z.mod_small by nia. f_equal. lia.
Qed.
(** The distance of a duration, without wrapping. *)
Lemma distance_is : forall scale n, 0 < num scale -> 0 < den scale -> 0 <= n -> 343 * n * den scale < 2 ^ 64 ->
  let r := sonic_distance scale n / 2 in 2 * 1000000 * num scale * r <= 343 * den scale * n < 2 * 1000000 * num scale * (r + 1).
Proof.
  intros scale n Hn Hd P F. cbv zeta. unfold sonic_distance, w64, sonic_speed, micro. cbn [num den].
  assert (343 * n <= 343 * n * den scale) by nia.
  rewrite (Z.mod_small (343 * n)) by lia. rewrite (Z.mod_small (343 * n * (1 * den scale))) by nia.
  rewrite Z.div_div by nia. replace (343 * n * (1 * den scale)) with (343 * den scale * n) by lia. replace (1000000 * num scale * 2) with (2 * 1000000 * num scale) by lia.
  pose proof (Z.div_mod (343 * den scale * n) (2 * 1000000 * num scale) ltac:(nia)). pose proof (Z.mod_pos_bound (343 * den scale * n) (2 * 1000000 * num scale) ltac:(nia)). nia.
Qed.
Lemma distance_between : forall scale n lo hi, 0 < num scale -> 0 < den scale -> 0 <= n -> lo - 1000 < n * 1000 <= hi -> 343 * den scale * hi < 2 ^ 64 ->
  let r := sonic_distance scale n / 2 in 343 * den scale * (lo - 1000) < 2 * 1000000000 * num scale * (r + 1) /\ 2 * 1000000000 * num scale * r <= 343 * den scale * hi.
Proof.
  intros scale n lo hi Hn Hd P B F. assert (H1 : 343 * den scale * (lo - 1000) <= 343 * den scale * (n * 1000)) by (apply Z.mul_le_mono_nonneg_l; lia). assert (H2 : 343 * den scale * (n * 1000) <= 343 * den scale * hi) by (apply Z.mul_le_mono_nonneg_l; lia).
  assert (H3 : 343 * n * den scale <= 343 * den scale * hi) by nia.
  pose proof (distance_is scale n Hn Hd P ltac:(lia)) as K. cbv zeta in K |- *. lia.
Qed.

(** ** A good echo *)
Lemma odd_land : forall x, Z.land x mask = Z.b2z (Z.odd x).
Proof. intros x. unfold mask. change 1 with (Z.ones 1). rewrite Z.land_ones by lia. change (2 ^ 1) with 2. rewrite Zmod_odd. destruct (Z.odd x); reflexivity. Qed.
Lemma echo_lvl : forall e a b t, echo e a b -> lvl e t = Z.b2z ((a <=? t) && (t <? b)).
Proof. intros e a b t H. destruct (H t) as (x & E & O). unfold lvl. rewrite E, odd_land, O. reflexivity. Qed.

Lemma measure_echo : forall dl fuel e scale known mx T s r s' k a b,
  brisk dl e -> echo e a b -> timeout_is scale known mx T -> 0 < num scale -> 0 < den scale ->
  at_ s + 20000 + 20 * dl < a -> a + 4 * dl < b -> b - at_ s <= 1000 * T -> 343 * den scale * (b - a + 3 * dl) < 2 ^ 64 ->
  measure_distance fuel e scale known mx s = Some (r, s', k) ->
  343 * den scale * (b - a - 3 * dl - 1000) < 2 * 1000000000 * num scale * (r + 1) /\ 2 * 1000000000 * num scale * r <= 343 * den scale * (b - a + 3 * dl).
Proof.
  intros dl fuel e scale known mx T s r s' k a b B H TI Hn Hd A1 A2 A3 F E.
  assert (D0 : 0 <= dl) by (pose proof (B 0%nat); pose proof (N2Z.is_nonneg (lag e 0)); lia).
  destruct (measure_parts dl fuel e scale known mx s r s' k B E) as (_ & s0 & l1 & s1 & M0 & E1 & E'). rewrite (timeout_of_is scale known mx T TI Hn Hd) in *.
  rewrite Z.max_r in M0 by lia.
  assert (LV : forall t, lvl e t = Z.b2z ((a <=? t) && (t <? b))) by (intros t; apply echo_lvl; exact H).
  assert (LL : forall t, t < a \/ b <= t -> lvl e t = low).
  { intros t Ht. rewrite LV. destruct (Z.leb_spec a t); destruct (Z.ltb_spec t b); cbn; try reflexivity; lia. }
  assert (LH : forall t, a <= t < b -> lvl e t = high).
  { intros t Ht. rewrite LV. destruct (Z.leb_spec a t); destruct (Z.ltb_spec t b); cbn; try reflexivity; lia. }
  destruct (expect_level_spec dl e low T fuel s0 l1 s1 B ltac:(discriminate) E1) as (st1 & c1 & z1 & X1 & X2 & X3 & _ & X4 & (X5 & _) & X6).
  (* the first reading is low *)
  assert (Z1 : lvl e (at_ z1) = low) by (apply LL; lia).
  assert (S1 : s1 = z1) by (destruct X5 as [->|(Q & _)]; [reflexivity|contradiction]). subst z1. clear X4 X5.
  assert (L1 : l1 = low) by (destruct X6 as [(R1 & _)|(_ & R2 & _)]; [exact R1|contradiction]). clear X6.
  set (u1 := pass e 0 s1) in *. assert (U1 : at_ s1 <= at_ u1 <= at_ s1 + dl) by (pose proof (B (ops s1)); pose proof (N2Z.is_nonneg (lag e (ops s1))); unfold u1; rewrite pass_at; lia).
  destruct E' as [(I & _)|(_ & l2 & s2 & E2 & E')]; [subst l1; discriminate|]. set (T2 := T - us_of_ns (at_ u1 - at_ s0)) in *.
  destruct (expect_level_spec dl e high T2 fuel u1 l2 s2 B ltac:(discriminate) E2) as (st2 & c2 & z2 & Y1 & Y2 & Y3 & _ & Y4 & (Y5 & Y7) & Y6).
  assert (Z2 : lvl e (at_ z2) = low) by (apply LL; lia).
  assert (V1 := us_le (at_ u1 - at_ s0) ltac:(lia)).
  (* the reading that ends the second wait comes before the end of the echo *)
  assert (S2 : at_ s2 < b).
  { destruct (Z.lt_ge_cases (at_ s2) b) as [Q|Q]; [exact Q|]. exfalso. destruct (Y7 (a + 2 * dl) ltac:(lia)) as (p & P1 & P2 & P3). apply P3, LH. lia. }
  assert (L2 : l2 = high /\ lvl e (at_ s2) = high).
  { destruct Y6 as [R|(_ & _ & c & Q1 & Q2 & Q3)]; [exact R|]. exfalso. pose proof (us_le (c - st2) ltac:(lia)). unfold T2 in Q3. lia. }
  destruct L2 as [L2 W2]. clear Y6.
  assert (S2a : a <= at_ s2) by (destruct (Z.lt_ge_cases (at_ s2) a) as [Q|Q]; [rewrite (LL (at_ s2)) in W2 by lia; discriminate|exact Q]).
  assert (S2b : at_ s2 < a + 2 * dl \/ at_ s2 = a).
  { destruct Y5 as [->|(_ & p & c & P1 & P2 & P3 & P4 & P5 & P6)]; [rewrite Z2 in W2; discriminate|]. destruct (Z.lt_ge_cases p a) as [Q|Q]; [lia|]. exfalso. apply P2, LH. lia. }
  set (u2 := pass e 0 s2) in *. assert (U2 : at_ s2 <= at_ u2 <= at_ s2 + dl) by (pose proof (B (ops s2)); pose proof (N2Z.is_nonneg (lag e (ops s2))); unfold u2; rewrite pass_at; lia).
  destruct E' as [(I & _)|(_ & l3 & s3 & E3 & ES & E')]; [subst l2; discriminate|]. set (T3 := T2 - us_of_ns (at_ u2 - at_ u1)) in *.
  destruct (expect_level_spec dl e low T3 fuel u2 l3 s3 B ltac:(discriminate) E3) as (st3 & c3 & z3 & X1' & X2' & X3' & _ & X4' & (X5' & _) & X6').
  assert (V2 := us_le (at_ u2 - at_ u1) ltac:(lia)).
  assert (L3 : l3 = low /\ lvl e (at_ s3) = low).
  { destruct X6' as [R|(_ & R2 & c & Q1 & Q2 & Q3)]; [exact R|]. exfalso. assert (at_ s3 < b) by (destruct (Z.lt_ge_cases (at_ s3) b) as [Q|Q]; [exact Q|exfalso; apply R2, LL; lia]).
    pose proof (us_le (c - st3) ltac:(lia)). unfold T3, T2 in Q3. lia. }
  destruct L3 as [L3 W3]. clear X6'.
  assert (S3 : b <= at_ s3) by (destruct (Z.lt_ge_cases (at_ s3) b) as [Q|Q]; [rewrite (LH (at_ s3)) in W3 by lia; discriminate|exact Q]).
  assert (S3b : at_ s3 <= b + 2 * dl \/ at_ s3 <= at_ u2 + 3 * dl).
  { destruct X5' as [->|(_ & p & c & P1 & P2 & P3 & P4 & P5 & P6)]; [right; lia|]. left. destruct (Z.lt_ge_cases p b) as [Q|Q]; [lia|]. exfalso. apply P2, LL. lia. }
  assert (U3 : at_ s3 <= at_ s' <= at_ s3 + dl) by (rewrite ES; pose proof (B (ops s3)); pose proof (N2Z.is_nonneg (lag e (ops s3))); rewrite pass_at; lia).
  destruct E' as [(I & _)|(_ & ->)]; [subst l3; discriminate|].
  assert (V3 := us_le (at_ s' - at_ u2) ltac:(lia)). set (n := us_of_ns (at_ s' - at_ u2)) in *.
  exact (distance_between scale n (b - a - 3 * dl) (b - a + 3 * dl) Hn Hd ltac:(lia) ltac:(lia) F).
Qed.

(** ** How long it takes, and how far it sees *)
Lemma last_turn_time : forall e dl level T start s s', last_turn e dl level T start s s' -> at_ s' = at_ s \/ (0 <= T /\ at_ s' <= start + 1000 * (T + 1) + 3 * dl).
Proof.
  intros e dl level T start s s' [->|(_ & p & c & P1 & P2 & P3 & P4 & P5 & P6)]; [left; reflexivity|]. right. pose proof (us_le (c - start) ltac:(lia)). lia.
Qed.
Lemma expect_time : forall dl e level T fuel s r s', brisk dl e -> level <> invalid -> expect_level fuel e level T s = Some (r, s') ->
  at_ s <= at_ s' /\ (at_ s' <= at_ s + 3 * dl \/ (0 <= T /\ at_ s' <= at_ s + 1000 * (T + 1) + 4 * dl)).
Proof.
  intros dl e level T fuel s r s' B NI E. destruct (expect_level_spec dl e level T fuel s r s' B NI E) as (st & c & z & X1 & X2 & X3 & _ & X4 & (X5 & _) & _).
  destruct (last_turn_time _ _ _ _ _ _ _ X5) as [Q|Q]; lia.
Qed.
Lemma pass_bounds : forall dl e s, brisk dl e -> at_ s <= at_ (pass e 0 s) <= at_ s + dl.
Proof. intros dl e s B. pose proof (B (ops s)). pose proof (N2Z.is_nonneg (lag e (ops s))). rewrite pass_at. lia. Qed.

Lemma measure_time : forall dl fuel e scale known mx T s r s' k,
  brisk dl e -> timeout_is scale known mx T -> 0 < num scale -> 0 < den scale -> 0 <= T -> measure_distance fuel e scale known mx s = Some (r, s', k) ->
  at_ s <= at_ s' <= at_ s + 20000 + 1000 * (T + 3) + 20 * dl.
Proof.
  intros dl fuel e scale known mx T s r s' k B TI Hn Hd P E.
  assert (D0 : 0 <= dl) by (pose proof (B 0%nat); pose proof (N2Z.is_nonneg (lag e 0)); lia).
  destruct (measure_parts dl fuel e scale known mx s r s' k B E) as (_ & s0 & l1 & s1 & M0 & E1 & E'). rewrite (timeout_of_is scale known mx T TI Hn Hd) in *. rewrite Z.max_r in M0 by lia.
  assert (X1 := expect_time dl e low T fuel s0 l1 s1 B ltac:(discriminate) E1). assert (Y1 := pass_bounds dl e s1 B). set (u1 := pass e 0 s1) in *.
  assert (V1 := us_le (at_ u1 - at_ s0) ltac:(lia)).
  destruct E' as [(_ & _ & ->)|(_ & l2 & s2 & E2 & E')].
  { assert (Y2 := pass_bounds dl e u1 B). assert (Y3 := pass_bounds dl e (pass e 0 u1) B). lia. }
  assert (X2 := expect_time dl e high _ fuel u1 l2 s2 B ltac:(discriminate) E2). assert (Y2 := pass_bounds dl e s2 B). set (u2 := pass e 0 s2) in *.
  destruct E' as [(_ & _ & ->)|(_ & l3 & s3 & E3 & -> & _)].
  { assert (Y3 := pass_bounds dl e u2 B). lia. }
  assert (V2 := us_le (at_ u2 - at_ u1) ltac:(lia)).
  assert (X3 := expect_time dl e low _ fuel u2 l3 s3 B ltac:(discriminate) E3). assert (Y3 := pass_bounds dl e s3 B). lia.
Qed.

Lemma measure_far : forall dl fuel e scale known mx T s r s' k,
  brisk dl e -> timeout_is scale known mx T -> 0 < num scale -> 0 < den scale -> 0 <= T -> 343 * den scale * (1000 * (T + 1) + 5 * dl) < 2 ^ 64 ->
  measure_distance fuel e scale known mx s = Some (r, s', k) ->
  r = mx \/ 0 <= 2 * 1000000000 * num scale * r <= 343 * den scale * (1000 * (T + 1) + 5 * dl).
Proof.
  intros dl fuel e scale known mx T s r s' k B TI Hn Hd P F E.
  assert (D0 : 0 <= dl) by (pose proof (B 0%nat); pose proof (N2Z.is_nonneg (lag e 0)); lia).
  destruct (measure_parts dl fuel e scale known mx s r s' k B E) as (_ & s0 & l1 & s1 & M0 & E1 & E'). rewrite (timeout_of_is scale known mx T TI Hn Hd) in *.
  destruct E' as [(_ & -> & _)|(_ & l2 & s2 & E2 & E')]; [left; reflexivity|].
  destruct E' as [(_ & -> & _)|(_ & l3 & s3 & E3 & -> & [(_ & ->)|(_ & ->)])]; [left; reflexivity|left; reflexivity|]. right.
  assert (X1 := expect_time dl e low T fuel s0 l1 s1 B ltac:(discriminate) E1). assert (Y1 := pass_bounds dl e s1 B). set (u1 := pass e 0 s1) in *.
  assert (V1 := us_le (at_ u1 - at_ s0) ltac:(lia)).
  assert (X2 := expect_time dl e high _ fuel u1 l2 s2 B ltac:(discriminate) E2). assert (Y2 := pass_bounds dl e s2 B). set (u2 := pass e 0 s2) in *.
  assert (V2 := us_le (at_ u2 - at_ u1) ltac:(lia)).
  assert (X3 := expect_time dl e low _ fuel u2 l3 s3 B ltac:(discriminate) E3). assert (Y3 := pass_bounds dl e s3 B).
  assert (V3 := us_le (at_ (pass e 0 s3) - at_ u2) ltac:(lia)). set (n := us_of_ns (at_ (pass e 0 s3) - at_ u2)) in *.
  pose proof (distance_between scale n 0 (1000 * (T + 1) + 5 * dl) Hn Hd ltac:(lia) ltac:(lia) F) as K. cbv zeta in K. set (q := sonic_distance scale n / 2) in *.
  assert (0 <= q) by (unfold q; apply Z.div_pos; [unfold sonic_distance; apply Z.div_pos; [apply Z.mod_pos_bound; lia|unfold micro; cbn [num den]; lia]|lia]). split; [|exact (proj2 K)].
  apply Z.mul_nonneg_nonneg; [lia|assumption].
Qed.

Lemma measure_ends : forall fuel e scale known mx T s, goes_on e -> timeout_is scale known mx T -> 0 < num scale -> 0 < den scale -> (Z.to_nat (1000 * (T + 1)) + 2 <= fuel)%nat ->
  exists r s', measure_distance fuel e scale known mx s = Some (r, s', Some T).
Proof.
  intros fuel e scale known mx T s G TI Hn Hd F. assert (TO := timeout_of_is scale known mx T TI Hn Hd). unfold measure_distance. fold (timeout_of scale known mx). rewrite TO. cbv zeta.
  destruct (put_level_for e low 10000 s) as [ra sa]. destruct (put_level_for e high 10000 sa) as [rb sb]. destruct (put_level e low sb) as [rc sc].
  unfold now. cbv zeta. set (s0 := pass e 0 sc).
  assert (EL : forall level T' s1, T' <= T -> exists r, expect_level fuel e level T' s1 = Some r) by (intros level T' s1 H; apply expect_level_ends; [exact G|lia]).
  assert (MO : forall level T' s1 r s2, expect_level fuel e level T' s1 = Some (r, s2) -> at_ s1 <= at_ s2).
  { clear. assert (L : forall f level T' st c lv s1 r s2, expect_loop f e level T' st c lv s1 = Some (r, s2) -> at_ s1 <= at_ s2).
    { induction f as [|f IH]; intros level T' st c lv s1 r s2 E; [discriminate|]. cbn [expect_loop] in E. destruct (lv =? level); [injection E as <- <-; lia|]. destruct (T' <? _); [injection E as <- <-; lia|].
      unfold now in E. cbv zeta in E. rewrite get_level_is in E. apply IH in E. rewrite !pass_at in E. lia. }
    intros level T' s1 r s2 E. unfold expect_level, now in E. cbv zeta in E. rewrite get_level_is in E. apply L in E. rewrite !pass_at in E. lia. }
  destruct (EL low T s0 ltac:(lia)) as ((l1 & s1) & E1). rewrite E1. cbv iota beta. apply MO in E1. set (u1 := pass e 0 s1). assert (at_ s1 <= at_ u1) by (unfold u1; rewrite pass_at; lia).
  pose proof (us_le (at_ u1 - at_ s0) ltac:(lia)).
  destruct (negb (l1 =? invalid)).
  - destruct (EL high (T - us_of_ns (at_ u1 - at_ s0)) u1 ltac:(lia)) as ((l2 & s2) & E2). rewrite E2. cbv iota beta. apply MO in E2. set (u2 := pass e 0 s2). assert (at_ s2 <= at_ u2) by (unfold u2; rewrite pass_at; lia).
    pose proof (us_le (at_ u2 - at_ u1) ltac:(lia)). destruct (negb (l2 =? invalid)).
    + destruct (EL low (T - us_of_ns (at_ u1 - at_ s0) - us_of_ns (at_ u2 - at_ u1)) u2 ltac:(lia)) as ((l3 & s3) & E3). rewrite E3. cbv iota beta. destruct (l3 =? invalid); eexists _, _; reflexivity.
    + cbv iota beta. destruct (l2 =? invalid); eexists _, _; reflexivity.
  - cbv iota beta. destruct (negb (l1 =? invalid)).
    + destruct (EL low (T - us_of_ns (at_ (pass e 0 u1) - at_ u1)) (pass e 0 u1)) as ((l3 & s3) & E3). { pose proof (us_le (at_ (pass e 0 u1) - at_ u1) ltac:(rewrite pass_at; lia)). lia. } rewrite E3. cbv iota beta. destruct (l3 =? invalid); eexists _, _; reflexivity.
    + cbv iota beta. destruct (l1 =? invalid); eexists _, _; reflexivity.
Qed.

(** ** The pulse *)
Lemma measure_pulse : forall fuel e scale known mx s r s' k, (forall t, writes e t = true) -> measure_distance fuel e scale known mx s = Some (r, s', k) ->
  exists t1 t2 t3, at_ s <= t1 /\ t1 + 10000 <= t2 /\ t2 + 10000 <= t3 <= at_ s' /\ wires s' = [(t3, low, true); (t2, high, true); (t1, low, true)] ++ wires s.
Proof.
  intros fuel e scale known mx s r s' k W E.
  assert (X : forall level T s1 r s2, expect_level fuel e level T s1 = Some (r, s2) -> at_ s1 <= at_ s2 /\ wires s2 = wires s1).
  { clear. assert (L : forall f level T' st c lv s1 r s2, expect_loop f e level T' st c lv s1 = Some (r, s2) -> at_ s1 <= at_ s2 /\ wires s2 = wires s1).
    { induction f as [|f IH]; intros level T' st c lv s1 r s2 E; [discriminate|]. cbn [expect_loop] in E. destruct (lv =? level); [injection E as <- <-; split; [lia|reflexivity]|]. destruct (T' <? _); [injection E as <- <-; split; [lia|reflexivity]|].
      unfold now in E. cbv zeta in E. rewrite get_level_is in E. apply IH in E. rewrite !pass_at in E. cbn [pass wires] in E. split; [lia|]. exact (proj2 E). }
    intros level T' s1 r s2 E. unfold expect_level, now in E. cbv zeta in E. rewrite get_level_is in E. apply L in E. rewrite !pass_at in E. cbn [pass wires] in E. split; [lia|]. exact (proj2 E). }
  unfold measure_distance in E. cbv zeta in E.
  assert (PL : forall level d s, Z.land level (Z.lxor mask (2 ^ 32 - 1)) = 0 -> level <> invalid -> put_level_for e level d s = (level, sleep_for e d {| at_ := at_ (pass e 0 s); ops := S (ops s); wires := (at_ (pass e 0 s), Z.land level mask, true) :: wires s |})).
  { intros level d x H NI. unfold put_level_for, put_level. rewrite H, Z.eqb_refl. cbn [negb]. cbv zeta. rewrite W. destruct (Z.eqb_spec level invalid); [contradiction|]. reflexivity. }
  rewrite PL in E by (try reflexivity; discriminate). rewrite PL in E by (try reflexivity; discriminate).
  unfold put_level in E at 1. change (Z.land low (Z.lxor mask (2 ^ 32 - 1)) =? 0) with true in E. cbn [negb] in E. cbv zeta in E. rewrite W in E.
  change (Z.land low mask) with low in E. change (Z.land high mask) with high in E.
  set (sa := {| at_ := at_ (pass e 0 s); ops := _; wires := _ |}) in E. set (ta := sleep_for e 10000 sa) in E. set (sb := {| at_ := at_ (pass e 0 ta); ops := _; wires := _ |}) in E. set (tb := sleep_for e 10000 sb) in E.
  set (sc := {| at_ := at_ (pass e 0 tb); ops := _; wires := _ |}) in E. exists (at_ sa), (at_ sb), (at_ sc).
  assert (N0 : forall d x, 0 <= d -> at_ x + d <= at_ (pass e d x)) by (intros d x H; rewrite pass_at; pose proof (N2Z.is_nonneg (lag e (ops x))); lia).
  assert (M1 : at_ s <= at_ sa) by (unfold sa; cbn [at_]; pose proof (N0 0 s); lia).
  assert (M2 : at_ sa + 10000 <= at_ ta) by (exact (N0 10000 sa ltac:(lia))).
  assert (M3 : at_ ta <= at_ sb) by (unfold sb; cbn [at_]; pose proof (N0 0 ta); lia).
  assert (M4 : at_ sb + 10000 <= at_ tb) by (exact (N0 10000 sb ltac:(lia))).
  assert (M5 : at_ tb <= at_ sc) by (unfold sc; cbn [at_]; pose proof (N0 0 tb); lia).
  assert (WC : wires sc = [(at_ sc, low, true); (at_ sb, high, true); (at_ sa, low, true)] ++ wires s) by reflexivity.
  cut (at_ sc <= at_ s' /\ wires s' = wires sc). { intros (C1 & C2). rewrite C2, WC. repeat split; lia. }
  clearbody sc. clear - E X N0. unfold now in E. cbv zeta in E.
  assert (PW : forall x, wires (pass e 0 x) = wires x) by reflexivity. assert (P0 : forall x, at_ x <= at_ (pass e 0 x)) by (intros x; specialize (N0 0 x); lia). clear N0.
  pose proof (P0 sc). destruct (expect_level fuel e low _ (pass e 0 sc)) as [[l1 s1]|] eqn:E1 in E; [|discriminate]. apply X in E1. rewrite PW in E1. pose proof (P0 s1). pose proof (PW s1). pose proof (P0 (pass e 0 s1)). pose proof (PW (pass e 0 s1)). pose proof (P0 (pass e 0 (pass e 0 s1))).
  destruct (negb (l1 =? invalid)) eqn:EI.
  - destruct (expect_level fuel e high _ _) as [[l2 s2]|] eqn:E2 in E; [|discriminate]. apply X in E2. pose proof (P0 s2). pose proof (PW s2). pose proof (P0 (pass e 0 s2)). destruct (negb (l2 =? invalid)).
    + destruct (expect_level fuel e low _ (pass e 0 s2)) as [[l3 s3]|] eqn:E3 in E; [|discriminate]. apply X in E3. pose proof (P0 s3). destruct (l3 =? invalid); injection E as <- <- <-; (split; [lia|]); rewrite PW, (proj2 E3), PW, (proj2 E2), PW; exact (proj2 E1).
    + destruct (l2 =? invalid); injection E as <- <- <-; (split; [lia|]); rewrite !PW, (proj2 E2), PW; exact (proj2 E1).
  - rewrite EI in E. destruct (l1 =? invalid); injection E as <- <- <-; (split; [lia|]); rewrite !PW; exact (proj2 E1).
Qed.

(** ** Descriptors *)
Definition owned (t : table) (fd : Z) : Prop := exists i, line t i = Some fd.
Definition lines_inv (t : table) : Prop :=
  (forall i fd, line t i = Some fd -> (i < nlines t)%nat /\ 0 <= fd /\ held t fd = true) /\
  (forall i j fd, line t i = Some fd -> line t j = Some fd -> i = j) /\
  (forall fd, (owned t fd /\ times true fd (log_ t) = S (times false fd (log_ t))) \/ ((forall i, line t i <> Some fd) /\ times true fd (log_ t) = times false fd (log_ t))).

Lemma times_cons : forall g g' fd fd' l, times g fd ((g', fd') :: l) = ((if Bool.eqb g' g && (fd' =? fd)%Z then 1 else 0) + times g fd l)%nat.
Proof. intros. unfold times. cbn [filter fst snd]. destruct (Bool.eqb g' g && (fd' =? fd))%bool; reflexivity. Qed.

Lemma plain_keeps : forall t a, lines_inv t -> plain a -> match do_act t a with Went t' | Threw t' => lines_inv t' | Cannot => True end.
Proof.
  intros t a (I1 & I2 & I3) P. destruct a as [chip opened asked closed|i|i|fd]; cbn [do_act plain] in *; [| contradiction | |].
  - destruct chip; cbn [negb]; [|split; [exact I1|split; [exact I2|exact I3]]]. destruct opened as [fd|]; [|split; [exact I1|split; [exact I2|exact I3]]].
    destruct (P eq_refl ltac:(discriminate)) as (A & ->). destruct asked as [lf|]; [clear A|contradiction]. destruct ((fd <? 0) || held t fd)%bool eqn:E1; [trivial|].
    destruct ((lf <? 0) || held (hand fd t) lf)%bool eqn:E2; [trivial|]. cbn [negb].
    apply orb_false_iff in E1. apply orb_false_iff in E2. destruct E1 as [F1 H1]. destruct E2 as [F2 H2]. apply Z.ltb_ge in F1. apply Z.ltb_ge in F2. cbn [hand held] in H2.
    destruct (Z.eqb_spec lf fd) as [|NE]; [discriminate|].
    assert (NF : forall i, line t i <> Some fd) by (intros i Q; destruct (I1 i fd Q) as (_ & _ & Q'); congruence). assert (NL : forall i, line t i <> Some lf) by (intros i Q; destruct (I1 i lf Q) as (_ & _ & Q'); congruence).
    assert (NN : line t (nlines t) = None) by (destruct (line t (nlines t)) as [x|] eqn:Q; [destruct (I1 _ _ Q); lia|reflexivity]).
    split; [|split]; cbn [add_line shut hand line nlines held log_].
    + intros i x Q. destruct (Nat.eqb_spec i (nlines t)) as [->|Ni].
      * injection Q as <-. split; [lia|]. split; [exact F2|]. destruct (Z.eqb_spec lf fd); [contradiction|]. rewrite Z.eqb_refl. reflexivity.
      * destruct (I1 i x Q) as (Q1 & Q2 & Q3). split; [lia|]. split; [exact Q2|]. destruct (Z.eqb_spec x fd) as [->|]; [congruence|]. destruct (x =? lf); [reflexivity|exact Q3].
    + intros i j x Q1 Q2. destruct (Nat.eqb_spec i (nlines t)); destruct (Nat.eqb_spec j (nlines t)); subst; try reflexivity; try congruence. exact (I2 i j x Q1 Q2).
    + intros x. rewrite !times_cons. cbn [Bool.eqb andb]. destruct (I3 x) as [((i & Q) & K)|(Q & K)].
      * left. assert (Nx : x <> fd /\ x <> lf) by (split; intros ->; congruence). split.
        { exists i. cbn [line add_line shut hand nlines]. destruct (Nat.eqb_spec i (nlines t)); [subst; congruence|exact Q]. }
        destruct (Z.eqb_spec fd x); [lia|]. destruct (Z.eqb_spec lf x); [lia|]. lia.
      * destruct (Z.eqb_spec lf x) as [->|NX].
        { left. split; [exists (nlines t); cbn [line add_line shut hand nlines]; rewrite Nat.eqb_refl; reflexivity|]. destruct (Z.eqb_spec fd x); [congruence|]. lia. }
        right. split; [intros i; destruct (Nat.eqb_spec i (nlines t)); [congruence|apply Q]|]. destruct (Z.eqb_spec fd x); lia.
  - destruct (line t i) as [fd|] eqn:L; [|trivial]. destruct (I1 i fd L) as (B1 & B2 & B3). destruct (Z.leb_spec 0 fd) as [_|]; [|lia].
    split; [|split]; cbn [shut line nlines held log_].
    + intros j x Q. destruct (Nat.eqb_spec j i) as [->|NE]; [discriminate|]. destruct (I1 j x Q) as (Q1 & Q2 & Q3). split; [exact Q1|]. split; [exact Q2|]. destruct (Z.eqb_spec x fd) as [->|]; [|exact Q3]. elim NE. exact (I2 j i fd Q L).
    + intros j k x Q1 Q2. destruct (Nat.eqb_spec j i); [discriminate|]. destruct (Nat.eqb_spec k i); [discriminate|]. exact (I2 j k x Q1 Q2).
    + intros x. rewrite !times_cons. cbn [Bool.eqb andb]. destruct (Z.eqb_spec fd x) as [->|NX].
      * right. destruct (I3 x) as [(_ & K)|(Q & _)]; [|elim (Q i L)]. split; [intros j; destruct (Nat.eqb_spec j i) as [->|NE]; [discriminate|intros Q; apply NE; exact (I2 j i x Q L)]|lia].
      * destruct (I3 x) as [((j & Q) & K)|(Q & K)]; [left|right]; (split; [|lia]).
        { exists j. cbn [line]. destruct (Nat.eqb_spec j i) as [->|]; [congruence|exact Q]. }
        intros j. destruct (Nat.eqb_spec j i); [discriminate|apply Q].
  - destruct ((fd <? 0) || held t fd)%bool eqn:E1; [trivial|]. split; [|split]; cbn [line nlines held log_]; [|exact I2|exact I3].
    intros i x Q. destruct (I1 i x Q) as (Q1 & Q2 & Q3). repeat split; [exact Q1|exact Q2|]. destruct (x =? fd); [reflexivity|exact Q3].
Qed.
Lemma plain_acts : forall l t t', lines_inv t -> Forall plain l -> acts t l = Some t' -> lines_inv t'.
Proof.
  induction l as [|a l IH]; intros t t' I F E; cbn [acts] in E; [injection E as <-; exact I|]. assert (K := plain_keeps t a I (Forall_inv F)).
  destruct (do_act t a) as [u|u|]; [| |discriminate]; exact (IH _ _ K (Forall_inv_tail F) E).
Qed.
Lemma no_lines_inv : lines_inv no_lines.
Proof. split; [intros i fd Q; discriminate|]. split; [intros i j fd Q; discriminate|]. intros fd. right. split; [discriminate|reflexivity]. Qed.
