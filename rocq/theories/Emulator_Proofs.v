(** Proofs about the PWM emulator. *)

From Coq Require Import ZArith Lia List Bool.
From Verif Require Import Gpio_Model Gpio_Spec Gpio_Proofs Emulator_Model Emulator_Spec.
Import ListNotations.
Open Scope Z_scope.

Lemma put_spec : forall dl e level s r s', brisk dl e -> level = low \/ level = high -> put_level e level s = (r, s') ->
  at_ s <= at_ s' <= at_ s + dl /\ wires s' = (at_ s', level, writes e (at_ s')) :: wires s.
Proof.
  intros dl e level s r s' B L E. unfold put_level in E.
  assert (K : Z.land level (Z.lxor mask (2 ^ 32 - 1)) =? 0 = true) by (destruct L as [-> | ->]; reflexivity). assert (K' : Z.land level mask = level) by (destruct L as [-> | ->]; reflexivity).
  rewrite K, K' in E. cbn [negb] in E. cbv zeta in E. assert (P := pass_bounds dl e s B).
  destruct (writes e (at_ (pass e 0 s))) eqn:W; injection E as <- <-; cbn [at_ wires]; (split; [exact P|]); rewrite <- W; reflexivity.
Qed.
Lemma load_spec : forall dl e c s q d s', brisk dl e -> load e c s = (q, d, s') ->
  at_ s <= at_ s' <= at_ s + 2 * dl /\ wires s' = wires s /\ exists r1 r2, at_ s <= r1 <= at_ s' /\ at_ s <= r2 <= at_ s' /\ q = quit_at c r1 /\ d = duty_at c r2.
Proof.
  intros dl e c s q d s' B E. unfold load in E. cbv zeta in E. injection E as <- <- <-. assert (P1 := pass_bounds dl e s B). assert (P2 := pass_bounds dl e (pass e 0 s) B).
  split; [lia|]. split; [reflexivity|]. exists (at_ (pass e 0 s)), (at_ (pass e 0 (pass e 0 s))). repeat split; lia.
Qed.
Lemma until_spec : forall dl e tp s, brisk dl e -> Z.max (at_ s) tp <= at_ (pass_until e tp s) <= Z.max (at_ s) tp + dl /\ wires (pass_until e tp s) = wires s.
Proof. intros dl e tp s B. unfold pass_until. rewrite pass_at. pose proof (B (ops s)). pose proof (N2Z.is_nonneg (lag e (ops s))). split; [lia|reflexivity]. Qed.
Lemma wake_bounds : forall c u i, u <= wake c u i <= u + const_level_period.
Proof.
  intros c u i. unfold wake. cbv zeta.
  assert (K : forall l m, u <= m <= u + const_level_period -> u <= fold_left (fun m t => if u <=? t then Z.min m t else m) l m <= u + const_level_period).
  { induction l as [|t l IH]; intros m H; cbn [fold_left]; [exact H|]. apply IH. destruct (Z.leb_spec u t); lia. }
  specialize (K (notes c) (u + const_level_period) ltac:(unfold const_level_period; lia)). destruct (spurious c i); lia.
Qed.
Lemma i64_some : forall x y, i64 x = Some y -> y = x.
Proof. intros x y. unfold i64. destruct (_ && _)%bool; [intros [= <-]; reflexivity|discriminate]. Qed.
Lemma i64_fits : forall x, - 2 ^ 63 <= x < 2 ^ 63 -> i64 x = Some x.
Proof. intros x H. unfold i64. destruct (Z.leb_spec (- 2 ^ 63) x); [|lia]. destruct (Z.ltb_spec x (2 ^ 63)); [reflexivity|lia]. Qed.

Lemma high_duration_spec : forall m duty, sane m -> 0 <= duty <= 100 -> exists w, high_duration m duty = Some w /\ width_for m duty w /\ min_width m <= w <= max_width m.
Proof.
  intros m duty (S1 & S2) D. unfold high_duration. rewrite i64_fits by lia. assert (K : 0 <= duty * (max_width m - min_width m) <= 100 * 1000000) by nia. rewrite i64_fits by lia.
  rewrite Z.quot_div_nonneg by (unfold duty_max; lia). unfold duty_max. set (x := duty * (max_width m - min_width m)) in *. pose proof (Z.div_mod x 100 ltac:(lia)). pose proof (Z.mod_pos_bound x 100 ltac:(lia)).
  assert (x <= 100 * (max_width m - min_width m)) by (unfold x; nia). rewrite i64_fits by lia. eexists. split; [reflexivity|]. unfold width_for. fold x. lia.
Qed.

(** ** One turn *)
Lemma turn_quit : forall dl e c m duty s, brisk dl e -> exists s', turn e c m (Head true duty s) = Ended s' /\ at_ s <= at_ s' <= at_ s + dl /\ wires s' = (at_ s', low, writes e (at_ s')) :: wires s.
Proof. intros dl e c m duty s B. cbn [turn]. destruct (put_level e low s) as [r s'] eqn:E. exists s'. split; [reflexivity|]. exact (put_spec dl e low s r s' B (or_introl eq_refl) E). Qed.

Lemma turn_const : forall dl e c m duty s, brisk dl e -> duty = 0 \/ duty = 100 ->
  exists q d s', turn e c m (Head false duty s) = Head q d s' /\ at_ s <= at_ s' <= at_ s + 200000000 + 5 * dl /\
  (exists t u, at_ s <= t <= at_ s + dl /\ wires s' = (t, if duty =? 0 then low else high, writes e t) :: wires s /\ t <= u <= t + dl /\ exists i, wake c u i <= at_ s' <= wake c u i + 3 * dl) /\
  exists r1 r2, at_ s <= r1 <= at_ s' /\ at_ s <= r2 <= at_ s' /\ q = quit_at c r1 /\ d = duty_at c r2.
Proof.
  intros dl e c m duty s B D. cbn [turn]. assert (DC : ((duty =? duty_min) || (duty =? duty_max))%bool = true) by (destruct D as [-> | ->]; reflexivity). rewrite DC. cbv zeta.
  assert (LV : (if negb (duty =? duty_min) then high else low) = (if duty =? 0 then low else high)) by (destruct D as [-> | ->]; reflexivity). rewrite LV.
  destruct (put_level e (if duty =? 0 then low else high) s) as [r s1] eqn:E1. destruct (put_spec dl e (if duty =? 0 then low else high) s r s1 B ltac:(destruct D as [-> | ->]; cbn; auto) E1) as (P1 & W1).
  assert (P2 := pass_bounds dl e s1 B). set (s2 := pass e 0 s1) in *. destruct (until_spec dl e (wake c (at_ s2) (ops s2)) s2 B) as (P3 & W3). set (s3 := pass_until e _ s2) in *.
  destruct (load e c s3) as [[q d] s4] eqn:E4. destruct (load_spec dl e c s3 q d s4 B E4) as (P4 & W4 & r1 & r2 & R1 & R2 & Q1 & Q2).
  assert (WB := wake_bounds c (at_ s2) (ops s2)). unfold const_level_period in WB.
  exists q, d, s4. split; [reflexivity|]. split; [lia|]. split.
  - exists (at_ s1), (at_ s2). split; [lia|]. split; [rewrite W4, W3; exact W1|]. split; [lia|]. exists (ops s2). lia.
  - exists r1, r2. repeat split; try lia; assumption.
Qed.

Lemma turn_alt : forall dl e c m duty s t', brisk dl e -> sane m -> 0 < duty < 100 -> turn e c m (Head false duty s) = t' -> t' <> Undefined ->
  exists q d s' w t1 t2, t' = Head q d s' /\ width_for m duty w /\ min_width m <= w <= max_width m /\
  at_ s <= t1 <= at_ s + 2 * dl /\ 1000 * w - dl <= t2 - t1 <= 1000 * w + 5 * dl /\ wires s' = (t2, low, writes e t2) :: (t1, high, writes e t1) :: wires s /\
  t1 - dl + 1000 * period m <= at_ s' <= t1 + 1000 * period m + 8 * dl /\ t1 <= t2 <= at_ s' /\
  exists r1 r2, at_ s <= r1 <= at_ s' /\ at_ s <= r2 <= at_ s' /\ q = quit_at c r1 /\ d = duty_at c r2.
Proof.
  intros dl e c m duty s t' B Sa D E NU. assert (D0 : 0 <= dl) by (pose proof (B 0%nat); pose proof (N2Z.is_nonneg (lag e 0)); lia). cbn [turn] in E.
  assert (DC : ((duty =? duty_min) || (duty =? duty_max))%bool = false) by (unfold duty_min, duty_max; destruct (Z.eqb_spec duty 0); destruct (Z.eqb_spec duty 100); try lia; reflexivity). rewrite DC in E.
  destruct (high_duration_spec m duty Sa ltac:(lia)) as (w & HW & WF & WB). rewrite HW in E. destruct Sa as (S1 & S2). rewrite i64_fits in E by lia.
  unfold now in E. cbv zeta in E. assert (P0 := pass_bounds dl e s B). set (s0 := pass e 0 s) in *.
  destruct (i64 (at_ s0 + 1000 * w)) as [he|] eqn:I1; [|congruence]. apply i64_some in I1. destruct (i64 (he + 1000 * (period m - w))) as [le|] eqn:I2; [|congruence]. apply i64_some in I2.
  destruct (put_level e high s0) as [r s1] eqn:E1. destruct (put_spec dl e _ s0 r s1 B (or_intror eq_refl) E1) as (P1 & W1).
  destruct (Z.leb_spec (period m - w) w) as [C1|C1].
  - destruct (load e c s1) as [[q d] s2] eqn:E2. destruct (load_spec dl e c s1 q d s2 B E2) as (P2 & W2 & r1 & r2 & R1 & R2 & Q1 & Q2).
    destruct (until_spec dl e he s2 B) as (P3 & W3). set (s3 := pass_until e he s2) in *.
    destruct (put_level e low s3) as [r' s4] eqn:E4. destruct (put_spec dl e _ s3 r' s4 B (or_introl eq_refl) E4) as (P4 & W4).
    destruct (Z.ltb_spec w (period m - w)) as [C2|C2]; [lia|]. destruct (until_spec dl e le s4 B) as (P5 & W5). set (s5 := pass_until e le s4) in *.
    exists q, d, s5, w, (at_ s1), (at_ s4). split; [symmetry; exact E|]. split; [exact WF|]. split; [exact WB|]. split; [lia|]. split; [lia|]. split; [rewrite W5, W4, W3, W2, W1; reflexivity|]. split; [lia|]. split; [lia|].
    exists r1, r2. repeat split; try lia; assumption.
  - destruct (until_spec dl e he s1 B) as (P3 & W3). set (s3 := pass_until e he s1) in *.
    destruct (put_level e low s3) as [r' s4] eqn:E4. destruct (put_spec dl e _ s3 r' s4 B (or_introl eq_refl) E4) as (P4 & W4).
    destruct (Z.ltb_spec w (period m - w)) as [C2|C2]; [|lia].
    destruct (load e c s4) as [[q d] s2] eqn:E2. destruct (load_spec dl e c s4 q d s2 B E2) as (P2 & W2 & r1 & r2 & R1 & R2 & Q1 & Q2).
    destruct (until_spec dl e le s2 B) as (P5 & W5). set (s5 := pass_until e le s2) in *.
    exists q, d, s5, w, (at_ s1), (at_ s4). split; [symmetry; exact E|]. split; [exact WF|]. split; [exact WB|]. split; [lia|]. split; [lia|]. split; [rewrite W5, W2, W4, W3, W1; reflexivity|]. split; [lia|]. split; [lia|].
    exists r1, r2. repeat split; try lia; assumption.
Qed.

Lemma turn_defined : forall dl e c m duty s, brisk dl e -> sane m -> 0 < duty < 100 -> - 2 ^ 62 <= at_ s -> at_ s + dl + 2000000000 < 2 ^ 63 -> turn e c m (Head false duty s) <> Undefined.
Proof.
  intros dl e c m duty s B Sa D L H. cbn [turn]. destruct (_ || _)%bool; [destruct (put_level e _ s); cbv zeta; destruct (load e c _) as [[? ?] ?]; discriminate|].
  destruct (high_duration_spec m duty Sa ltac:(lia)) as (w & HW & WF & WB). rewrite HW. destruct Sa as (S1 & S2). rewrite i64_fits by lia. unfold now. cbv zeta. assert (P0 := pass_bounds dl e s B).
  rewrite i64_fits by lia. rewrite i64_fits by lia. destruct (put_level e high _) as [? ?]. destruct (_ <=? _); [destruct (load e c _) as [[? ?] ?]|]; cbv iota beta; destruct (put_level e low _) as [? ?]; (destruct (_ <? _); [destruct (load e c _) as [[? ?] ?]|]); cbv iota beta; discriminate.
Qed.

(** Every turn that is not the last: how long it takes, when it reads. *)
Lemma turn_head : forall dl e c m duty s q d s', brisk dl e -> sane m -> 0 <= duty <= 100 -> turn e c m (Head false duty s) = Head q d s' ->
  at_ s <= at_ s' <= at_ s + longest m dl /\ exists r1 r2, at_ s <= r1 <= at_ s' /\ at_ s <= r2 <= at_ s' /\ q = quit_at c r1 /\ d = duty_at c r2.
Proof.
  intros dl e c m duty s q d s' B Sa D E. assert (D0 : 0 <= dl) by (pose proof (B 0%nat); pose proof (N2Z.is_nonneg (lag e 0)); lia). unfold longest.
  destruct (Z.eq_dec duty 0) as [Z0|N0]; [|destruct (Z.eq_dec duty 100) as [Z1|N1]].
  1,2: destruct (turn_const dl e c m duty s B ltac:(auto)) as (q' & d' & s'' & E' & T & _ & R); rewrite E in E'; injection E' as <- <- <-; split; [lia|exact R].
  destruct (turn_alt dl e c m duty s _ B Sa ltac:(lia) E ltac:(discriminate)) as (q' & d' & s'' & w & t1 & t2 & E' & _ & _ & T1 & _ & _ & T2 & T3 & R). injection E' as <- <- <-. split; [lia|exact R].
Qed.
Lemma begun_spec : forall dl e c s, brisk dl e -> exists q d s', begun e c s = Head q d s' /\ at_ s <= at_ s' <= at_ s + 2 * dl /\ wires s' = wires s /\
  exists r1 r2, at_ s <= r1 <= at_ s' /\ at_ s <= r2 <= at_ s' /\ q = quit_at c r1 /\ d = duty_at c r2.
Proof.
  intros dl e c s B. unfold begun. destruct (load e c s) as [[q d] s'] eqn:E. destruct (load_spec dl e c s q d s' B E) as (P & W & R). exists q, d, s'. auto.
Qed.
(** The head of the loop: where its values come from. *)
Lemma head_comes : forall dl e c m s0, brisk dl e -> sane m -> percent c -> forall n q d s, after n e c m s0 = Head q d s ->
  0 <= d <= 100 /\ at_ s0 <= at_ s /\ exists r1 r2, at_ s - longest m dl <= r1 <= at_ s /\ at_ s - longest m dl <= r2 <= at_ s /\ q = quit_at c r1 /\ d = duty_at c r2.
Proof.
  intros dl e c m s0 B Sa PC. assert (D0 : 0 <= dl) by (pose proof (B 0%nat); pose proof (N2Z.is_nonneg (lag e 0)); lia). induction n as [|n IH]; intros q d s E.
  - cbn [after] in E. destruct (begun_spec dl e c s0 B) as (q' & d' & s' & E' & P & _ & r1 & r2 & R1 & R2 & Q1 & Q2). rewrite E in E'. injection E' as <- <- <-.
    unfold longest. split; [rewrite Q2; apply PC|]. split; [lia|]. exists r1, r2. repeat split; try lia; assumption.
  - cbn [after] in E. destruct (after n e c m s0) as [q0 d0 s1| |] eqn:E0; [|discriminate|discriminate]. destruct (IH _ _ _ eq_refl) as (D & M & _).
    destruct q0; [destruct (turn_quit dl e c m d0 s1 B) as (? & K & _); congruence|].
    destruct (turn_head dl e c m d0 s1 q d s B Sa D E) as (T & r1 & r2 & R1 & R2 & Q1 & Q2). split; [rewrite Q2; apply PC|]. split; [lia|]. exists r1, r2. repeat split; try lia; assumption.
Qed.

(** ** Quitting *)
Lemma turn_time : forall e c m q d s q' d' s', goes_on e -> turn e c m (Head q d s) = Head q' d' s' -> at_ s < at_ s'.
Proof.
  intros e c m q d s q' d' s' G E. assert (N0 : forall x x0, at_ x + Z.max 0 x0 < at_ (pass e (Z.max 0 x0) x)) by (intros x x0; rewrite pass_at; pose proof (G (ops x)); lia).
  assert (N1 : forall x, at_ x < at_ (pass e 0 x)) by (intros x; rewrite pass_at; pose proof (G (ops x)); lia).
  assert (NP : forall l x, at_ x <= at_ (snd (put_level e l x))).
  { intros l x. unfold put_level. destruct (negb _); [cbn; lia|]. cbv zeta. specialize (N1 x). destruct (writes e _); cbn [snd at_]; lia. }
  assert (NL : forall x, at_ x <= at_ (snd (load e c x))) by (intros x; unfold load; cbn [snd]; pose proof (N1 x); pose proof (N1 (pass e 0 x)); lia).
  assert (NU : forall tp x, at_ x < at_ (pass_until e tp x)) by (intros tp x; unfold pass_until; specialize (N0 x (tp - at_ x)); lia).
  cbn [turn] in E. destruct q; [destruct (put_level e low s); discriminate|]. destruct (_ || _)%bool.
  - destruct (put_level e _ s) as [r s1] eqn:E1. cbv zeta in E. match type of E1 with put_level e ?l _ = _ => specialize (NP l s) end. rewrite E1 in NP. cbn [snd] in NP.
    pose proof (N1 s1). set (s2 := pass e 0 s1) in *. pose proof (NU (wake c (at_ s2) (ops s2)) s2). set (s3 := pass_until e _ s2) in *. specialize (NL s3). destruct (load e c s3) as [[? ?] s4] eqn:E4. cbn [snd] in NL. injection E as <- <- <-. lia.
  - destruct (high_duration m d) as [hd|]; [|discriminate]. destruct (i64 (period m - hd)) as [ld|]; [|discriminate]. unfold now in E. cbv zeta in E. pose proof (N1 s). set (s0 := pass e 0 s) in *.
    destruct (i64 _) as [he|]; [|discriminate]. destruct (i64 _) as [le|]; [|discriminate].
    pose proof (NP high s0). destruct (put_level e high s0) as [r1 s1]. cbn [snd] in *.
    assert (X : forall (b : bool) x y q0 d0, (if b then load e c x else (q0, d0, x)) = y -> at_ x <= at_ (snd y)) by (intros b x y q0 d0 <-; destruct b; [apply NL|cbn; lia]).
    destruct (if ld <=? hd then load e c s1 else (false, d, s1)) as [[q1 d1] s2] eqn:E2. apply X in E2. cbn [snd] in E2.
    pose proof (NU he s2). set (s3 := pass_until e he s2) in *. pose proof (NP low s3). destruct (put_level e low s3) as [r4 s4]. cbn [snd] in *.
    destruct (if hd <? ld then load e c s4 else (q1, d1, s4)) as [[q5 d5] s5] eqn:E5. apply X in E5. cbn [snd] in E5. pose proof (NU le s5). injection E as <- <- <-. lia.
Qed.

Lemma quits_within : forall dl e c m s0 t1, brisk dl e -> goes_on e -> sane m -> percent c -> 0 <= at_ s0 -> at_ s0 <= t1 -> (forall t, t1 <= t -> quit_at c t = true) -> t1 + 4 * longest m dl + 2000000000 < 2 ^ 63 ->
  forall k n q d s, after n e c m s0 = Head q d s -> t1 - at_ s <= Z.of_nat k -> at_ s <= t1 + longest m dl ->
  exists n' s', after n' e c m s0 = Ended s' /\ at_ s' <= t1 + 3 * longest m dl /\ exists l, wires s' = (at_ s', low, writes e (at_ s')) :: l.
Proof.
  intros dl e c m s0 t1 B G Sa PC P0 P1 Q F. assert (D0 : 0 <= dl) by (pose proof (B 0%nat); pose proof (N2Z.is_nonneg (lag e 0)); lia). assert (L0 : dl <= longest m dl /\ 0 <= longest m dl) by (unfold longest; lia).
  assert (QE : forall n d s, after n e c m s0 = Head true d s -> at_ s <= t1 + 2 * longest m dl -> exists n' s', after n' e c m s0 = Ended s' /\ at_ s' <= t1 + 3 * longest m dl /\ exists l, wires s' = (at_ s', low, writes e (at_ s')) :: l).
  { intros n d s E T. destruct (turn_quit dl e c m d s B) as (s' & E' & T' & W). exists (S n), s'. cbn [after]. rewrite E. split; [exact E'|]. split; [lia|]. exists (wires s). exact W. }
  assert (NX : forall n d s, after n e c m s0 = Head false d s -> at_ s <= t1 + longest m dl -> exists q' d' s', after (S n) e c m s0 = Head q' d' s' /\ at_ s < at_ s' <= at_ s + longest m dl /\ exists r1, at_ s <= r1 /\ q' = quit_at c r1).
  { intros n d s E T. destruct (head_comes dl e c m s0 B Sa PC n _ _ _ E) as (D & M & _). cbn [after]. rewrite E.
    assert (H : exists q' d' s', turn e c m (Head false d s) = Head q' d' s').
    { destruct (Z.eq_dec d 0) as [Z0|N0]; [|destruct (Z.eq_dec d 100) as [Z1|N1]].
      1,2: destruct (turn_const dl e c m d s B ltac:(auto)) as (q' & d' & s'' & E' & _); rewrite E'; eauto.
      destruct (turn_alt dl e c m d s _ B Sa ltac:(lia) eq_refl (turn_defined dl e c m d s B Sa ltac:(lia) ltac:(lia) ltac:(lia))) as (q' & d' & s'' & w & u1 & u2 & E' & _). eauto. }
    destruct H as (q' & d' & s' & E'). exists q', d', s'. split; [exact E'|]. assert (TT := turn_time e c m false d s q' d' s' G E'). destruct (turn_head dl e c m d s q' d' s' B Sa D E') as (T' & r1 & r2 & R1 & _ & Q1 & _). split; [lia|]. exists r1. split; [lia|exact Q1]. }
  induction k as [|k IH]; intros n q d s E K T.
  - destruct q; [apply (QE n d s E); lia|]. destruct (NX n d s E T) as (q' & d' & s' & E' & T' & r1 & R1 & ->). rewrite (Q r1) in E' by lia. apply (QE (S n) d' s' E'). lia.
  - destruct q; [apply (QE n d s E); lia|]. destruct (NX n d s E T) as (q' & d' & s' & E' & T' & r1 & R1 & ->).
    destruct (Z.le_gt_cases t1 (at_ s)) as [C|C]; [rewrite (Q r1) in E' by lia; apply (QE (S n) d' s' E'); lia|].
    apply (IH (S n) _ _ _ E'); lia.
Qed.

(** ** The callers *)
Definition call_ok (h : shared) : Prop :=
  0 <= duty_ h <= 100 /\ forall i, match calls h i with Compared v | Decided v _ => 0 <= v <= 100 | _ => True end.
Lemma advance_ok : forall h i, call_ok h -> call_ok (advance h i).
Proof.
  intros h i (D & C). assert (U : forall k d n, 0 <= d <= 100 -> match k with Compared v | Decided v _ => 0 <= v <= 100 | _ => True end -> call_ok {| duty_ := d; calls := fun j => if Nat.eqb j i then k else calls h j; notified := n |}).
  { intros k d n Hd Hk. split; [exact Hd|]. intros j. cbn [calls]. destruct (Nat.eqb j i); [exact Hk|apply C]. }
  unfold advance. cbv zeta. specialize (C i) as Ci. destruct (calls h i) as [v|v|v n|n|].
  - destruct (v =? duty_ h); apply U; try exact D; [exact I|]. unfold duty_min, duty_max. destruct (Z.ltb_spec v 0); [lia|]. destruct (Z.ltb_spec 100 v); lia.
  - apply U; assumption.
  - apply U; [exact Ci|exact I].
  - apply U; [exact D|exact I].
  - split; assumption.
Qed.
Lemma advances_ok : forall l h, call_ok h -> call_ok (advances h l).
Proof. induction l as [|i l IH]; intros h H; [exact H|]. cbn [advances fold_left]. apply IH, advance_ok, H. Qed.
(** Where the value comes from. *)
Definition value_of (v : nat -> Z) (x : Z) : Prop := x = 0 \/ exists i, x = Z.max 0 (Z.min 100 (v i)).
Definition call_from (v : nat -> Z) (h : shared) : Prop :=
  value_of v (duty_ h) /\ forall i, match calls h i with Calling x => x = v i | Compared x | Decided x _ => x = Z.max 0 (Z.min 100 (v i)) | _ => True end.
Lemma advance_from : forall v h i, call_from v h -> call_from v (advance h i).
Proof.
  intros v h i (D & C). assert (U : forall k d n, value_of v d -> match k with Calling x => x = v i | Compared x | Decided x _ => x = Z.max 0 (Z.min 100 (v i)) | _ => True end -> call_from v {| duty_ := d; calls := fun j => if Nat.eqb j i then k else calls h j; notified := n |}).
  { intros k d n Hd Hk. split; [exact Hd|]. intros j. cbn [calls]. destruct (Nat.eqb_spec j i) as [->|]; [exact Hk|apply C]. }
  unfold advance. cbv zeta. specialize (C i) as Ci. destruct (calls h i) as [x|x|x n|n|].
  - destruct (x =? duty_ h); apply U; try exact D; [exact I|]. subst x. unfold duty_min, duty_max. destruct (Z.ltb_spec (v i) 0); [lia|]. destruct (Z.ltb_spec 100 (v i)); lia.
  - apply U; assumption.
  - apply U; [right; exists i; exact Ci|exact I].
  - apply U; [exact D|exact I].
  - split; assumption.
Qed.
Lemma advances_from : forall v l h, call_from v h -> call_from v (advances h l).
Proof. induction l as [|i l IH]; intros h H; [exact H|]. cbn [advances fold_left]. apply IH, advance_from, H. Qed.

(** ** Going on *)
Lemma next_head : forall dl e c m s0 n d s, brisk dl e -> goes_on e -> sane m -> percent c -> 0 <= at_ s0 -> after n e c m s0 = Head false d s -> at_ s + dl + 2000000000 < 2 ^ 63 ->
  exists q' d' s', after (S n) e c m s0 = Head q' d' s' /\ at_ s < at_ s' <= at_ s + longest m dl /\ exists r1, q' = quit_at c r1.
Proof.
  intros dl e c m s0 n d s B G Sa PC P0 E F. destruct (head_comes dl e c m s0 B Sa PC n _ _ _ E) as (D & M & _). cbn [after]. rewrite E.
  assert (H : exists q' d' s', turn e c m (Head false d s) = Head q' d' s').
  { destruct (Z.eq_dec d 0) as [Z0|N0]; [|destruct (Z.eq_dec d 100) as [Z1|N1]].
    1,2: destruct (turn_const dl e c m d s B ltac:(auto)) as (q' & d' & s'' & E' & _); rewrite E'; eauto.
    destruct (turn_alt dl e c m d s _ B Sa ltac:(lia) eq_refl (turn_defined dl e c m d s B Sa ltac:(lia) ltac:(lia) ltac:(lia))) as (q' & d' & s'' & w & u1 & u2 & E' & _). eauto. }
  destruct H as (q' & d' & s' & E'). exists q', d', s'. split; [exact E'|]. assert (TT := turn_time e c m false d s q' d' s' G E'). destruct (turn_head dl e c m d s q' d' s' B Sa D E') as (T' & r1 & r2 & R1 & _ & Q1 & _). split; [lia|]. exists r1. exact Q1.
Qed.
Lemma heads_dense : forall dl e c m s0 T, brisk dl e -> goes_on e -> sane m -> percent c -> 0 <= at_ s0 -> (forall t, quit_at c t = false) -> T + dl + 2000000000 < 2 ^ 63 -> at_ s0 + 2 * dl <= T ->
  exists n d s, after n e c m s0 = Head false d s /\ T <= at_ s <= T + longest m dl.
Proof.
  intros dl e c m s0 T B G Sa PC P0 NQ F L. assert (D0 : 0 <= dl) by (pose proof (B 0%nat); pose proof (N2Z.is_nonneg (lag e 0)); lia). assert (L0 : 0 <= longest m dl) by (unfold longest; lia).
  assert (K : forall k n d s, after n e c m s0 = Head false d s -> T - at_ s <= Z.of_nat k -> at_ s <= T + longest m dl -> exists n d s, after n e c m s0 = Head false d s /\ T <= at_ s <= T + longest m dl).
  { induction k as [|k IH]; intros n d s E H U; [exists n, d, s; split; [exact E|lia]|]. destruct (Z.le_gt_cases T (at_ s)) as [C|C]; [exists n, d, s; split; [exact E|lia]|].
    destruct (next_head dl e c m s0 n d s B G Sa PC P0 E ltac:(lia)) as (q' & d' & s' & E' & T' & r1 & ->). rewrite NQ in E'. apply (IH _ _ _ E'); lia. }
  destruct (begun_spec dl e c s0 B) as (q & d & s & E & P & _ & r1 & r2 & _ & _ & Q1 & _). rewrite NQ in Q1. subst q. apply (K (Z.to_nat (T - at_ s)) 0%nat d s E); lia.
Qed.
Lemma wake_note : forall c u i v, In v (notes c) -> u <= v -> wake c u i <= v.
Proof.
  intros c u i v I U. unfold wake. cbv zeta.
  assert (M : forall l m, fold_left (fun m t => if u <=? t then Z.min m t else m) l m <= m) by (induction l as [|t l IH]; intros m; cbn [fold_left]; [lia|]; specialize (IH (if u <=? t then Z.min m t else m)); destruct (u <=? t); lia).
  assert (K : forall l m, In v l -> fold_left (fun m t => if u <=? t then Z.min m t else m) l m <= v).
  { induction l as [|t l IH]; intros m H; [destruct H|]. cbn [fold_left]. destruct H as [->|H]; [|apply IH, H]. specialize (M l (if u <=? v then Z.min m v else m)). destruct (Z.leb_spec u v); lia. }
  specialize (K (notes c) (u + const_level_period) I). destruct (spurious c i); lia.
Qed.
Lemma wake_first : forall c u i v, (forall x, In x (notes c) -> u <= x -> v <= x) -> v <= u + const_level_period -> (forall j, spurious c j = None) -> v <= wake c u i.
Proof.
  intros c u i v F L SP. unfold wake. cbv zeta. rewrite SP.
  assert (K : forall l m, (forall x, In x l -> u <= x -> v <= x) -> v <= m -> v <= fold_left (fun m t => if u <=? t then Z.min m t else m) l m).
  { induction l as [|t l IH]; intros m H Hm; cbn [fold_left]; [exact Hm|]. apply IH; [intros x Hx; apply H; right; exact Hx|]. destruct (Z.leb_spec u t); [|exact Hm]. specialize (H t (or_introl eq_refl)). lia. }
  apply K; [exact F|exact L].
Qed.
Lemma turn_notified : forall dl e c m duty s v t1 x, brisk dl e -> duty = 0 \/ duty = 100 -> (forall j, spurious c j = None) -> In v (notes c) -> (forall y, In y (notes c) -> at_ s <= y -> v <= y) ->
  at_ s + 2 * dl <= v <= at_ s + 200000000 -> t1 <= v -> (forall t, t1 <= t -> duty_at c t = x) -> exists q s', turn e c m (Head false duty s) = Head q x s' /\ v <= at_ s' <= v + 3 * dl.
Proof.
  intros dl e c m duty s v t1 x B D SP I F V L X. assert (D0 : 0 <= dl) by (pose proof (B 0%nat); pose proof (N2Z.is_nonneg (lag e 0)); lia). cbn [turn].
  assert (DC : ((duty =? duty_min) || (duty =? duty_max))%bool = true) by (destruct D as [-> | ->]; reflexivity). rewrite DC. cbv zeta.
  assert (LV : exists l, (if negb (duty =? duty_min) then high else low) = l /\ (l = low \/ l = high)) by (eexists; split; [reflexivity|]; destruct D as [-> | ->]; cbn; auto). destruct LV as (l & -> & Hl).
  destruct (put_level e l s) as [r s1] eqn:E1. destruct (put_spec dl e l s r s1 B Hl E1) as (P1 & W1).
  assert (P2 := pass_bounds dl e s1 B). set (s2 := pass e 0 s1) in *. destruct (until_spec dl e (wake c (at_ s2) (ops s2)) s2 B) as (P3 & W3). set (s3 := pass_until e _ s2) in *.
  destruct (load e c s3) as [[q d] s4] eqn:E4. destruct (load_spec dl e c s3 q d s4 B E4) as (P4 & W4 & r1 & r2 & R1 & R2 & Q1 & Q2).
  assert (U1 := wake_note c (at_ s2) (ops s2) v I ltac:(lia)). assert (U2 := wake_first c (at_ s2) (ops s2) v ltac:(intros y Hy Hu; apply F; [exact Hy|lia]) ltac:(unfold const_level_period; lia) SP).
  rewrite (X r2) in Q2 by lia. subst d. exists q, s4. split; [reflexivity|]. lia.
Qed.
