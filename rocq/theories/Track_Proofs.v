(** Proofs for C113 and C114. *)

From Coq Require Import Reals ZArith List Bool Lia Lra.
From Verif Require Import Track_Model Track_Spec.
Import ListNotations.
Open Scope R_scope.

(** ** Derivatives *)
Lemma dp_eq : forall f t a b, derivable_pt_lim f t a -> a = b -> derivable_pt_lim f t b.
Proof. intros f t a b H <-. exact H. Qed.
Lemma dp_ext : forall f g t a, (forall u, g u = f u) -> derivable_pt_lim f t a -> derivable_pt_lim g t a.
Proof. intros f g t a E H e He. destruct (H e He) as (d & Hd). exists d. intros k Hk Hk'. rewrite !E. apply Hd; assumption. Qed.
Lemma dp_plus : forall f g t a b, derivable_pt_lim f t a -> derivable_pt_lim g t b -> derivable_pt_lim (fun u => f u + g u) t (a + b).
Proof. intros. apply (derivable_pt_lim_plus f g); assumption. Qed.
Lemma dp_minus : forall f g t a b, derivable_pt_lim f t a -> derivable_pt_lim g t b -> derivable_pt_lim (fun u => f u - g u) t (a - b).
Proof. intros. apply (derivable_pt_lim_minus f g); assumption. Qed.
Lemma dp_mult : forall f g t a b, derivable_pt_lim f t a -> derivable_pt_lim g t b -> derivable_pt_lim (fun u => f u * g u) t (a * g t + f t * b).
Proof. intros. apply (derivable_pt_lim_mult f g); assumption. Qed.
Lemma dp_const : forall c t, derivable_pt_lim (fun _ => c) t 0.
Proof. intros. apply (derivable_pt_lim_const c). Qed.
Lemma dp_id : forall t, derivable_pt_lim (fun u => u) t 1.
Proof. intros. apply derivable_pt_lim_id. Qed.
Lemma dp_sin : forall f t a, derivable_pt_lim f t a -> derivable_pt_lim (fun u => sin (f u)) t (cos (f t) * a).
Proof. intros. apply (derivable_pt_lim_comp f sin); [assumption|apply derivable_pt_lim_sin]. Qed.
Lemma dp_cos : forall f t a, derivable_pt_lim f t a -> derivable_pt_lim (fun u => cos (f u)) t (- sin (f t) * a).
Proof. intros. apply (derivable_pt_lim_comp f cos); [assumption|apply derivable_pt_lim_cos]. Qed.

Lemma flat_const : forall f, (forall t, derivable_pt_lim f t 0) -> forall s t, f t = f s.
Proof.
  intros f H s t. assert (derivable f) as pr by (intro u; exists 0; apply H).
  pose proof (null_derivative_1 f pr) as N. apply N. intro u. apply derive_pt_eq_0. apply H.
Qed.
Lemma same_rise : forall f F d s t, (forall t, derivable_pt_lim f t (d t)) -> (forall t, derivable_pt_lim F t (d t)) ->
  f t = f s + (F t - F s).
Proof.
  intros f F d s t Hf HF.
  assert (f t - F t = f s - F s) as E; [|lra].
  apply (flat_const (fun u => f u - F u)). intro u. eapply dp_eq; [apply dp_minus; [apply Hf|apply HF]|ring].
Qed.

(** The integral of a linear function. *)
Lemma linear_rise : forall f c k, (forall t, derivable_pt_lim f t (c + k * t)) ->
  forall s t, f t = f s + (c + k * s) * (t - s) + k * (t - s) * (t - s) / 2.
Proof.
  intros f c k H s t. rewrite (same_rise f (fun u => c * u + (k / 2) * (u * u)) _ s t H); [field|].
  intro u. eapply dp_eq.
  - apply dp_plus; apply dp_mult; try apply dp_const; try apply dp_id. apply dp_mult; apply dp_id.
  - cbn beta. field.
Qed.
Lemma square_rise : forall f c k q e, (forall t, derivable_pt_lim f t ((c + k * t + q * (t * t)) * e)) ->
  forall s t, f t = f s + ((c + k * s + q * (s * s)) * (t - s) + (k + 2 * q * s) * (t - s) * (t - s) / 2 + 2 * q * (t - s) * (t - s) * (t - s) / 6) * e.
Proof.
  intros f c k q e H s t. rewrite (same_rise f (fun u => (c * u + (k / 2) * (u * u) + (q / 3) * (u * (u * u))) * e) _ s t H); [field|].
  intro u. eapply dp_eq.
  - apply dp_mult; [|apply dp_const]. repeat apply dp_plus; repeat (apply dp_mult || apply dp_const || apply dp_id).
  - cbn beta. field.
Qed.
Lemma sin_rise : forall f v w h, w <> 0 -> (forall t, derivable_pt_lim f t (v * cos (h + w * t))) ->
  forall s t, f t = f s + v / w * (sin (h + w * t) - sin (h + w * s)).
Proof.
  intros f v w h Hw H s t. rewrite (same_rise f (fun u => v / w * sin (h + w * u)) _ s t H); [ring|].
  intro u. eapply dp_eq.
  - apply dp_mult; [apply dp_const|]. apply dp_sin. apply dp_plus; [apply dp_const|]. apply dp_mult; [apply dp_const|apply dp_id].
  - cbn beta. field. exact Hw.
Qed.
Lemma cos_rise : forall f v w h, w <> 0 -> (forall t, derivable_pt_lim f t (v * sin (h + w * t))) ->
  forall s t, f t = f s - v / w * (cos (h + w * t) - cos (h + w * s)).
Proof.
  intros f v w h Hw H s t. rewrite (same_rise f (fun u => - (v / w) * cos (h + w * u)) _ s t H); [ring|].
  intro u. eapply dp_eq.
  - apply dp_mult; [apply dp_const|]. apply dp_cos. apply dp_plus; [apply dp_const|]. apply dp_mult; [apply dp_const|apply dp_id].
  - cbn beta. field. exact Hw.
Qed.

(** ** Rounds *)
Lemma rad_deg : forall d, deg_to_rad d = radians d.
Proof. intro d. unfold deg_to_rad, radians, const_pi. field. Qed.

Lemma round_first : forall p r0 r l, r_time r0 = 0%Z ->
  run (mkT p r0 None) (rounds (r :: l)) = run (mkT p r None) (rounds l).
Proof. intros p r0 r l E. cbn. unfold sense. cbn. rewrite E. cbn. reflexivity. Qed.

Lemma round_next : forall p r0 r l, r_time r0 <> 0%Z -> microsec (r_time r0) (r_time r) <> 0%Z ->
  run (mkT p r0 None) (rounds (r :: l)) = run (mkT (apply_news (moved p r0 (microsec (r_time r0) (r_time r)) r) p) r None) (rounds l).
Proof.
  intros p r0 r l E N. cbn. unfold sense. cbn. apply Z.eqb_neq in E. apply Z.eqb_neq in N. rewrite E, N. cbn. reflexivity.
Qed.

Lemma gap : forall t0 t, (t0 + 1000000 <= t)%Z -> (1000 <= microsec t0 t)%Z /\ (1000 * microsec t0 t <= t - t0 < 1000 * microsec t0 t + 1000)%Z.
Proof.
  intros t0 t H. unfold microsec. rewrite Z.quot_div_nonneg by lia.
  pose proof (Z.div_mod (t - t0) 1000 ltac:(lia)). pose proof (Z.mod_pos_bound (t - t0) 1000 ltac:(lia)). lia.
Qed.

Lemma gap_whole : forall t0 t, (t0 + 1000000 <= t)%Z -> ((t - t0) mod 1000 = 0)%Z -> IZR (microsec t0 t) / 1000000 = seconds t0 t.
Proof.
  intros t0 t H W. unfold microsec, seconds. rewrite Z.quot_div_nonneg by lia.
  pose proof (Z.div_mod (t - t0) 1000 ltac:(lia)) as E. rewrite W, Z.add_0_r in E. rewrite E at 2. rewrite mult_IZR. field.
Qed.

Lemma seconds_add : forall t0 t1 t2, seconds t0 t2 = seconds t0 t1 + seconds t1 t2.
Proof. intros. unfold seconds. replace (t2 - t0)%Z with ((t1 - t0) + (t2 - t1))%Z by ring. rewrite plus_IZR. field. Qed.
Lemma seconds_same : forall t, seconds t t = 0.
Proof. intros. unfold seconds. rewrite Z.sub_diag. field. Qed.
Lemma seconds_gap : forall t0 t, (t0 + 1000000 <= t)%Z -> 1 / 1000 <= seconds t0 t.
Proof. intros t0 t H. unfold seconds. assert (IZR 1000000 <= IZR (t - t0)) by (apply IZR_le; lia). lra. Qed.

(** The numbers of a round. *)
Definition dist (p : place) (a0 a1 sec : R) : R := speed p * sec + (2 * a0 + a1) * sec * sec / 6.
Definition turned (g0 g1 sec : R) : R := (g0 + g1) * sec / 2.

Lemma moved_speed : forall p r0 us r, us <> 0%Z -> n_speed (moved p r0 us r) = speed p + (r_accel r0 + r_accel r) * (IZR us / 1000000) / 2.
Proof.
  intros p r0 us r H. assert (IZR us <> 0) by (apply IZR_neq; exact H). unfold moved. destruct Rlt_dec; cbn [n_speed]; field; assumption.
Qed.
Lemma moved_turn : forall p r0 us r, us <> 0%Z ->
  n_direction (moved p r0 us r) = if Rlt_dec (Rabs (turned (r_gyro r0) (r_gyro r) (IZR us / 1000000))) (1 / 1000000) then None else Some (direction p + turned (r_gyro r0) (r_gyro r) (IZR us / 1000000)).
Proof.
  intros p r0 us r H. assert (IZR us <> 0) by (apply IZR_neq; exact H). unfold moved.
  replace (r_gyro r0 * (IZR us / 1000000) + (r_gyro r - r_gyro r0) / (IZR us / 1000000) * (IZR us / 1000000) * (IZR us / 1000000) / 2) with (turned (r_gyro r0) (r_gyro r) (IZR us / 1000000)) by (unfold turned; field; assumption).
  destruct Rlt_dec; reflexivity.
Qed.
Lemma moved_straight : forall p r0 us r, us <> 0%Z -> Rabs (turned (r_gyro r0) (r_gyro r) (IZR us / 1000000)) < 1 / 1000000 ->
  apply_news (moved p r0 us r) p = mkP (depth p + dist p (r_accel r0) (r_accel r) (IZR us / 1000000) * cos (radians (direction p)))
                                       (width p + dist p (r_accel r0) (r_accel r) (IZR us / 1000000) * sin (radians (direction p)))
                                       (direction p) (speed p + (r_accel r0 + r_accel r) * (IZR us / 1000000) / 2).
Proof.
  intros p r0 us r H G. assert (IZR us <> 0) as N by (apply IZR_neq; exact H). rewrite <- (moved_speed p r0 us r H). unfold moved.
  replace (r_gyro r0 * (IZR us / 1000000) + (r_gyro r - r_gyro r0) / (IZR us / 1000000) * (IZR us / 1000000) * (IZR us / 1000000) / 2) with (turned (r_gyro r0) (r_gyro r) (IZR us / 1000000)) by (unfold turned; field; assumption).
  replace (speed p * (IZR us / 1000000) + r_accel r0 * (IZR us / 1000000) * (IZR us / 1000000) / 2 + (r_accel r - r_accel r0) / (IZR us / 1000000) * (IZR us / 1000000) * (IZR us / 1000000) * (IZR us / 1000000) / 6) with (dist p (r_accel r0) (r_accel r) (IZR us / 1000000)) by (unfold dist; field; assumption).
  rewrite rad_deg. destruct Rlt_dec; [reflexivity|contradiction].
Qed.
Lemma moved_arc : forall p r0 us r, us <> 0%Z -> ~ Rabs (turned (r_gyro r0) (r_gyro r) (IZR us / 1000000)) < 1 / 1000000 ->
  apply_news (moved p r0 us r) p =
    let q := radians (turned (r_gyro r0) (r_gyro r) (IZR us / 1000000)) in
    let u := dist p (r_accel r0) (r_accel r) (IZR us / 1000000) / q in
    let h := radians (direction p) in
    mkP (depth p + u * (sin (h + q) - sin h)) (width p - u * (cos (h + q) - cos h))
        (direction p + turned (r_gyro r0) (r_gyro r) (IZR us / 1000000)) (speed p + (r_accel r0 + r_accel r) * (IZR us / 1000000) / 2).
Proof.
  intros p r0 us r H G. assert (IZR us <> 0) as N by (apply IZR_neq; exact H). rewrite <- (moved_speed p r0 us r H). unfold moved.
  replace (r_gyro r0 * (IZR us / 1000000) + (r_gyro r - r_gyro r0) / (IZR us / 1000000) * (IZR us / 1000000) * (IZR us / 1000000) / 2) with (turned (r_gyro r0) (r_gyro r) (IZR us / 1000000)) by (unfold turned; field; assumption).
  replace (speed p * (IZR us / 1000000) + r_accel r0 * (IZR us / 1000000) * (IZR us / 1000000) / 2 + (r_accel r - r_accel r0) / (IZR us / 1000000) * (IZR us / 1000000) * (IZR us / 1000000) * (IZR us / 1000000) / 6) with (dist p (r_accel r0) (r_accel r) (IZR us / 1000000)) by (unfold dist; field; assumption).
  rewrite !rad_deg. destruct Rlt_dec; [contradiction|]. cbn beta zeta. unfold apply_news. cbn [n_depth n_width n_direction n_speed].
  rewrite sin_plus, cos_plus. f_equal; ring.
Qed.

(** ** No division by zero *)
Lemma finite : forall l r0 p, (0 < r_time r0)%Z -> sleeps (r_time r0) (map r_time l) ->
  exists s, run (mkT p r0 None) (rounds l) = Fine s /\ pending s = None.
Proof.
  induction l as [|r l IH]; intros r0 p P S.
  - eexists. split; reflexivity.
  - cbn [map sleeps] in S. destruct S as (G & S). pose proof (gap _ _ G). rewrite round_next by lia. apply IH; [lia|exact S].
Qed.

(** ** Whole motions: what each round does right stays right *)
Lemma rounds_follow : forall (F : R -> place) a g t0,
  (forall t1 t2, (0 < t1)%Z -> (t1 + 1000000 <= t2)%Z -> ((t2 - t1) mod 1000 = 0)%Z ->
     apply_news (moved (F (seconds t0 t1)) (reading_at a g t0 t1) (microsec t1 t2) (reading_at a g t0 t2)) (F (seconds t0 t1)) = F (seconds t0 t2)) ->
  forall ts t1, (0 < t1)%Z -> sleeps t1 ts -> whole t1 ts ->
  run (mkT (F (seconds t0 t1)) (reading_at a g t0 t1) None) (rounds (map (reading_at a g t0) ts)) =
    Fine (mkT (F (seconds t0 (last_time t1 ts))) (reading_at a g t0 (last_time t1 ts)) None).
Proof.
  intros F a g t0 H. induction ts as [|t ts IH]; intros t1 P S W; [reflexivity|].
  cbn [sleeps whole last_time map] in *. destruct S as (G & S). destruct W as (W1 & W). pose proof (gap _ _ G).
  rewrite round_next by (cbn [reading_at r_time]; lia). cbn [reading_at r_time]. fold (reading_at a g t0 t1) (reading_at a g t0 t).
  rewrite (H t1 t P G W1). apply IH; [lia|assumption|assumption].
Qed.

(** The steps, for linear acceleration and gyro. *)
Lemma heading_step : forall h v a0 j g0 k t0 t1 t2,
  (forall t, derivable_pt_lim h t (g0 + k * t)) -> (forall t, derivable_pt_lim v t (a0 + j * t)) ->
  let s1 := seconds t0 t1 in let s2 := seconds t0 t2 in
  h s2 = h s1 + turned (g0 + k * s1) (g0 + k * s2) (seconds t1 t2) /\
  v s2 = v s1 + ((a0 + j * s1) + (a0 + j * s2)) * seconds t1 t2 / 2.
Proof.
  intros h v a0 j g0 k t0 t1 t2 Hh Hv s1 s2. assert (seconds t1 t2 = s2 - s1) as -> by (unfold s1, s2; rewrite (seconds_add t0 t1 t2); ring).
  rewrite (linear_rise h g0 k Hh s1 s2), (linear_rise v a0 j Hv s1 s2). unfold turned. split; field.
Qed.

Lemma straight_step : forall x y h v a0 j t0,
  motion x y h v (fun t => a0 + j * t) (fun _ => 0) ->
  forall t1 t2, (0 < t1)%Z -> (t1 + 1000000 <= t2)%Z -> ((t2 - t1) mod 1000 = 0)%Z ->
  let F := fun t => mkP (x t) (y t) (h t) (v t) in let a := fun t => a0 + j * t in let g := fun _ : R => 0 in
  apply_news (moved (F (seconds t0 t1)) (reading_at a g t0 t1) (microsec t1 t2) (reading_at a g t0 t2)) (F (seconds t0 t1)) = F (seconds t0 t2).
Proof.
  intros x y h v a0 j t0 M t1 t2 P G W F a g. pose proof (gap _ _ G) as (Ng & _).
  assert (forall s t, h t = h s) as Hh by (apply flat_const; intro t; apply (M t)).
  assert (forall t, derivable_pt_lim v t (a0 + j * t)) as Dv by (intro t; apply (M t)).
  pose proof (linear_rise v a0 j Dv) as Hv.
  assert (forall t, v t = v 0 + a0 * t + j / 2 * (t * t)) as Vt by (intro t; rewrite (Hv 0 t); field).
  assert (forall s t, x t = x s + (v s * (t - s) + (a0 + j * s) * (t - s) * (t - s) / 2 + j * (t - s) * (t - s) * (t - s) / 6) * cos (radians (h 0))) as Hx.
  { intros s t. rewrite (square_rise x (v 0) a0 (j / 2) (cos (radians (h 0)))) with (s := s); [rewrite (Vt s); field|].
    intro u. eapply dp_eq; [apply (M u)|]. rewrite (Vt u), (Hh 0 u). reflexivity. }
  assert (forall s t, y t = y s + (v s * (t - s) + (a0 + j * s) * (t - s) * (t - s) / 2 + j * (t - s) * (t - s) * (t - s) / 6) * sin (radians (h 0))) as Hy.
  { intros s t. rewrite (square_rise y (v 0) a0 (j / 2) (sin (radians (h 0)))) with (s := s); [rewrite (Vt s); field|].
    intro u. eapply dp_eq; [apply (M u)|]. rewrite (Vt u), (Hh 0 u). reflexivity. }
  rewrite moved_straight; cbn [reading_at r_gyro r_accel F a g depth width direction speed]; rewrite ?(gap_whole _ _ G W); [|lia|].
  - set (s1 := seconds t0 t1). set (s2 := seconds t0 t2). assert (seconds t1 t2 = s2 - s1) as -> by (unfold s1, s2; rewrite (seconds_add t0 t1 t2); ring).
    unfold F, dist. cbn [speed]. rewrite (Hx s1 s2), (Hy s1 s2), (Hh s1 s2), (Hv s1 s2), (Hh 0 s1). unfold a. f_equal; field.
  - unfold turned. rewrite Rplus_0_l, Rmult_0_l. unfold Rdiv at 1. rewrite Rmult_0_l, Rabs_R0. lra.
Qed.

Lemma gyro_big : forall m, m <> 0%Z -> 2000 / 32767 <= Rabs (gyro_of m).
Proof.
  intros m H. unfold gyro_of, value_of. unfold Rdiv. rewrite !Rabs_mult. rewrite (Rabs_right 2000) by lra. rewrite (Rabs_right (/ 32767)) by lra.
  rewrite <- abs_IZR. assert (IZR 1 <= IZR (Z.abs m)) by (apply IZR_le; lia). lra.
Qed.
(** Readings of the sensor turn by nothing at all or by enough. *)
Lemma turn_big : forall m0 m1 sec, 1 / 1000 <= sec ->
  turned (gyro_of m0) (gyro_of m1) sec = 0 \/ ~ Rabs (turned (gyro_of m0) (gyro_of m1) sec) < 1 / 1000000.
Proof.
  intros m0 m1 sec H. assert (turned (gyro_of m0) (gyro_of m1) sec = gyro_of (m0 + m1) * sec / 2) as -> by (unfold turned, gyro_of, value_of; rewrite plus_IZR; field).
  destruct (Z.eq_dec (m0 + m1) 0) as [E|N].
  - left. rewrite E. unfold gyro_of, value_of. field.
  - right. pose proof (gyro_big _ N) as B. unfold Rdiv at 1. rewrite !Rabs_mult, (Rabs_right sec), (Rabs_right (/ 2)) by lra.
    apply Rle_not_lt. apply Rle_trans with (2000 / 32767 * (1 / 1000) * / 2); [lra|]. apply Rmult_le_compat_r; [lra|]. apply Rmult_le_compat; lra.
Qed.

Lemma circle_step : forall x y h v m t0, m <> 0%Z ->
  motion x y h v (fun _ => 0) (fun _ => gyro_of m) ->
  forall t1 t2, (0 < t1)%Z -> (t1 + 1000000 <= t2)%Z -> ((t2 - t1) mod 1000 = 0)%Z ->
  let F := fun t => mkP (x t) (y t) (h t) (v t) in let a := fun _ : R => 0 in let g := fun _ : R => gyro_of m in
  apply_news (moved (F (seconds t0 t1)) (reading_at a g t0 t1) (microsec t1 t2) (reading_at a g t0 t2)) (F (seconds t0 t1)) = F (seconds t0 t2).
Proof.
  intros x y h v m t0 Hm M t1 t2 P G W F a g. pose proof (gap _ _ G) as (Ng & _). pose proof (seconds_gap _ _ G) as Gs.
  assert (gyro_of m <> 0) as Hw.
  { intro E. pose proof (gyro_big _ Hm) as B. rewrite E, Rabs_R0 in B. lra. }
  assert (forall s t, v t = v s) as Hv by (apply flat_const; intro t; apply (M t)).
  assert (forall s t, h t = h s + gyro_of m * (t - s)) as Hh.
  { intros s t. rewrite (linear_rise h (gyro_of m) 0) with (s := s); [field|]. intro u. eapply dp_eq; [apply (M u)|ring]. }
  assert (forall t, radians (h t) = radians (h 0) + radians (gyro_of m) * t) as Hr by (intro t; rewrite (Hh 0 t); unfold radians; field).
  assert (radians (gyro_of m) <> 0) as Hq by (unfold radians; intro E; apply Hw; lra).
  assert (forall s t, x t = x s + v 0 / radians (gyro_of m) * (sin (radians (h t)) - sin (radians (h s)))) as Hx.
  { intros s t. rewrite (Hr t), (Hr s). apply sin_rise; [exact Hq|]. intro u. eapply dp_eq; [apply (M u)|]. rewrite (Hv 0 u), (Hr u). reflexivity. }
  assert (forall s t, y t = y s - v 0 / radians (gyro_of m) * (cos (radians (h t)) - cos (radians (h s)))) as Hy.
  { intros s t. rewrite (Hr t), (Hr s). apply cos_rise; [exact Hq|]. intro u. eapply dp_eq; [apply (M u)|]. rewrite (Hv 0 u), (Hr u). reflexivity. }
  assert (turned (gyro_of m) (gyro_of m) (seconds t1 t2) = gyro_of m * seconds t1 t2) as Et by (unfold turned; field).
  rewrite moved_arc; cbn [reading_at r_gyro r_accel F a g depth width direction speed]; rewrite ?(gap_whole _ _ G W), ?Et; [|lia|].
  - set (s1 := seconds t0 t1). set (s2 := seconds t0 t2). assert (seconds t1 t2 = s2 - s1) as Es by (unfold s1, s2; rewrite (seconds_add t0 t1 t2); ring). rewrite Es in *.
    cbn beta zeta. unfold g. rewrite Et. replace (radians (h s1) + radians (gyro_of m * (s2 - s1))) with (radians (h s2)) by (rewrite (Hh s1 s2); unfold radians; field).
    assert (dist (mkP (x s1) (y s1) (h s1) (v s1)) 0 0 (s2 - s1) / radians (gyro_of m * (s2 - s1)) = v 0 / radians (gyro_of m)) as Ed.
    { unfold dist. cbn [speed]. rewrite (Hv 0 s1). unfold radians. field. repeat split; lra. }
    unfold F, a. cbn beta. rewrite Ed. rewrite (Hx s1 s2), (Hy s1 s2), (Hh s1 s2), (Hv s1 s2). f_equal; field.
  - destruct (turn_big m m (seconds t1 t2) Gs) as [E|N]; [|exact N]. rewrite Et in E.
    apply Rmult_integral in E. destruct E; [contradiction|lra].
Qed.

(** ** Heading and speed *)
Lemma direction_moved : forall p r0 us r q, us <> 0%Z -> q = turned (r_gyro r0) (r_gyro r) (IZR us / 1000000) -> q = 0 \/ ~ Rabs q < 1 / 1000000 ->
  direction (apply_news (moved p r0 us r) p) = direction p + q.
Proof.
  intros p r0 us r q N -> B. unfold apply_news. cbn [direction]. rewrite moved_turn by exact N.
  destruct Rlt_dec as [L|L]; [|reflexivity]. destruct B as [B|B]; [rewrite B; ring|contradiction].
Qed.
Lemma speed_moved : forall p r0 us r, us <> 0%Z -> speed (apply_news (moved p r0 us r) p) = speed p + (r_accel r0 + r_accel r) * (IZR us / 1000000) / 2.
Proof. intros p r0 us r N. unfold apply_news. cbn [speed]. apply moved_speed. exact N. Qed.

Lemma heading_run : forall h v a0 j g0 k t0,
  (forall t, derivable_pt_lim h t (g0 + k * t)) -> (forall t, derivable_pt_lim v t (a0 + j * t)) ->
  let read := reading_at (fun t => a0 + j * t) (fun t => g0 + k * t) t0 in
  forall ts t1 p, (0 < t1)%Z -> sleeps t1 ts -> whole t1 ts ->
  (forall t, In t (t1 :: ts) -> exists m, g0 + k * seconds t0 t = gyro_of m) ->
  direction p = h (seconds t0 t1) -> speed p = v (seconds t0 t1) ->
  exists s, run (mkT p (read t1) None) (rounds (map read ts)) = Fine s /\
    direction (at_ s) = h (seconds t0 (last_time t1 ts)) /\ speed (at_ s) = v (seconds t0 (last_time t1 ts)).
Proof.
  intros h v a0 j g0 k t0 Hh Hv read. induction ts as [|t ts IH]; intros t1 p P S W I Ed Es.
  - eexists. split; [reflexivity|]. split; assumption.
  - cbn [sleeps whole last_time map] in *. destruct S as (G & S). destruct W as (W1 & W). pose proof (gap _ _ G) as (Ng & _).
    rewrite round_next by (cbn [read reading_at r_time]; lia).
    destruct (heading_step h v a0 j g0 k t0 t1 t Hh Hv) as (Eh & Ev).
    destruct (I t1 (or_introl eq_refl)) as (m1 & E1). destruct (I t (or_intror (or_introl eq_refl))) as (m2 & E2).
    pose proof (turn_big m1 m2 _ (seconds_gap _ _ G)) as B. rewrite <- E1, <- E2 in B.
    apply IH; [lia|assumption|assumption| | |].
    + intros z Hz. apply I. right. exact Hz.
    + rewrite Eh, <- Ed. apply direction_moved; [cbn [read reading_at r_time]; lia| |exact B].
      cbn [read reading_at r_time r_gyro]. rewrite (gap_whole _ _ G W1). reflexivity.
    + rewrite Ev, <- Es, speed_moved by (cbn [read reading_at r_time]; lia). cbn [read reading_at r_time r_accel]. rewrite (gap_whole _ _ G W1). reflexivity.
Qed.

(** ** The part of a microsecond that each round drops *)
Lemma lag_run : forall m l r0 p, (0 < r_time r0)%Z -> sleeps (r_time r0) (map r_time l) -> r_gyro r0 = gyro_of m -> Forall (fun r => r_gyro r = gyro_of m) l ->
  exists s, run (mkT p r0 None) (rounds l) = Fine s /\
    Rabs (direction p + gyro_of m * seconds (r_time r0) (last_time (r_time r0) (map r_time l)) - direction (at_ s)) <= Rabs (gyro_of m) * INR (length l) / 1000000.
Proof.
  induction l as [|r l IH]; intros r0 p P S E0 El.
  - eexists. split; [reflexivity|]. cbn [map last_time at_ length INR]. rewrite seconds_same. replace (direction p + gyro_of m * 0 - direction p) with 0 by ring. rewrite Rabs_R0. lra.
  - cbn [map sleeps last_time] in *. destruct S as (G & S). apply Forall_cons_iff in El. destruct El as (Er & El). pose proof (gap _ _ G) as (Ng & Gb).
    rewrite round_next by lia.
    destruct (IH r (apply_news (moved p r0 (microsec (r_time r0) (r_time r)) r) p)) as (s & Es & Hs); [lia|assumption|assumption|assumption|].
    exists s. split; [exact Es|].
    set (us := microsec (r_time r0) (r_time r)) in *.
    assert (1 / 1000 <= IZR us / 1000000) as Gs by (assert (IZR 1000 <= IZR us) by (apply IZR_le; lia); lra).
    assert (direction (apply_news (moved p r0 us r) p) = direction p + gyro_of m * (IZR us / 1000000)) as Ed.
    { apply direction_moved; [lia|rewrite E0, Er; unfold turned; field|].
      destruct (turn_big m m _ Gs) as [B|B]; [left|right]; replace (gyro_of m * (IZR us / 1000000)) with (turned (gyro_of m) (gyro_of m) (IZR us / 1000000)) by (unfold turned; field); exact B. }
    rewrite Ed in Hs. rewrite (seconds_add (r_time r0) (r_time r)).
    set (T := seconds (r_time r) _) in *.
    assert (0 <= seconds (r_time r0) (r_time r) - IZR us / 1000000 <= 1 / 1000000) as B.
    { unfold seconds. assert (IZR (1000 * us) <= IZR (r_time r - r_time r0)) as B1 by (apply IZR_le; lia). assert (IZR (r_time r - r_time r0) <= IZR (1000 * us + 1000)) as B2 by (apply IZR_le; lia).
      rewrite plus_IZR in B2. rewrite mult_IZR in B1, B2. lra. }
    set (e := seconds (r_time r0) (r_time r) - IZR us / 1000000) in *.
    replace (direction p + gyro_of m * (seconds (r_time r0) (r_time r) + T) - direction (at_ s)) with ((direction p + gyro_of m * (IZR us / 1000000) + gyro_of m * T - direction (at_ s)) + gyro_of m * e) by (unfold e; ring).
    eapply Rle_trans; [apply Rabs_triang|]. rewrite (Rabs_mult (gyro_of m) e), (Rabs_right e) by lra.
    cbn [length]. rewrite S_INR. assert (Rabs (gyro_of m) * e <= Rabs (gyro_of m) * (1 / 1000000)) by (apply Rmult_le_compat_l; [apply Rabs_pos|lra]). lra.
Qed.

(** ** Setters *)
Lemma moved_shift : forall p r0 us r c e,
  moved (mkP (depth p + c) (width p + e) (direction p) (speed p)) r0 us r =
    mkN (n_depth (moved p r0 us r) + c) (n_width (moved p r0 us r) + e) (n_direction (moved p r0 us r)) (n_speed (moved p r0 us r)).
Proof. intros. unfold moved. cbn [depth width direction speed]. destruct Rlt_dec; cbn [n_depth n_width n_direction n_speed]; f_equal; ring. Qed.

Lemma run_apart : forall f c l p q r0, get_field f p = get_field f q + c ->
  (match f with FDepth | FWidth => direction p = direction q /\ speed p = speed q | _ => True end) ->
  match run (mkT p r0 None) (rounds l), run (mkT q r0 None) (rounds l) with
  | Fine s, Fine s' => get_field f (at_ s) = get_field f (at_ s') + c
  | NotANumber, NotANumber => True
  | _, _ => False
  end.
Proof.
  intros f c. induction l as [|r l IH]; intros p q r0 E D; [exact E|].
  destruct (Z.eq_dec (r_time r0) 0) as [Z0|N]; [rewrite !round_first by exact Z0; apply IH; assumption|].
  destruct (Z.eq_dec (microsec (r_time r0) (r_time r)) 0) as [Z0|N'].
  - cbn. unfold sense. cbn. apply Z.eqb_neq in N. rewrite N, Z0. exact I.
  - rewrite !round_next by assumption. set (us := microsec _ _) in *.
    destruct f; cbn [get_field] in *.
    + destruct D as (Dd & Ds). destruct p as [x y d v], q as [x' y' d' v']. cbn [depth direction speed width] in *. subst d' v' x.
      pose proof (moved_shift (mkP x' y' d v) r0 us r c (y - y')) as M. cbn [depth direction speed width] in M. replace (y' + (y - y')) with y in M by ring.
      rewrite M. apply IH; cbn [apply_news depth direction speed n_depth n_direction n_speed]; auto.
    + destruct D as (Dd & Ds). destruct p as [x y d v], q as [x' y' d' v']. cbn [depth direction speed width] in *. subst d' v' y.
      pose proof (moved_shift (mkP x' y' d v) r0 us r (x - x') c) as M. cbn [depth direction speed width] in M. replace (x' + (x - x')) with x in M by ring.
      rewrite M. apply IH; cbn [apply_news width direction speed n_width n_direction n_speed]; auto.
    + apply IH; [|exact I]. unfold apply_news. cbn [get_field direction]. rewrite !moved_turn by assumption. destruct Rlt_dec; rewrite E; ring.
    + apply IH; [|exact I]. cbn [get_field]. rewrite !speed_moved by assumption. rewrite E. ring.
Qed.
