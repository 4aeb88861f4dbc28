(** C113, C114: what the motion tracker shows, and values given to it while it runs.  Real numbers stand for double. *)

From Coq Require Import Reals ZArith List Bool Lia Lra.
From Verif Require Import Track_Model Track_Spec Track_Proofs.
Import ListNotations.
Open Scope R_scope.

(** ** C113 *)
(** Whatever the readings are: the tracker does not divide by zero, since it sleeps a millisecond after each. *)
Theorem C113_finite : forall p t0 l, (0 < t0)%Z -> (exists a g ts, map r_time l = t0 :: ts /\ hd_error l = Some (mkRd t0 a g) /\ sleeps t0 ts) ->
  exists s, run (tracker_at p) (rounds l) = Fine s.
Proof.
  intros p t0 l P (a & g & ts & E & H & S). destruct l as [|r l]; [discriminate|]. cbn in E, H. injection H as ->. injection E as <-.
  unfold tracker_at. rewrite round_first by reflexivity. destruct (finite l (mkRd t0 a g) p P S) as (s & Es & _). exists s. exact Es.
Qed.

(** On a straight course, if the acceleration is a linear function of the time, the tracker shows exactly the place, the heading and the speed of the
    vehicle, at whatever times it takes its readings. *)
Theorem C113_straight_partial : forall x y h v a0 j t0 ts,
  motion x y h v (fun t => a0 + j * t) (fun _ => 0) ->
  (0 < t0)%Z -> sleeps t0 ts -> whole t0 ts ->
  exists s, run (tracker_at (mkP (x 0) (y 0) (h 0) (v 0))) (rounds (map (reading_at (fun t => a0 + j * t) (fun _ => 0) t0) (t0 :: ts))) = Fine s /\
    let T := seconds t0 (last_time t0 ts) in at_ s = mkP (x T) (y T) (h T) (v T).
Proof.
  intros x y h v a0 j t0 ts M P S W. pose proof (rounds_follow (fun t => mkP (x t) (y t) (h t) (v t)) _ _ t0 (straight_step x y h v a0 j t0 M) ts t0 P S W) as F.
  cbn beta in F. rewrite seconds_same in F. cbn [map]. unfold tracker_at. rewrite round_first by reflexivity. eexists. split; [exact F|reflexivity].
Qed.

(** At constant speed on a circle, for every rate of turn that the sensor can report. *)
Theorem C113_circle_partial : forall x y h v m t0 ts, m <> 0%Z ->
  motion x y h v (fun _ => 0) (fun _ => gyro_of m) ->
  (0 < t0)%Z -> sleeps t0 ts -> whole t0 ts ->
  exists s, run (tracker_at (mkP (x 0) (y 0) (h 0) (v 0))) (rounds (map (reading_at (fun _ => 0) (fun _ => gyro_of m) t0) (t0 :: ts))) = Fine s /\
    let T := seconds t0 (last_time t0 ts) in at_ s = mkP (x T) (y T) (h T) (v T).
Proof.
  intros x y h v m t0 ts Hm M P S W. pose proof (rounds_follow (fun t => mkP (x t) (y t) (h t) (v t)) _ _ t0 (circle_step x y h v m t0 Hm M) ts t0 P S W) as F.
  cbn beta in F. rewrite seconds_same in F. cbn [map]. unfold tracker_at. rewrite round_first by reflexivity. eexists. split; [exact F|reflexivity].
Qed.

(** The heading and the speed are exact whenever the acceleration and the rate of turn are linear functions of the time. *)
Theorem C113_heading : forall h v a0 j g0 k t0 ts d w,
  (forall t, derivable_pt_lim h t (g0 + k * t)) -> (forall t, derivable_pt_lim v t (a0 + j * t)) ->
  (0 < t0)%Z -> sleeps t0 ts -> whole t0 ts ->
  (forall t, In t (t0 :: ts) -> exists m, g0 + k * seconds t0 t = gyro_of m) ->
  exists s, run (tracker_at (mkP d w (h 0) (v 0))) (rounds (map (reading_at (fun t => a0 + j * t) (fun t => g0 + k * t) t0) (t0 :: ts))) = Fine s /\
    direction (at_ s) = h (seconds t0 (last_time t0 ts)) /\ speed (at_ s) = v (seconds t0 (last_time t0 ts)).
Proof.
  intros h v a0 j g0 k t0 ts d w Hh Hv P S W I. cbn [map]. unfold tracker_at. rewrite round_first by reflexivity.
  apply heading_run; try assumption; cbn [direction speed]; rewrite seconds_same; reflexivity.
Qed.

(** If the clock does not advance by whole microseconds, the heading at a constant rate of turn is behind by less than what is turned in a microsecond for
    each reading. *)
Theorem C113_lag_partial : forall m t0 a g l p, (0 < t0)%Z -> g = gyro_of m -> sleeps t0 (map r_time l) -> Forall (fun r => r_gyro r = g) l ->
  exists s, run (tracker_at p) (rounds (mkRd t0 a g :: l)) = Fine s /\
    Rabs (direction p + g * seconds t0 (last_time t0 (map r_time l)) - direction (at_ s)) <= Rabs g * INR (length l) / 1000000.
Proof.
  intros m t0 a g l p P -> S F. unfold tracker_at. rewrite round_first by reflexivity. apply (lag_run m l (mkRd t0 a (gyro_of m)) p); [exact P|exact S|reflexivity|exact F].
Qed.

(** The motions of the examples. *)
Lemma curve_x : forall q t, q <> 0 -> derivable_pt_lim (fun u => u * sin (q * u) * / q + cos (q * u) * / (q * q)) t (t * cos (q * t)).
Proof.
  intros q t H. eapply dp_eq.
  - apply dp_plus.
    + apply dp_mult; [|apply dp_const]. apply dp_mult; [apply dp_id|]. apply dp_sin. apply dp_mult; [apply dp_const|apply dp_id].
    + apply dp_mult; [|apply dp_const]. apply dp_cos. apply dp_mult; [apply dp_const|apply dp_id].
  - cbn beta. field. exact H.
Qed.
Lemma curve_y : forall q t, q <> 0 -> derivable_pt_lim (fun u => - u * cos (q * u) * / q + sin (q * u) * / (q * q)) t (t * sin (q * t)).
Proof.
  intros q t H. eapply dp_eq.
  - apply dp_plus.
    + apply dp_mult; [|apply dp_const]. apply dp_mult.
      * apply (dp_ext (fun u => -1 * u)); [intro u; ring|]. apply dp_mult; [apply dp_const|apply dp_id].
      * apply dp_cos. apply dp_mult; [apply dp_const|apply dp_id].
    + apply dp_mult; [|apply dp_const]. apply dp_sin. apply dp_mult; [apply dp_const|apply dp_id].
  - cbn beta. field. exact H.
Qed.

Lemma turn_motion : forall w, w <> 0 -> let q := radians w in
  motion (fun u => u * sin (q * u) * / q + cos (q * u) * / (q * q)) (fun u => - u * cos (q * u) * / q + sin (q * u) * / (q * q)) (fun u => w * u) (fun u => u) (fun _ => 1) (fun _ => w).
Proof.
  intros w Hw q t. assert (q <> 0) as Hq by (unfold q, radians; intro E; apply Hw; lra).
  assert (radians (w * t) = q * t) as E by (unfold q, radians; field).
  repeat split.
  - eapply dp_eq; [apply curve_x; exact Hq|]. rewrite E. reflexivity.
  - eapply dp_eq; [apply curve_y; exact Hq|]. rewrite E. reflexivity.
  - eapply dp_eq; [apply dp_mult; [apply dp_const|apply dp_id]|cbn beta; ring].
  - apply dp_id.
Qed.

(** In a turn at constant acceleration the place is not exact: the tracker takes the path of a round for an arc of a circle.  The vehicle starts from
    rest, accelerates by 1 and turns by 250 degrees in a second. *)
Theorem C113_turn_refuted : exists x y h v m t0 ts,
  motion x y h v (fun _ => 1) (fun _ => gyro_of m) /\ (0 < t0)%Z /\ sleeps t0 ts /\ whole t0 ts /\
  exists s, run (tracker_at (mkP (x 0) (y 0) (h 0) (v 0))) (rounds (map (reading_at (fun _ => 1) (fun _ => gyro_of m) t0) (t0 :: ts))) = Fine s /\
    depth (at_ s) <> x (seconds t0 (last_time t0 ts)).
Proof.
  set (w := gyro_of 4096). assert (w = 8192000 / 32767) as Ew by (unfold w, gyro_of, value_of; field).
  assert (w <> 0) as Hw by lra. pose proof (turn_motion w Hw) as M. cbn zeta in M.
  eexists _, _, _, _, 4096%Z, 1%Z, [1000000001%Z]. split; [exact M|]. split; [lia|]. split; [cbn; lia|]. split; [cbn; auto|].
  cbn [map]. unfold tracker_at. rewrite round_first by reflexivity.
  assert (microsec 1 1000000001 = 1000000)%Z as Em by reflexivity.
  rewrite round_next by (cbn; discriminate). cbn [rounds flat_map run].
  eexists. split; [reflexivity|]. cbn [at_ last_time]. cbn [reading_at r_time]. rewrite Em.
  assert (seconds 1 1000000001 = 1) as Es by (unfold seconds; cbn; field).
  assert (IZR 1000000 / 1000000 = 1) as E1 by field.
  assert (turned w w 1 = w) as Et by (unfold turned; field).
  rewrite moved_arc; cbn [reading_at r_gyro r_accel]; fold w; rewrite ?E1, ?Et; [|discriminate|].
  2:{ rewrite Rabs_right by lra. lra. }
  set (q := radians w) in *.
  assert (4 < q < 6) as Q by (unfold q, radians; rewrite Ew; lra).
  cbn beta zeta. cbn [depth width direction speed]. rewrite Es. unfold dist. cbn [speed].
  replace (radians (w * 0)) with 0 by (unfold radians; field). rewrite Rmult_0_r, Rplus_0_l, sin_0, cos_0, Rmult_1_r.
  pose proof PI_4 as P4. pose proof PI2_3_2 as P3. unfold PI2 in P3.
  assert (0 < sin (q / 2)) as Sq by (apply sin_gt_0; lra).
  assert (cos (q / 2) < 0) as Cq by (apply cos_lt_0; lra).
  assert (sin q = 2 * sin (q / 2) * cos (q / 2)) as E2 by (replace q with (2 * (q / 2)) at 1 by field; apply sin_2a).
  assert (cos q = 1 - 2 * sin (q / 2) * sin (q / 2)) as E3 by (replace q with (2 * (q / 2)) at 1 by field; apply cos_2a_sin).
  replace (q * 1) with q by ring. intro E.
  assert (1 + q / 2 * sin q = q * sin q + cos q) as E4.
  { transitivity ((0 * 0 * / q + 1 * / (q * q) + (0 + (2 * 1 + 1) * 1 * 1 / 6) / q * (sin q - 0)) * (q * q)); [field; lra|]. rewrite E. field. lra. }
  assert (sin (q / 2) * (q / 2 * cos (q / 2) - sin (q / 2)) = 0) as Z by (rewrite E2, E3 in E4; lra).
  assert (q / 2 * cos (q / 2) - sin (q / 2) < 0) as N1 by nra.
  assert (sin (q / 2) * (q / 2 * cos (q / 2) - sin (q / 2)) < 0) as N2 by nra. lra.
Qed.

(** The clock that does not advance by whole microseconds. *)
Theorem C113_clock_refuted : exists m t0 ts, (0 < t0)%Z /\ sleeps t0 ts /\
  exists s, run (tracker_at (mkP 0 0 0 0)) (rounds (map (reading_at (fun _ => 0) (fun _ => gyro_of m) t0) (t0 :: ts))) = Fine s /\
    direction (at_ s) <> gyro_of m * seconds t0 (last_time t0 ts).
Proof.
  exists 16%Z, 1%Z, [1001000%Z]. split; [lia|]. split; [cbn; lia|]. cbn [map]. unfold tracker_at. rewrite round_first by reflexivity.
  rewrite round_next by (cbn; discriminate). cbn [rounds flat_map run]. eexists. split; [reflexivity|]. cbn [at_ last_time].
  rewrite (direction_moved _ _ _ _ (gyro_of 16 * (1 / 1000))).
  - cbn [direction]. unfold gyro_of, value_of, seconds. change (1001000 - 1)%Z with 1000999%Z. lra.
  - discriminate.
  - cbn [reading_at r_time r_gyro]. change (microsec 1 1001000) with 1000%Z. unfold turned. field.
  - right. unfold gyro_of, value_of. rewrite Rabs_right by lra. lra.
Qed.

(** ** C114 *)
(** A value given between two rounds is what the tracker goes on from. *)
Theorem C114_between_partial : forall p l1 l2 f v s s1,
  run (tracker_at p) (rounds l1) = Fine s -> run s (rounds l2) = Fine s1 ->
  exists s2, run s (SetField f v :: rounds l2) = Fine s2 /\ get_field f (at_ s2) = v + (get_field f (at_ s1) - get_field f (at_ s)).
Proof.
  intros p l1 l2 f v s s1 E1 E2.
  assert (forall l s0, pending s0 = None -> run s0 (rounds l) = Fine s -> pending s = None) as Pn.
  { induction l as [|r l IH]; intros s0 P E; [cbn in E; injection E as <-; exact P|]. destruct s0 as [q r0 pe]. cbn in P. subst pe. cbn in E. unfold sense in E. cbn in E.
    destruct (r_time r0 =? 0)%Z; [refine (IH _ _ E); reflexivity|]. destruct (microsec (r_time r0) (r_time r) =? 0)%Z; [discriminate|]. refine (IH _ _ E); reflexivity. }
  specialize (Pn l1 (tracker_at p) eq_refl E1). destruct s as [q r0 pe]. cbn in Pn. subst pe.
  pose proof (run_apart f (v - get_field f q) l2 (set_field f v q) q r0) as A. cbn [run step]. cbn [at_ prev pending].
  rewrite E2 in A. destruct (run (mkT (set_field f v q) r0 None) (rounds l2)) as [s2| |].
  - exists s2. split; [reflexivity|]. rewrite A; [ring| |]; destruct f; cbn; try split; try reflexivity; try exact I; ring.
  - exfalso. apply A; destruct f; cbn; try split; try reflexivity; try exact I; ring.
  - exfalso. apply A; destruct f; cbn; try split; try reflexivity; try exact I; ring.
Qed.

(** Given while a round is calculating, it is lost: the state afterwards is what it would be without the call.  The direction is lost only if the
    vehicle turns. *)
Theorem C114_lost : forall s r s1 f v, pending s = None -> r_time (prev s) <> 0%Z ->
  run s [Sense r; Store r] = Fine s1 ->
  exists s2, run s [Sense r; SetField f v; Store r] = Fine s2 /\
    (f <> FDirection -> s2 = s1) /\ (f = FDirection -> direction (at_ s2) = v /\ direction (at_ s1) = direction (at_ s) \/ s2 = s1).
Proof.
  intros [p r0 pe] r s1 f v P N E. cbn in P, N. subst pe. cbn in *. unfold sense in *. cbn in *. apply Z.eqb_neq in N. rewrite N in *.
  destruct (microsec (r_time r0) (r_time r) =? 0)%Z; [discriminate|]. cbn in *. injection E as <-. eexists. split; [reflexivity|]. split.
  - intro H. destruct f; [reflexivity|reflexivity|contradiction|reflexivity].
  - intros ->. unfold apply_news. cbn [at_ direction set_field]. destruct (n_direction _); [right; reflexivity|left; split; reflexivity].
Qed.

(** So after set_depth(100) on a vehicle at rest the tracker goes on from 0. *)
Theorem C114_refuted : exists s0 r v s, s0 = mkT (mkP 0 0 0 0) (mkRd 1 0 0) None /\ 
  run s0 [Sense r; SetField FDepth v; Store r] = Fine s /\ v = 100 /\ depth (at_ s) = 0.
Proof.
  eexists _, (mkRd 1000001 0 0), 100, _. split; [reflexivity|]. split; [reflexivity|]. split; [reflexivity|].
  cbn [at_]. match goal with |- depth (apply_news ?n _) = 0 => change (depth (apply_news n (mkP 0 0 0 0)) = 0) end. rewrite moved_straight.
  - cbn [depth r_accel prev at_]. unfold dist. cbn [speed depth r_accel prev at_]. field.
  - discriminate.
  - cbn [r_gyro prev at_]. unfold turned. rewrite Rplus_0_l, Rmult_0_l. unfold Rdiv at 1. rewrite Rmult_0_l, Rabs_R0. lra.
Qed.

(** ** Cases *)
(** A straight course along the depth axis with linear acceleration 1 + t. *)
Example C113_straight_case : motion (fun t => t * t / 2 + t * t * t / 6) (fun _ => 5) (fun _ => 0) (fun t => t + t * t / 2) (fun t => 1 + 1 * t) (fun _ => 0) /\
  sleeps 7000 [2007000%Z; 5003007000%Z] /\ whole 7000 [2007000%Z; 5003007000%Z].
Proof.
  split; [|split; [cbn; lia|cbn; auto]]. intro t. replace (radians 0) with 0 by (unfold radians; field). rewrite cos_0, sin_0. repeat split.
  - apply (dp_ext (fun u => (u * u) * / 2 + (u * u * u) * / 6)); [intro u; field|]. eapply dp_eq.
    + apply dp_plus; apply dp_mult; try apply dp_const; repeat (apply dp_mult || apply dp_id).
    + cbn beta. field.
  - eapply dp_eq; [apply dp_const|ring].
  - apply dp_const.
  - apply (dp_ext (fun u => u + (u * u) * / 2)); [intro u; field|]. eapply dp_eq.
    + apply dp_plus; [apply dp_id|]. apply dp_mult; [|apply dp_const]. apply dp_mult; apply dp_id.
    + cbn beta. field.
Qed.
(** A circle at speed 3, to the left by 16 units of the sensor (just below one degree per second). *)
Example C113_circle_case : let q := radians (gyro_of 16) in
  motion (fun t => 3 / q * sin (q * t)) (fun t => - (3 / q) * cos (q * t)) (fun t => gyro_of 16 * t) (fun _ => 3) (fun _ => 0) (fun _ => gyro_of 16).
Proof.
  intros q t. assert (q <> 0) as Hq by (unfold q, radians, gyro_of, value_of; lra). assert (radians (gyro_of 16 * t) = q * t) as E by (unfold q, radians; field). rewrite E. repeat split.
  - eapply dp_eq; [apply dp_mult; [apply dp_const|]; apply dp_sin; apply dp_mult; [apply dp_const|apply dp_id]|]. cbn beta. field. exact Hq.
  - eapply dp_eq; [apply dp_mult; [apply dp_const|]; apply dp_cos; apply dp_mult; [apply dp_const|apply dp_id]|]. cbn beta. field. exact Hq.
  - eapply dp_eq; [apply dp_mult; [apply dp_const|apply dp_id]|cbn beta; ring].
  - apply dp_const.
Qed.
(** A turn that becomes tighter: the readings are 0, 1 and 3 units of the sensor. *)
Example C113_heading_case : (forall t, derivable_pt_lim (fun u => 1000 / 32767 * (u * u)) t (0 + 2000 / 32767 * t)) /\ (forall t, derivable_pt_lim (fun u => 2 * u) t (2 + 0 * t)) /\
  sleeps 7000 [1000007000%Z; 3000007000%Z] /\ whole 7000 [1000007000%Z; 3000007000%Z] /\
  forall t, In t (7000 :: [1000007000; 3000007000])%Z -> exists m, 0 + 2000 / 32767 * seconds 7000 t = gyro_of m.
Proof.
  split; [|split; [|split; [cbn; lia|split; [cbn; auto|]]]].
  - intro t. eapply dp_eq; [apply dp_mult; [apply dp_const|apply dp_mult; apply dp_id]|cbn beta; field].
  - intro t. eapply dp_eq; [apply dp_mult; [apply dp_const|apply dp_id]|cbn beta; ring].
  - intros t [<-|[<-|[<-|[]]]]; [exists 0%Z|exists 1%Z|exists 3%Z]; unfold seconds, gyro_of, value_of; cbn; field.
Qed.
Example C113_finite_case : exists a g ts, map r_time [mkRd 5 1 2; mkRd 1000005 (-1) 0] = 5%Z :: ts /\ hd_error [mkRd 5 1 2; mkRd 1000005 (-1) 0] = Some (mkRd 5 a g) /\ sleeps 5 ts.
Proof. exists 1, 2, [1000005%Z]. split; [reflexivity|]. split; [reflexivity|]. cbn. lia. Qed.
Example C113_lag_case : sleeps 5 (map r_time [mkRd 1001004 0 (gyro_of 7); mkRd 2999999 2 (gyro_of 7)]) /\ Forall (fun r => r_gyro r = gyro_of 7) [mkRd 1001004 0 (gyro_of 7); mkRd 2999999 2 (gyro_of 7)].
Proof. split; [cbn; lia|]. repeat constructor. Qed.
Example C114_between_case : exists s s1, run (tracker_at (mkP 1 2 3 4)) (rounds [mkRd 5 1 2]) = Fine s /\ run s (rounds [mkRd 1000005 7 8]) = Fine s1.
Proof. eexists _, _. split; reflexivity. Qed.
Example C114_lost_case : exists s1, run (mkT (mkP 1 2 3 4) (mkRd 5 1 2) None) [Sense (mkRd 1000005 7 8); Store (mkRd 1000005 7 8)] = Fine s1.
Proof. eexists. reflexivity. Qed.

Print Assumptions C113_finite.
Print Assumptions C113_straight_partial.
Print Assumptions C113_circle_partial.
Print Assumptions C113_heading.
Print Assumptions C113_lag_partial.
Print Assumptions C113_turn_refuted.
Print Assumptions C113_clock_refuted.
Print Assumptions C114_between_partial.
Print Assumptions C114_lost.
Print Assumptions C114_refuted.
