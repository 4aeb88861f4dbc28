(** C92 to C95: the PWM emulator. *)

From Coq Require Import ZArith NArith Lia List Bool.
From Verif Require Import Gpio_Model Gpio_Spec Gpio_Proofs Emulator_Model Emulator_Spec Emulator_Proofs.
Import ListNotations.
Open Scope Z_scope.

(** ** Emulators and controls for the examples *)
(** the servo of samples/picar_4wd/hacks.cpp:166-170: 500 to 2500 microseconds at 50 Hz *)
Definition servo : emulator := {| min_width := 500; max_width := 2500; period := 20000 |}.
Definition quick : env := {| lag := fun _ => 1000%N; bits := fun _ => None; writes := fun _ => true |}.
Definition zero : st := {| at_ := 0; ops := 0; wires := [] |}.
(** duty cycle d until moment t, then d', with notifications; quit from moment u *)
Definition changing (d t d' : Z) (l : list Z) (u : Z) : control :=
  {| duty_at := fun x => if x <? t then d else d'; quit_at := fun x => u <=? x; notes := l; spurious := fun _ => None |}.
(** nobody quits *)
Definition never : Z := 2 ^ 70.
Definition staying (d : Z) : control := {| duty_at := fun _ => d; quit_at := fun _ => false; notes := []; spurious := fun _ => None |}.
Definition switching (d t d' : Z) (l : list Z) : control := {| duty_at := fun x => if x <? t then d else d'; quit_at := fun _ => false; notes := l; spurious := fun _ => None |}.
Lemma servo_sane : sane servo.
Proof. split; cbn; lia. Qed.
Lemma quick_brisk : brisk 1000 quick.
Proof. intros i. cbn. lia. Qed.
Lemma quick_goes_on : goes_on quick.
Proof. intros i. cbn. lia. Qed.

(** ** C92: the thread follows the duty cycle that was set last *)
(** If the duty cycle is v from the moment t1 on, and nobody quits, every turn of the loop that begins the length of a
    turn after t1, or later, works with v: whether notified or not. *)
Theorem C92_follows : forall dl e c m s0 n q d s t1 v,
  brisk dl e -> sane m -> percent c -> (forall t, t1 <= t -> duty_at c t = v /\ quit_at c t = false) ->
  after n e c m s0 = Head q d s -> t1 + longest m dl <= at_ s -> d = v /\ q = false.
Proof.
  intros dl e c m s0 n q d s t1 v B Sa PC X E T. destruct (head_comes dl e c m s0 B Sa PC n q d s E) as (_ & _ & r1 & r2 & R1 & R2 & -> & ->).
  split; [apply X; lia|apply X; lia].
Qed.
(** And such turns begin, one at least in any such length of time. *)
Theorem C92_goes : forall dl e c m s0 T, brisk dl e -> goes_on e -> sane m -> percent c -> 0 <= at_ s0 -> (forall t, quit_at c t = false) -> T + dl + 2000000000 < 2 ^ 63 -> at_ s0 + 2 * dl <= T ->
  exists n d s, after n e c m s0 = Head false d s /\ T <= at_ s <= T + longest m dl.
Proof. exact heads_dense. Qed.
Example C92_follows_case : let c := switching 30 25000000 70 [] in
  brisk 1000 quick /\ goes_on quick /\ sane servo /\ percent c /\ (forall t, 25000000 <= t -> duty_at c t = 70 /\ quit_at c t = false) /\
  (exists s, after 1 quick c servo zero = Head false 30 s /\ at_ s = 20004000) /\ (exists s, after 3 quick c servo zero = Head false 70 s) /\
  exists s, after 12 quick c servo zero = Head false 70 s /\ 25000000 + longest servo 1000 <= at_ s.
Proof.
  cbv zeta. split; [exact quick_brisk|]. split; [exact quick_goes_on|]. split; [exact servo_sane|]. split; [intros t; cbn; destruct (_ <? _); lia|].
  split; [intros t H; cbn; destruct (Z.ltb_spec t 25000000); [lia|auto]|]. split; [eexists; vm_compute; split; reflexivity|]. split; [eexists; vm_compute; reflexivity|].
  eexists. split; [vm_compute; reflexivity|]. vm_compute. discriminate.
Qed.
(** False: "a change is followed at once, since the thread is notified".  The notification is not made under the mutex:
    if it comes after the thread has read the duty cycle and before it waits, it is lost, and the change is followed only
    after 200 milliseconds. *)
Theorem C92_prompt_refuted : exists e c m s, brisk 1000 e /\ sane m /\ (forall t, 2500 <= t -> duty_at c t = 50) /\ notes c = [2600] /\ (forall i, spurious c i = None) /\
  after 1 e c m zero = Head false 50 s /\ 200000000 < at_ s /\ wires s = [(3000, low, true)].
Proof.
  exists quick, (switching 0 2500 50 [2600]), servo. eexists. split; [exact quick_brisk|]. split; [exact servo_sane|]. split; [intros t H; cbn; destruct (Z.ltb_spec t 2500); [lia|reflexivity]|].
  split; [reflexivity|]. split; [reflexivity|]. split; [vm_compute; reflexivity|]. split; reflexivity.
Qed.
(** What holds: a notification that comes while the thread waits (2 operations into its turn or later) is heeded within
    3 operations. *)
Theorem C92_prompt_partial : forall dl e c m duty s v t1 x, brisk dl e -> duty = 0 \/ duty = 100 -> (forall j, spurious c j = None) -> In v (notes c) -> (forall y, In y (notes c) -> at_ s <= y -> v <= y) ->
  at_ s + 2 * dl <= v <= at_ s + 200000000 -> t1 <= v -> (forall t, t1 <= t -> duty_at c t = x) -> exists q s', turn e c m (Head false duty s) = Head q x s' /\ v <= at_ s' <= v + 3 * dl.
Proof. exact turn_notified. Qed.
Example C92_prompt_case : exists s, after 1 quick (switching 0 1000000 50 [1000100]) servo zero = Head false 50 s /\ at_ s = 1003100.
Proof. eexists. vm_compute. split; reflexivity. Qed.
(** set_duty_cycle, called by any number of threads at once: the duty cycle is always a percentage, 0 or the value of
    some call, those above 100 taken as 100. *)
Theorem C92_range : forall v l, let d := duty_ (advances (fresh v) l) in 0 <= d <= 100 /\ (d = 0 \/ exists i, d = Z.max 0 (Z.min 100 (v i))).
Proof.
  intros v l d. split.
  - apply (advances_ok l (fresh v)). split; [cbn; lia|]. intros i. exact I.
  - apply (advances_from v l (fresh v)). split; [left; reflexivity|]. intros i. reflexivity.
Qed.
Example C92_range_case : duty_ (advances (fresh (fun i => if Nat.eqb i 0 then 150 else 30)) [0; 1; 1; 0; 1; 0; 1; 0]%nat) = 100.
Proof. reflexivity. Qed.
(** Called by one thread at a time: the duty cycle is that of the call, and the thread is notified if the level was
    constant and the value differs. *)
Theorem C92_set : forall old v, 0 <= old <= 100 -> 0 <= v -> set_duty_cycle old v = (Z.min 100 v, (((old =? 0) || (old =? 100)) && negb (v =? old))%bool).
Proof.
  intros old v O V. unfold set_duty_cycle, advances. cbn [fold_left]. unfold advance, duty_min, duty_max. cbv zeta. cbn [calls duty_ notified].
  destruct (Z.eqb_spec v old) as [->|N]; cbn [calls Nat.eqb duty_ notified negb].
  - rewrite andb_false_r. rewrite Z.min_r by lia. reflexivity.
  - rewrite andb_true_r. destruct (Z.ltb_spec v 0); [lia|].
    destruct (Z.ltb_spec 100 v); (rewrite Z.min_l by lia) || (rewrite Z.min_r by lia); destruct ((old =? 0) || (old =? 100))%bool; reflexivity.
Qed.

Example C92_set_case : set_duty_cycle 100 30 = (30, true) /\ set_duty_cycle 30 150 = (100, false).
Proof. split; reflexivity. Qed.

(** ** C93: the pulses have the width of the duty cycle *)
(** Every turn of the loop with a duty cycle between 0 and 100 puts the line high once and low once, for a width between
    the minimum and the maximum, in proportion, to the precision of 5 operations, and takes a period, to the precision of
    8 operations. *)
Theorem C93_pulse_partial : forall dl e c m duty s q d s', brisk dl e -> sane m -> 0 < duty < 100 -> turn e c m (Head false duty s) = Head q d s' ->
  exists w t1 t2, width_for m duty w /\ min_width m <= w <= max_width m /\ at_ s <= t1 <= at_ s + 2 * dl /\ 1000 * w - dl <= t2 - t1 <= 1000 * w + 5 * dl /\
  wires s' = (t2, low, writes e t2) :: (t1, high, writes e t1) :: wires s /\ t1 - dl + 1000 * period m <= at_ s' <= t1 + 1000 * period m + 8 * dl.
Proof.
  intros dl e c m duty s q d s' B Sa D E. destruct (turn_alt dl e c m duty s _ B Sa D E ltac:(discriminate)) as (q' & d' & s'' & w & t1 & t2 & E' & H1 & H2 & H3 & H4 & H5 & H6 & _). injection E' as <- <- <-.
  exists w, t1, t2. auto 10.
Qed.
Example C93_pulse_case : exists s', turn quick (staying 25) servo (Head false 25 zero) = Head false 25 s' /\ wires s' = [(1003000, low, true); (2000, high, true)] /\ at_ s' = 20002000.
Proof. eexists. vm_compute. repeat split; reflexivity. Qed.
(** False: "the pulses are never wider than max_pulse_width", as a servo needs: for the duty cycle 100 the line stays high.
    (And for 0 it stays low, whatever min_pulse_width is.) *)
Theorem C93_limits_refuted : exists e c m s1 s2, brisk 1000 e /\ sane m /\ 0 < min_width m /\ max_width m < period m /\
  after 5 e c m zero = Head false 100 s1 /\ (forall t l ok, In (t, l, ok) (wires s1) -> l = high /\ ok = true) /\ length (wires s1) = 5%nat /\ 1000 * period m < at_ s1 /\
  after 5 e (staying 0) m zero = Head false 0 s2 /\ (forall t l ok, In (t, l, ok) (wires s2) -> l = low).
Proof.
  exists quick, (staying 100), servo. do 2 eexists. split; [exact quick_brisk|]. split; [exact servo_sane|]. split; [reflexivity|]. split; [reflexivity|]. split; [vm_compute; reflexivity|].
  split; [cbn; intros t l ok H; repeat (destruct H as [H|H]; [injection H as <- <- <-; split; reflexivity|]); destruct H|]. split; [reflexivity|]. split; [reflexivity|].
  split; [vm_compute; reflexivity|]. cbn. intros t l ok H. repeat (destruct H as [H|H]; [injection H as <- <- <-; reflexivity|]). destruct H.
Qed.
(** What holds for 0 and 100: the line is put low, or high, once in every turn. *)
Theorem C93_constant : forall dl e c m duty s q d s', brisk dl e -> duty = 0 \/ duty = 100 -> turn e c m (Head false duty s) = Head q d s' ->
  exists t, at_ s <= t <= at_ s + dl /\ wires s' = (t, if duty =? 0 then low else high, writes e t) :: wires s.
Proof.
  intros dl e c m duty s q d s' B D E. destruct (turn_const dl e c m duty s B D) as (q' & d' & s'' & E' & _ & (t & u & T & W & _) & _). rewrite E in E'. injection E' as <- <- <-. exists t. auto.
Qed.
Example C93_constant_case : exists s', turn quick (staying 100) servo (Head false 100 zero) = Head false 100 s' /\ wires s' = [(1000, high, true)].
Proof. eexists. vm_compute. split; reflexivity. Qed.

(** ** C94: the destructor ends the thread and leaves the line low *)
(** If _quit is true from the moment t1 on, the thread ends within the length of 3 turns, and the last thing it does is
    to put the line low. *)
Theorem C94_ends : forall dl e c m s0 t1, brisk dl e -> goes_on e -> sane m -> percent c -> 0 <= at_ s0 -> at_ s0 + 2 * dl <= t1 -> (forall t, t1 <= t -> quit_at c t = true) -> t1 + 4 * longest m dl + 2000000000 < 2 ^ 63 ->
  exists n s' l, after n e c m s0 = Ended s' /\ at_ s' <= t1 + 3 * longest m dl /\ wires s' = (at_ s', low, writes e (at_ s')) :: l.
Proof.
  intros dl e c m s0 t1 B G Sa PC P0 P1 Q F. assert (D0 : 0 <= dl) by (pose proof (B 0%nat); pose proof (N2Z.is_nonneg (lag e 0)); lia). assert (L0 : 0 <= longest m dl) by (unfold longest; lia).
  destruct (begun_spec dl e c s0 B) as (q & d & s & E & P & _). 
  destruct (quits_within dl e c m s0 t1 B G Sa PC P0 ltac:(lia) Q F (Z.to_nat (t1 - at_ s)) 0%nat q d s E ltac:(lia) ltac:(lia)) as (n & s' & E' & T & l & W). exists n, s', l. auto.
Qed.
Example C94_ends_case : let c := changing 50 0 50 [] 30000000 in percent c /\ (forall t, 30000000 <= t -> quit_at c t = true) /\ exists s', after 4 quick c servo zero = Ended s' /\ at_ s' = 60009000.
Proof.
  cbv zeta. split; [intros t; cbn; destruct (_ <? _); lia|]. split; [intros t H; cbn; destruct (Z.leb_spec 30000000 t); [reflexivity|lia]|]. eexists. vm_compute. split; reflexivity.
Qed.
(** It does not end before. *)
Theorem C94_runs : forall dl e c m s0 n, brisk dl e -> sane m -> percent c -> (forall t, quit_at c t = false) -> forall s', after n e c m s0 <> Ended s'.
Proof.
  intros dl e c m s0 n B Sa PC Q. induction n as [|n IH]; intros s'; cbn [after].
  - destruct (begun_spec dl e c s0 B) as (q & d & s & E & _). rewrite E. discriminate.
  - destruct (after n e c m s0) as [q d s|s|] eqn:E; [|elim (IH s eq_refl)|discriminate]. destruct (head_comes dl e c m s0 B Sa PC n q d s E) as (D & _ & r1 & r2 & _ & _ & Q1 & _). rewrite Q in Q1. subst q.
    destruct (Z.eq_dec d 0) as [Z0|N0]; [|destruct (Z.eq_dec d 100) as [Z1|N1]].
    1,2: destruct (turn_const dl e c m d s B ltac:(auto)) as (q' & d' & s'' & E' & _); rewrite E'; discriminate.
    destruct (turn e c m (Head false d s)) as [q' d' s''|s''|] eqn:T; try discriminate.
    destruct (turn_alt dl e c m d s _ B Sa ltac:(lia) T ltac:(discriminate)) as (q' & d' & s3 & w & u1 & u2 & E' & _). discriminate.
Qed.
Example C94_runs_case : percent (staying 100) /\ (forall t, quit_at (staying 100) t = false) /\ exists s, after 3 quick (staying 100) servo zero = Head false 100 s.
Proof. split; [intros t; cbn; lia|]. split; [reflexivity|]. eexists. vm_compute. reflexivity. Qed.
(** False: "after the destructor the line is low": the result of the last write is ignored.  If it fails, a line that was
    high stays so. *)
Theorem C94_low_refuted : exists e c m n s' t t', brisk 1000 e /\ sane m /\ after n e c m zero = Ended s' /\ wires s' = [(t', low, false); (t, high, true)].
Proof.
  exists {| lag := fun _ => 1000%N; bits := fun _ => None; writes := fun t => t <? 1000000 |}, (changing 100 0 100 [2000000] 1500000), servo, 2%nat. do 3 eexists. split; [intros i; cbn; lia|]. split; [exact servo_sane|]. split; [vm_compute; reflexivity|]. reflexivity.
Qed.

(** ** C95: the constructor accepts the widths and frequencies that make sense, and refuses the others with an exception *)
(** What it accepts. *)
Theorem C95_made : forall min_ns max_ns frequency, 0 <= min_ns <= max_ns -> 0 < frequency < 65536 -> max_ns <= 1000 * (1000000 / frequency) ->
  exists m, new_emulator true true min_ns max_ns frequency = Made m /\ sane m /\ period m = 1000000 / frequency /\ 1000 * min_width m <= min_ns < 1000 * min_width m + 1000 /\ 1000 * max_width m <= max_ns < 1000 * max_width m + 1000.
Proof.
  intros mn mx f M F P. unfold new_emulator, gpio_pwm_period. cbn [negb]. destruct (Z.eqb_spec f 0); [lia|]. destruct (Z.ltb_spec mx mn); [lia|]. destruct (Z.ltb_spec (1000 * (1000000 / f)) mx); [lia|].
  eexists. split; [reflexivity|]. unfold sane. cbn [min_width max_width period]. pose proof (us_le mn ltac:(lia)). pose proof (us_le mx ltac:(lia)).
  assert (1000000 / f <= 1000000) by (apply Z.div_le_upper_bound; lia). assert (us_of_ns mn <= us_of_ns mx) by (unfold us_of_ns; rewrite !Z.quot_div_nonneg by lia; apply Z.div_le_mono; lia). lia.
Qed.
Example C95_made_case : new_emulator true true 500000 2500000 50 = Made servo.
Proof. reflexivity. Qed.
(** The constructor for motors: all widths of the period. *)
Theorem C95_full : forall frequency, 0 < frequency < 65536 -> exists m, new_emulator_full true true frequency = Made m /\ sane m /\ min_width m = 0 /\ max_width m = period m /\ period m = 1000000 / frequency.
Proof.
  intros f F. unfold new_emulator_full, gpio_pwm_period. destruct (Z.eqb_spec f 0); [lia|]. assert (0 <= 1000000 / f) by (apply Z.div_pos; lia).
  destruct (C95_made 0 (1000 * (1000000 / f)) f ltac:(lia) F ltac:(lia)) as (m & E & Sa & P & M1 & M2). exists m. rewrite E. split; [reflexivity|]. split; [exact Sa|]. lia.
Qed.
Example C95_full_case : exists m, new_emulator_full true true 60 = Made m /\ period m = 16666.
Proof. eexists. split; reflexivity. Qed.
(** False: "widths in the wrong order, or wider than the period, are refused with an exception".  The members are
    destroyed with the thread running, which ends the process. *)
Theorem C95_refused_refuted : new_emulator true true 2500000 500000 50 = Terminated /\ new_emulator true true 500000 2500000 500 = Terminated.
Proof. split; reflexivity. Qed.
(** False for the frequency 0 too, which divides by zero. *)
Theorem C95_zero_refuted : new_emulator true true 0 1 0 = Divided_by_zero /\ new_emulator_full true true 0 = Divided_by_zero.
Proof. split; reflexivity. Qed.
(** What holds: what is not in order is never accepted, whatever else happens.
    Missing: the exception; negative widths are accepted. *)
Theorem C95_refused_partial : forall line_ok thread_ok min_ns max_ns frequency m, new_emulator line_ok thread_ok min_ns max_ns frequency = Made m -> min_ns <= max_ns <= 1000 * period m /\ frequency <> 0 /\ line_ok = true.
Proof.
  intros lo th mn mx f m E. unfold new_emulator, gpio_pwm_period in E. destruct lo; [|discriminate]. cbn [negb] in E. destruct (Z.eqb_spec f 0); [discriminate|]. destruct th; [|discriminate]. cbn [negb] in E.
  destruct (Z.ltb_spec mx mn); [discriminate|]. destruct (Z.ltb_spec (1000 * (1000000 / f)) mx); [discriminate|]. injection E as <-. cbn [period]. auto.
Qed.

Example C95_refused_case : new_emulator true true 500001 2500999 50 = Made servo /\ new_emulator false true 500000 2500000 50 = Thrown.
Proof. split; reflexivity. Qed.

Print Assumptions C92_follows.
Print Assumptions C92_goes.
Print Assumptions C92_prompt_refuted.
Print Assumptions C92_prompt_partial.
Print Assumptions C92_range.
Print Assumptions C92_set.
Print Assumptions C93_pulse_partial.
Print Assumptions C93_limits_refuted.
Print Assumptions C93_constant.
Print Assumptions C94_ends.
Print Assumptions C94_runs.
Print Assumptions C94_low_refuted.
Print Assumptions C95_made.
Print Assumptions C95_full.
Print Assumptions C95_refused_refuted.
Print Assumptions C95_zero_refuted.
Print Assumptions C95_refused_partial.
