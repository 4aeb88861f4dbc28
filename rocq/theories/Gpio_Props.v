(** C89 to C91: the ultrasonic sensor and the descriptors of lines. *)

From Coq Require Import ZArith NArith Lia List Bool.
From Verif Require Import Gpio_Model Gpio_Spec Gpio_Proofs.
Import ListNotations.
Open Scope Z_scope.

(** ** Environments for the examples *)
(** centimeters, as in samples/picar_4wd/car.i.h:112 *)
Definition centi : ratio := {| num := 1; den := 100 |}.
(** an echo from a until b; every operation takes 20 microseconds, but operation number k takes d more *)
Definition echoing (a b : Z) (k : nat) (d : N) : env :=
  {| lag := fun i => if Nat.eqb i k then (20000 + d)%N else 20000%N; bits := fun t => Some (if (a <=? t) && (t <? b) then 1 else 0)%bool; writes := fun _ => true |}.
Definition at_zero : st := {| at_ := 0; ops := 0; wires := [] |}.
Lemma echoing_echo : forall a b k d, echo (echoing a b k d) a b.
Proof. intros a b k d t. cbn [echoing bits]. eexists. split; [reflexivity|]. destruct ((a <=? t) && (t <? b))%bool; reflexivity. Qed.
Lemma echoing_brisk : forall a b, brisk 20000 (echoing a b 0 0).
Proof. intros a b i. cbn [echoing lag]. destruct (Nat.eqb i 0); cbn; lia. Qed.
Lemma echoing_goes_on : forall a b k d, goes_on (echoing a b k d).
Proof. intros a b k d i. cbn [echoing lag]. destruct (Nat.eqb i k); lia. Qed.

(** ** C89: the distance measured is that of the obstacle, and at most max_distance *)
(** What holds: if the echo line goes high once, from a until b, every reading succeeds, no operation takes longer
    than dl, the pulse ends before a (with 20 operations to spare), the echo is longer than 4 operations and over
    before the timeout, then the distance is that of half of b - a at 343 meters per second, rounded down, for a
    duration that differs from b - a by at most 3 operations and 1 microsecond.
    In units: 2 * 10^9 * num / (343 * den) nanoseconds of echo per unit of distance.
    Missing: the timeout is that of the first call, and includes the time before the echo; readings can fail. *)
Theorem C89_distance_partial : forall dl fuel e scale known max_distance T s r s' k a b,
  brisk dl e -> echo e a b -> timeout_is scale known max_distance T -> 0 < num scale -> 0 < den scale ->
  at_ s + 20000 + 20 * dl < a -> a + 4 * dl < b -> b - at_ s <= 1000 * T -> 343 * den scale * (b - a + 3 * dl) < 2 ^ 64 ->
  measure_distance fuel e scale known max_distance s = Some (r, s', k) ->
  343 * den scale * (b - a - 3 * dl - 1000) < 2 * 1000000000 * num scale * (r + 1) /\ 2 * 1000000000 * num scale * r <= 343 * den scale * (b - a + 3 * dl).
Proof. exact measure_echo. Qed.
(** An obstacle at 50 centimeters, 2915451 nanoseconds of echo, is measured at 50. *)
Example C89_distance_case : exists s', measure_distance 200 (echoing 500000 3415451 0 0) centi None 100 at_zero = Some (50, s', Some 5830) /\
  brisk 20000 (echoing 500000 3415451 0 0) /\ echo (echoing 500000 3415451 0 0) 500000 3415451 /\ timeout_is centi None 100 5830 /\
  0 + 20000 + 20 * 20000 < 500000 /\ 500000 + 4 * 20000 < 3415451 /\ 3415451 - 0 <= 1000 * 5830 /\ 343 * 100 * (3415451 - 500000 + 3 * 20000) < 2 ^ 64.
Proof.
  eexists. split; [vm_compute; reflexivity|]. split; [apply echoing_brisk|]. split; [apply echoing_echo|]. split; [right; repeat split; lia|]. repeat (split; [lia|]). lia.
Qed.

(** False: "an obstacle nearer than max_distance is measured".  The timeout is twice max_distance at the speed of
    sound, but the time the sensor takes before its echo starts counts too: with an echo that starts after half a
    millisecond, an obstacle at 97 centimeters is not seen by a call with max_distance 100. *)
Theorem C89_near_refuted : exists e a b s', brisk 20000 e /\ echo e a b /\ at_ at_zero + 20000 + 20 * 20000 < a /\ a <= 500000 /\
  343 * 100 * (b - a) <= 2 * 1000000000 * 1 * 97 /\ measure_distance 200 e centi None 100 at_zero = Some (100, s', Some 5830).
Proof.
  exists (echoing 500000 6155000 0 0), 500000, 6155000. eexists. split; [apply echoing_brisk|]. split; [apply echoing_echo|]. split; [reflexivity|]. split; [reflexivity|]. split; [discriminate|]. vm_compute. reflexivity.
Qed.
(** False: "a call sees as far as its own max_distance".  The timeout is a static variable, set by the first call:
    an obstacle at 150 centimeters is measured by a call with max_distance 200 if it is the first, but not if a call
    with max_distance 100 was made before (even by another sensor with the same template arguments). *)
Theorem C89_first_refuted : exists e e1 s1 s2 s3 k1 k2, brisk 20000 e /\ echo e 500000 9246000 /\
  measure_distance 500 e centi None 200 at_zero = Some (150, s1, Some 11661) /\
  measure_distance 500 e1 centi None 100 at_zero = Some (100, s2, k1) /\ measure_distance 500 e centi k1 200 at_zero = Some (200, s3, k2).
Proof.
  exists (echoing 500000 9246000 0 0), (echoing 0 0 0 0). do 5 eexists. split; [apply echoing_brisk|]. split; [apply echoing_echo|].
  split; [vm_compute; reflexivity|]. split; [vm_compute; reflexivity|]. vm_compute; reflexivity.
Qed.
(** False: "the distance is at most max_distance".  The time is compared with the timeout only after a reading of the
    wrong level: if the thread is put aside for 80 milliseconds while it waits for the end of the echo, the end of the
    echo is found at the next reading, and the distance is 1372 centimeters for a max_distance of 100. *)
Theorem C89_beyond_refuted : exists e a b r s' k, goes_on e /\ echo e a b /\ b - a <= 3000000 /\ measure_distance 200 e centi None 100 at_zero = Some (r, s', k) /\ 1000 < r.
Proof.
  exists (echoing 500000 3415451 100 80000000), 500000, 3415451. do 3 eexists. split; [apply echoing_goes_on|]. split; [apply echoing_echo|]. split; [discriminate|]. split; [vm_compute; reflexivity|]. reflexivity.
Qed.
(** What holds: on the first call, the distance is at most max_distance and what sound travels in half of 5 operations
    and 1 microsecond; so not beyond max_distance at all if that is less than a unit of distance (for centimeters:
    if no operation takes longer than 11 microseconds). *)
Theorem C89_beyond_partial : forall dl fuel e scale max_distance s r s' k,
  brisk dl e -> 0 < num scale -> 0 < den scale -> 0 <= max_distance -> 2 * max_distance * num scale * 1000000 < 2 ^ 64 ->
  2 * 1000000000 * num scale * max_distance + 343 * den scale * (1000 + 5 * dl) < 2 ^ 64 ->
  measure_distance fuel e scale None max_distance s = Some (r, s', k) ->
  0 <= r /\ 2 * 1000000000 * num scale * (r - max_distance) <= 343 * den scale * (1000 + 5 * dl).
Proof.
  intros dl fuel e scale mx s r s' k B Hn Hd P F F' E. assert (D0 : 0 <= dl) by (pose proof (B 0%nat); pose proof (N2Z.is_nonneg (lag e 0)); lia).
  set (T := 2 * mx * num scale * 1000000 / (343 * den scale)). assert (TI : timeout_is scale None mx T) by (right; auto).
  assert (HT : 343 * den scale * T <= 2 * mx * num scale * 1000000) by (apply Z.mul_div_le; lia). assert (T0 : 0 <= T) by (apply Z.div_pos; [|lia]; apply Z.mul_nonneg_nonneg; [apply Z.mul_nonneg_nonneg|]; lia).
  destruct (measure_far dl fuel e scale None mx T s r s' k B TI Hn Hd T0 ltac:(lia) E) as [->|K].
  - split; [exact P|]. rewrite Z.sub_diag, Z.mul_0_r. apply Z.mul_nonneg_nonneg; lia.
  - split; [|lia]. destruct (Z.lt_ge_cases r 0) as [Q|Q]; [|exact Q]. exfalso. assert (2 * 1000000000 * num scale * r < 0) by (apply Z.mul_pos_neg; lia). lia.
Qed.
Corollary C89_centimeters_partial : forall dl fuel e max_distance s r s' k, brisk dl e -> dl <= 11000 -> 0 <= max_distance <= 1000000000 ->
  measure_distance fuel e centi None max_distance s = Some (r, s', k) -> 0 <= r <= max_distance.
Proof.
  intros dl fuel e mx s r s' k B L P E. assert (D0 : 0 <= dl) by (pose proof (B 0%nat); pose proof (N2Z.is_nonneg (lag e 0)); lia).
  assert (K := C89_beyond_partial dl fuel e centi mx s r s' k B). unfold centi in K. cbn [num den] in K. specialize (K ltac:(lia) ltac:(lia) ltac:(lia) ltac:(lia) ltac:(lia) E). lia.
Qed.
Example C89_beyond_case : exists e s', brisk 10000 e /\ measure_distance 600 e centi None 100 at_zero = Some (90, s', Some 5830).
Proof.
  exists {| lag := fun _ => 10000%N; bits := fun t => Some (if (500000 <=? t) && (t <? 5805600) then 1 else 0)%bool; writes := fun _ => true |}. eexists. split; [intros i; cbn; lia|]. vm_compute. reflexivity.
Qed.

(** ** C90: a measurement sends its pulse and ends *)
(** If the writes succeed: low for at least 10 microseconds, high for at least 10 microseconds, low. *)
Theorem C90_pulse : forall fuel e scale known max_distance s r s' k, (forall t, writes e t = true) -> measure_distance fuel e scale known max_distance s = Some (r, s', k) ->
  exists t1 t2 t3, at_ s <= t1 /\ t1 + 10000 <= t2 /\ t2 + 10000 <= t3 <= at_ s' /\ wires s' = [(t3, low, true); (t2, high, true); (t1, low, true)] ++ wires s.
Proof. exact measure_pulse. Qed.
Example C90_pulse_case : exists s', measure_distance 200 (echoing 500000 3415451 0 0) centi None 100 at_zero = Some (50, s', Some 5830) /\ forall t, writes (echoing 500000 3415451 0 0) t = true.
Proof. eexists. split; [vm_compute; reflexivity|]. reflexivity. Qed.
(** False: "a distance other than max_distance is that of an echo of this pulse".  If no write succeeds, no pulse is
    sent; a level that happens to change is measured all the same. *)
Theorem C90_sent_refuted : exists e s', (forall t, writes e t = false) /\ measure_distance 200 e centi None 100 at_zero = Some (50, s', Some 5830).
Proof.
  exists {| lag := fun _ => 20000%N; bits := fun t => Some (if (500000 <=? t) && (t <? 3415451) then 1 else 0)%bool; writes := fun _ => false |}. eexists. split; [reflexivity|]. vm_compute. reflexivity.
Qed.
(** Whatever the line does, and whether it can be read or not, a measurement ends; if no operation takes longer than
    dl, within its timeout and 23 microseconds and 20 operations. *)
Theorem C90_ends : forall e scale known max_distance T s,
  goes_on e -> timeout_is scale known max_distance T -> 0 < num scale -> 0 < den scale -> 0 <= T ->
  exists fuel r s', measure_distance fuel e scale known max_distance s = Some (r, s', Some T) /\
  forall dl, brisk dl e -> at_ s' <= at_ s + 1000 * T + 23000 + 20 * dl.
Proof.
  intros e scale known mx T s G TI Hn Hd P. exists (Z.to_nat (1000 * (T + 1)) + 2)%nat. destruct (measure_ends (Z.to_nat (1000 * (T + 1)) + 2)%nat e scale known mx T s G TI Hn Hd ltac:(lia)) as (r & s' & E).
  exists r, s'. split; [exact E|]. intros dl B. pose proof (measure_time dl _ e scale known mx T s r s' _ B TI Hn Hd P E). lia.
Qed.
Example C90_ends_case : goes_on (echoing 0 0 0 0) /\ timeout_is centi None 100 5830 /\ exists s', measure_distance 200 (echoing 0 0 0 0) centi None 100 at_zero = Some (100, s', Some 5830) /\ at_ s' = 6080000.
Proof. split; [apply echoing_goes_on|]. split; [right; repeat split; lia|]. eexists. split; [vm_compute; reflexivity|]. reflexivity. Qed.
(** A line that cannot be read gives max_distance. *)
Theorem C90_unread : forall fuel e scale known max_distance s r s' k dl, brisk dl e -> (forall t, bits e t = None) -> measure_distance fuel e scale known max_distance s = Some (r, s', k) -> r = max_distance.
Proof.
  intros fuel e scale known mx s r s' k dl B U E. destruct (measure_parts dl fuel e scale known mx s r s' k B E) as (_ & s0 & l1 & s1 & _ & E1 & E').
  destruct (expect_level_spec dl e low _ fuel s0 l1 s1 B ltac:(discriminate) E1) as (? & ? & ? & _ & _ & _ & _ & _ & _ & [(_ & L)|(L & _)]); [unfold lvl in L; rewrite U in L; discriminate|].
  destruct E' as [(_ & R & _)|(N & _)]; [exact R|contradiction].
Qed.
Example C90_unread_case : exists s', measure_distance 200 {| lag := fun _ => 20000%N; bits := fun _ => None; writes := fun _ => true |} centi None 100 at_zero = Some (100, s', Some 5830).
Proof. eexists. vm_compute. reflexivity. Qed.

(** ** C91: lines keep and release their own descriptors *)
(** What holds: in programs that move no line and whose constructors fail, if at all, before they have opened anything,
    the descriptors handed to lines are closed exactly once, when their lines end, and no others; every line that
    exists has a descriptor of its own, which is open.
    (The two numbers are equal at any time, so a close of somebody else's descriptor would show.) *)
Theorem C91_lines_partial : forall l t, Forall plain l -> acts no_lines l = Some t ->
  (forall i fd, line t i = Some fd -> 0 <= fd /\ held t fd = true /\ times true fd (log_ t) = S (times false fd (log_ t)) /\ forall j, line t j = Some fd -> j = i) /\
  (forall fd, (forall i, line t i <> Some fd) -> times true fd (log_ t) = times false fd (log_ t)).
Proof.
  intros l t F E. destruct (plain_acts l no_lines t no_lines_inv F E) as (I1 & I2 & I3). split.
  - intros i fd L. destruct (I1 i fd L) as (_ & P & H). split; [exact P|]. split; [exact H|]. destruct (I3 fd) as [(_ & K)|(N & _)]; [|elim (N i L)]. split; [exact K|]. intros j L'. exact (I2 j i fd L' L).
  - intros fd N. destruct (I3 fd) as [((i & L) & _)|(_ & K)]; [elim (N i L)|exact K].
Qed.
Definition three_lines : list act := [Make true (Some 3) (Some 4) true; Other 3; Make true (Some 5) (Some 6) true; Make true None None true; Unmake 0; Make true (Some 5) (Some 4) true].
Example C91_lines_case : Forall plain three_lines /\ exists t, acts no_lines three_lines = Some t /\ line t 1 = Some 6 /\ line t 2 = Some 4 /\ held t 3 = true /\ log_ t = [(false, 5); (true, 4); (true, 5); (false, 4); (false, 5); (true, 6); (true, 5); (false, 3); (true, 4); (true, 3)].
Proof.
  split; [|eexists; vm_compute; repeat split; reflexivity]. unfold three_lines.
  repeat (apply Forall_cons; [cbn [plain]; try exact I; intros _ H; split; solve [discriminate | reflexivity | elim H; reflexivity]|]). apply Forall_nil.
Qed.
(** False: "a constructor that throws keeps nothing".  If the ioctl fails, the descriptor of the chip is left open;
    if the close fails, that of the line is. *)
Theorem C91_throw_refuted : exists a b t u, do_act no_lines a = Threw t /\ held t 3 = true /\ do_act no_lines b = Threw u /\ held u 4 = true /\ (forall i, line t i = None) /\ (forall i, line u i = None).
Proof. exists (Make true (Some 3) None true), (Make true (Some 3) (Some 4) false). do 2 eexists. split; [reflexivity|]. split; [reflexivity|]. split; [reflexivity|]. split; [reflexivity|]. split; reflexivity. Qed.
(** False: "a line that was moved keeps its descriptor to itself".  The move constructor copies _fd: when the old
    object ends the new one has lost its descriptor, and when the new one ends it closes whatever has that number by
    then. *)
Theorem C91_moved_refuted : exists t u v, acts no_lines [Make true (Some 3) (Some 4) true; Move_line 0; Unmake 0] = Some t /\ line t 1 = Some 4 /\ held t 4 = false /\
  acts t [Other 4] = Some u /\ held u 4 = true /\ acts u [Unmake 1] = Some v /\ held v 4 = false.
Proof. do 3 eexists. split; [vm_compute; reflexivity|]. split; [reflexivity|]. split; [reflexivity|]. split; [vm_compute; reflexivity|]. split; [reflexivity|]. split; [vm_compute; reflexivity|]. reflexivity. Qed.

Print Assumptions C89_distance_partial.
Print Assumptions C89_near_refuted.
Print Assumptions C89_first_refuted.
Print Assumptions C89_beyond_refuted.
Print Assumptions C89_beyond_partial.
Print Assumptions C89_centimeters_partial.
Print Assumptions C90_pulse.
Print Assumptions C90_sent_refuted.
Print Assumptions C90_ends.
Print Assumptions C90_unread.
Print Assumptions C91_lines_partial.
Print Assumptions C91_throw_refuted.
Print Assumptions C91_moved_refuted.
