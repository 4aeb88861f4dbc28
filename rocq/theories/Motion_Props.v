(** C120: the values of the motion sensor. *)

From Coq Require Import ZArith QArith Qabs List Bool Lia.
From Verif Require Import Base ListMem Smbus_Model Smbus_Spec Smbus_Proofs Sensors_Spec Sensors_Proofs Motion_Model Motion_Spec Motion_Proofs.
Import ListNotations.
Open Scope list_scope.
Open Scope Z_scope.

(** ** Instances for the examples *)
(** src/i/gpio_smbus_motion.i.h:157-159 *)
Definition mpu : target := {| t_addr := 0x68; t_clock := 1000; t_swap := true |}.
Definition word_reply (w : Z) : answer := ADone {| r_byte := 0; r_word := w; r_block := repeat 0 34 |}.
(** A device that counts *)
Definition counting (n : nat) : answer := word_reply (Z.of_nat n mod 65536).
Lemma counts : healthy counting /\ typed_device counting.
Proof. split; [intro n; eexists; reflexivity|]. intros n r E. injection E as <-. cbn. split; [lia|]. apply Z.mod_pos_bound. lia. Qed.
(** A device that always says the word 0xfeff, -2 for the target *)
Definition still (n : nat) : answer := word_reply 0xfeff.
Lemma stays : healthy still /\ typed_device still.
Proof. split; [intro n; eexists; reflexivity|]. intros n r E. injection E as <-. cbn. lia. Qed.
(** Values in lowest terms *)
Definition lowest {A} (x : option (list Q * A)) : option (list Q) := option_map (fun p => map Qred (fst p)) x.

(** ** C120 *)
(** If every system call succeeds: each channel of the mask is asked for once, in its order, by messages to the target alone; its value is what its own answer says, less the calibration; all
    other values are 0.  With calibrations as calibrate() makes them (C63_bound), the values exceed their ranges by 5 percent at most.
    Missing: what happens when calls fail (below). *)
Theorem C120_values_partial : forall D b t mask cal, healthy D -> typed_device D -> t_addr t <> 0 -> addr b = 0 \/ fd_addr b = Some (addr b) -> length cal = 7%nat ->
  exists vs b' new w, get_values D b t mask cal = Some (vs, b') /\ length vs = 7%nat /\ evs b' = evs b ++ new /\ all_to (t_addr t) new /\
  delivered new = flat_map (fun k => map (fun q => (q, w k)) (question t k)) (asked mask) /\
  (forall k, (k < 7)%nat -> (nth k vs 0 == if Z.testbit mask (Z.of_nat k) then shown k (said t (r_word (w k))) (nth k cal 0%Z) else 0)%Q) /\
  (Forall (fun c => -1638 <= c <= 1638) cal -> forall k, ((k < 3)%nat -> (Qabs (nth k vs 0) <= 16 * (34406 # 32767))%Q) /\ ((3 <= k < 6)%nat -> (Qabs (nth k vs 0) <= 2000 * (34406 # 32767))%Q)).
Proof.
  intros D b t mask cal H T N C L. unfold get_values. destruct (measured D t H T N mask b C) as (w & b' & new & E & V & Dn & A & C' & B). rewrite E.
  destruct (values_shown mask (fun k => if Z.testbit mask (Z.of_nat k) then said t (r_word (w k)) else 0) cal L) as (Lv & K). cbv beta in K.
  assert (forall k, (k < 7)%nat -> (nth k (values_from mask channels conversions (map (fun k => if Z.testbit mask (Z.of_nat k) then said t (r_word (w k)) else 0%Z) (seq 0 7)) cal) 0 ==
    if Z.testbit mask (Z.of_nat k) then shown k (said t (r_word (w k))) (nth k cal 0%Z) else 0)%Q) as K'.
  { intros k Lk. specialize (K k Lk). destruct (Z.testbit mask (Z.of_nat k)); exact K. }
  eexists. exists b', new, w. split; [reflexivity|]. split; [exact Lv|]. split; [exact V|]. split; [exact A|]. split; [exact Dn|]. split; [exact K'|].
  intros F k. assert ((k < 7)%nat -> -1638 <= nth k cal 0 <= 1638) as Bc by (intros Lk; rewrite Forall_forall in F; apply F, nth_In; lia).
  split; intros Lk; rewrite (K' k ltac:(lia)); (destruct (Z.testbit mask (Z.of_nat k)); [apply shown_range; [apply said_range, B|apply Bc; lia|exact Lk]|discriminate]).
Qed.
Example C120_values_ex : healthy counting /\ typed_device counting /\ t_addr mpu <> 0 /\ addr (bus_new true) = 0 /\ asked 0x49 = [0; 3; 6]%nat /\
  lowest (get_values counting (bus_new true) mpu 0x49 [6; 7; 8; -488; 5; 5; 5]) = Some [Qred (shown 0 256 6); 0%Q; 0%Q; Qred (shown 3 512 (-488)); 0%Q; 0%Q; Qred (shown 6 768 5)] /\
  Qred (shown 3 512 (-488)) = (2000000 # 32767)%Q.
Proof. split; [apply counts|]. split; [apply counts|]. split; [discriminate|]. split; [reflexivity|]. split; [reflexivity|]. split; vm_compute; reflexivity. Qed.

(** The constructor sets the ranges that shown assumes: register 28 to 3 * 8 (16 g), 27 to 3 * 8 (2000 degrees per second), after waking the sensor and setting the filter. *)
Theorem C120_setup_partial : forall D b t, healthy D -> t_addr t <> 0 -> addr b = 0 \/ fd_addr b = Some (addr b) ->
  exists new, evs (motion_init D b t) = evs b ++ new /\ all_to (t_addr t) new /\
  map fst (delivered new) = op_messages (PutByte t 107 0) ++ op_messages (PutByte t 26 3) ++ op_messages (PutByte t 28 24) ++ op_messages (PutByte t 27 24).
Proof. intros D b t H N C. exact (init_healthy D t H N b C). Qed.
Example C120_setup_ex : healthy counting /\ length (delivered (evs (motion_init counting (bus_new true) mpu))) = 4%nat.
Proof. split; [apply counts|vm_compute; reflexivity]. Qed.

(** With a log, if every system call succeeds: the calibration of a sensor that says the same in all rounds is what it says, if that is at most 1638 in either direction (C63), so that its values are 0
    from then on (C120_values_partial); channels that are not in the mask lose their calibration. *)
Theorem C120_calibrate_partial : forall D t mask b, healthy D -> typed_device D -> t_addr t <> 0 -> addr b = 0 \/ fd_addr b = Some (addr b) ->
  exists cal b' new, calibrate_all true D b t mask = Some (cal, b') /\ length cal = 7%nat /\ nth 6 cal 0 = 0 /\ Forall (fun c => -1638 <= c <= 1638) cal /\ evs b' = evs b ++ new /\ all_to (t_addr t) new /\
  forall w, (forall m r, In (m, r) (delivered new) -> r_word r = w (m_cmd m)) -> forall k, (k < 6)%nat ->
    (Z.testbit mask (Z.of_nat k) = true -> -1638 <= said t (w (register k)) <= 1638 -> nth k cal 0 = said t (w (register k))) /\
    (Z.testbit mask (Z.of_nat k) = false -> nth k cal 0 = 0).
Proof. exact calibrated. Qed.
Example C120_calibrate_ex : healthy still /\ typed_device still /\ said mpu 0xfeff = -2 /\
  option_map fst (calibrate_all true still (bus_new true) mpu 0x7f) = Some [-2; -2; -2; -2; -2; -2; 0] /\ option_map fst (calibrate_all true still (bus_new true) mpu 0x48) = Some [0; 0; 0; -2; 0; 0; 0] /\
  (exists b', calibrate_all true still (bus_new true) mpu 0x48 = Some ([0; 0; 0; -2; 0; 0; 0], b') /\ length (delivered (evs b')) = 25%nat /\ forallb (fun p => r_word (snd p) =? 0xfeff) (delivered (evs b')) = true) /\
  lowest (get_values still (bus_new true) mpu 0x3f [-2; -2; -2; -2; -2; -2; 0]) = Some [0; 0; 0; 0; 0; 0; 0]%Q.
Proof.
  split; [apply stays|]. split; [apply stays|]. split; [vm_compute; reflexivity|]. split; [vm_compute; reflexivity|]. split; [vm_compute; reflexivity|]. split; [|vm_compute; reflexivity].
  eexists. split; [vm_compute; reflexivity|]. split; vm_compute; reflexivity.
Qed.

(** False: "a value is that of its channel".  With a log, if the message for y fails, y gets what x says; the failure is not reported.  Without a log, it gets 0. *)
Definition loses_y (n : nat) : answer := match n with 2%nat => AFail | _ => word_reply 0x0010 end.
Theorem C120_failed_refuted : exists D vs b' vs' b'', get_values D (bus_new true) mpu 0x3 (repeat 0 7) = Some (vs, b') /\ (nth 1 vs 0 == shown 1 4096 0)%Q /\ (nth 0 vs 0 == nth 1 vs 0)%Q /\
  In (EXfer (Some 0x68) {| m_write := false; m_cmd := 61; m_kind := KWordData; m_data := PWord 0 |} None) (evs b') /\ length (delivered (evs b')) = 1%nat /\
  get_values (fun _ => AFail) (bus_new false) mpu 0x3 (repeat 0 7) = Some (vs', b'') /\ (nth 0 vs' 0 == 0)%Q /\ delivered (evs b'') = [].
Proof.
  exists loses_y. do 4 eexists. split; [vm_compute; reflexivity|]. split; [vm_compute; reflexivity|]. split; [vm_compute; reflexivity|]. split; [cbn; auto|]. split; [vm_compute; reflexivity|].
  split; [vm_compute; reflexivity|]. split; vm_compute; reflexivity.
Qed.
(** False: "reading always ends in values".  If the first message fails, a variable is used that was not initialised (with a log). *)
Theorem C120_uninitialised : forall D b t mask cal, has_log b = true -> addr b = t_addr t -> D (calls b) = AFail -> asked mask <> [] -> get_values D b t mask cal = None.
Proof.
  intros D b t mask cal Hl Ha Hd Hm.
  assert (forall reg, exists b', get_word D b t reg = Ret false SNone b') as G.
  { intros reg. unfold get_word, transfer, ensure_address. rewrite Ha, Z.eqb_refl, Hl. cbn [andb negb]. unfold ioctl_smbus. rewrite Hd. cbn. rewrite Hl. eexists. reflexivity. }
  unfold get_values, get_measurements. enough (measure D b t mask channels None = None) as -> by reflexivity.
  assert (forall cs, Exists (fun c => (Z.land mask (fst c) =? 0) = false) cs -> measure D b t mask cs None = None) as M.
  { intros cs. induction cs as [|(bit, reg) cs IH]; intros X; [inversion X|]. cbn [measure]. destruct (Z.land mask bit =? 0) eqn:E.
    - inversion X as [? ? Y|? ? Y]; subst; [cbn in Y; congruence|]. rewrite (IH Y). reflexivity.
    - destruct (G reg) as (b' & ->). reflexivity. }
  apply M. destruct (asked mask) as [|k ks] eqn:A; [congruence|]. assert (In k (asked mask)) as I by (rewrite A; left; reflexivity). apply filter_In in I as (I & Tb). apply in_seq in I.
  apply Exists_exists. exists (nth k channels (0, 0)). split; [apply nth_In; exact (proj2 I)|]. assert (fst (nth k channels (0, 0)) = 2 ^ Z.of_nat k) as -> by (do 7 (destruct k as [|k]; [reflexivity|]); lia).
  rewrite land_bit by lia. rewrite Tb. reflexivity.
Qed.
Example C120_uninitialised_ex : has_log (set_addr (bus_new true) 0x68) = true /\ addr (set_addr (bus_new true) 0x68) = t_addr mpu /\ asked 0x7f <> [] /\
  get_values (fun _ => AFail) (bus_new true) mpu 0x7f (repeat 0 7) = None.
Proof. split; [reflexivity|]. split; [reflexivity|]. split; [discriminate|vm_compute; reflexivity]. Qed.
Theorem C120_uninitialised_refuted : exists D, get_values D (bus_new true) mpu 0x7f (repeat 0 7) = None /\ lowest (get_values D (bus_new false) mpu 0x7f (repeat 0 7)) = Some (repeat 0%Q 6 ++ [3653 # 100]).
Proof. exists (fun _ => AFail). split; vm_compute; reflexivity. Qed.
(** False: "accelerations are within 16 g": the word 0x8000 is more. *)
Theorem C120_range_refuted : exists D vs b', healthy D /\ typed_device D /\ get_values D (bus_new true) mpu 0x1 (repeat 0 7) = Some (vs, b') /\ (nth 0 vs 0 < -16)%Q.
Proof.
  exists (fun _ => word_reply 0x0080). do 2 eexists. split; [intro n; eexists; reflexivity|]. split; [intros n r E; injection E as <-; cbn; lia|]. split; [vm_compute; reflexivity|]. vm_compute. reflexivity.
Qed.
(** False: "the sensor can be calibrated without a log": calibrate() calls the log whether there is one or not. *)
Theorem C120_no_log_refuted : exists D, healthy D /\ typed_device D /\ calibrate_all false D (bus_new true) mpu 0x7f = None /\ calibrate_all true D (bus_new true) mpu 0x7f <> None.
Proof. exists still. split; [apply stays|]. split; [apply stays|]. split; [vm_compute; reflexivity|vm_compute; discriminate]. Qed.

Print Assumptions C120_values_partial.
Print Assumptions C120_setup_partial.
Print Assumptions C120_calibrate_partial.
Print Assumptions C120_failed_refuted.
Print Assumptions C120_uninitialised.
Print Assumptions C120_uninitialised_refuted.
Print Assumptions C120_range_refuted.
Print Assumptions C120_no_log_refuted.
