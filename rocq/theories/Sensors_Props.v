(** The theorems about chips (C109) and about the grayscale sensors (C110). *)

From Coq Require Import String ZArith List Bool Lia ZifyBool.
From Verif Require Import Base ListMem Car_Model Car_Spec Car_Replies Smbus_Model Smbus_Spec Smbus_Proofs Paths_Model Paths_Spec Paths_Proofs Sensors_Model Sensors_Spec Sensors_Proofs.
Import ListNotations.
Local Open Scope string_scope.
Open Scope list_scope.
Open Scope Z_scope.

(** ** C109 *)
(** The constructor refuses names of 32 characters or more and devices that cannot be opened, and nothing else; it writes within its arrays, and
    leaves no descriptor open.  path() and consumer() are the names given. *)
Theorem C109_made : forall w s path consumer buf1 buf2 now, zlen buf1 = 32 -> zlen buf2 = 32 -> text path -> text consumer -> fresh_from now w ->
  (exists c s' fd, chip_init w s (Some path) (Some consumer) buf1 buf2 = Made c s' /\ zlen path < 32 /\ zlen consumer < 32 /\ opens w (tick s) path = Some fd /\
     chip_path c = Some path /\ chip_consumer c = Some consumer /\ exists new, done s' = done s ++ new /\ open_after now new = Some now) \/
  (exists s', chip_init w s (Some path) (Some consumer) buf1 buf2 = Threw s' /\ done s' = done s /\ (32 <= zlen path \/ 32 <= zlen consumer \/ opens w (tick s) path = None)).
Proof.
  intros w s path consumer buf1 buf2 now B1 B2 T1 T2 F. unfold chip_init, gpio_max_path, gpio_max_consumer. destruct (Z.leb_spec 32 (zlen path)); [right; eexists; split; [reflexivity|]; split; [reflexivity|left; assumption]|]. destruct (Z.leb_spec 32 (zlen consumer)); [right; eexists; split; [reflexivity|]; split; [reflexivity|right; left; assumption]|].
  unfold sys_open. destruct (opens w (tick s) path) as [fd|] eqn:E; [|right; eexists; split; [reflexivity|]; split; [reflexivity|right; right; reflexivity]].
  destruct (strncpy_text buf1 path B1 ltac:(lia) T1) as (p & Ep & Cp & _). destruct (strncpy_text buf2 consumer B2 ltac:(lia) T2) as (c & Ec & Cc & _). rewrite Ep, Ec.
  left. do 3 eexists. split; [reflexivity|]. split; [lia|]. split; [lia|]. split; [reflexivity|]. split; [exact Cp|]. split; [exact Cc|].
  exists [Opened path fd; Closed fd]. split; [cbn; rewrite <- app_assoc; reflexivity|]. destruct (F _ _ _ E) as (_ & N). cbn. rewrite Z.eqb_refl. cbn. destruct (Z.eq_dec fd fd); [|contradiction]. rewrite notin_remove by exact N. reflexivity.
Qed.
(** A system with one chip *)
Definition one_chip : world := {| opens := fun _ p => if list_eq_dec Z.eq_dec p (bytes_of_string "/dev/gpiochip0") then Some 3 else None;
  answers_ := fun _ _ q => match q with About_chip => Some [54] | About_line p => if p <? 54 then Some [p; 1] else None end |}.
Definition at_start : sysm := {| tick := 0; done := [] |}.
Definition chip0 : chip := {| c_path := bytes_of_string "/dev/gpiochip0" ++ repeat 0 18; c_consumer := bytes_of_string "abc" ++ repeat 0 29 |}.
Example C109_made_ex : chip_init one_chip at_start (Some (bytes_of_string "/dev/gpiochip0")) (Some (bytes_of_string "abc")) (repeat 7 32) (repeat 8 32) =
    Made chip0 {| tick := 2; done := [Opened (bytes_of_string "/dev/gpiochip0") 3; Closed 3] |} /\
  chip_init one_chip at_start (Some (bytes_of_string "/dev/gpiochip1")) (Some (bytes_of_string "abc")) (repeat 7 32) (repeat 8 32) = Threw {| tick := 1; done := [] |} /\
  fresh_from [] one_chip /\ text (bytes_of_string "/dev/gpiochip0").
Proof.
  split; [vm_compute; reflexivity|]. split; [vm_compute; reflexivity|]. split; [|repeat constructor; discriminate].
  intros k p fd E. cbn in E. destruct (list_eq_dec _ _ _); [|discriminate]. injection E as <-. split; [lia|intros []].
Qed.
(** nullptr is refused. *)
Theorem C109_null : forall w s path consumer buf1 buf2, path = None \/ (consumer = None /\ forall p, path = Some p -> zlen p < 32) -> chip_init w s path consumer buf1 buf2 = Threw s.
Proof.
  intros w s path consumer buf1 buf2 [->|(-> & L)]; [reflexivity|]. destruct path as [p|]; [|reflexivity]. cbn. unfold gpio_max_path. specialize (L p eq_refl). destruct (Z.leb_spec 32 (zlen p)); [lia|reflexivity].
Qed.
Example C109_null_ex : chip_init one_chip at_start (Some (bytes_of_string "/dev/gpiochip0")) None (repeat 7 32) (repeat 8 32) = Threw at_start.
Proof. reflexivity. Qed.
(** Every int names a device of its own: the path is /dev/gpiochip and the number in decimal, never cut off. *)
Theorem C109_position : forall w s pos consumer buf1 buf2 c s', - 2 ^ 31 <= pos < 2 ^ 31 -> zlen buf1 = 32 -> zlen buf2 = 32 -> text consumer ->
  chip_at w s pos (Some consumer) buf1 buf2 = Made c s' -> exists t, int_text t pos /\ chip_path c = Some (bytes_of_string "/dev/gpiochip" ++ t).
Proof.
  intros w s pos consumer buf1 buf2 c s' R B1 B2 T E. destruct (show_range pos R) as (L & X). exists (show pos). split; [apply show_text; lia|].
  unfold chip_at, device_path, gpio_max_path in E.
  assert (LP : zlen (bytes_of_string "/dev/gpiochip" ++ show pos) < 32) by (rewrite zlen_app; change (zlen (bytes_of_string "/dev/gpiochip")) with 13; lia).
  rewrite take_all in E by lia.
  assert (TP : text (bytes_of_string "/dev/gpiochip" ++ show pos)) by (apply Forall_app; split; [repeat constructor; discriminate|exact X]).
  unfold chip_init, gpio_max_path, gpio_max_consumer in E. destruct (Z.leb_spec 32 (zlen (bytes_of_string "/dev/gpiochip" ++ show pos))); [lia|]. destruct (Z.leb_spec 32 (zlen consumer)); [discriminate|].
  destruct (sys_open w s _) as ([fd|], s1); [|discriminate].
  destruct (strncpy_text buf1 _ B1 LP TP) as (p & Ep & Cp & _). destruct (strncpy_text buf2 consumer B2 ltac:(lia) T) as (k & Ek & _). rewrite Ep, Ek in E. injection E as <- _. exact Cp.
Qed.
Example C109_position_ex : exists c s', chip_at one_chip at_start 0 (Some (bytes_of_string "abc")) (repeat 7 32) (repeat 8 32) = Made c s' /\ chip_path c = Some (bytes_of_string "/dev/gpiochip0") /\
  device_path (bytes_of_string "/dev/gpiochip") (-2147483648) = bytes_of_string "/dev/gpiochip-2147483648".
Proof. do 2 eexists. split; [vm_compute; reflexivity|]. split; vm_compute; reflexivity. Qed.
(** chip_info and line_info: valid exactly if the device could be opened and answered the question, and then with the answer to just that question; every descriptor
    opened is closed. *)
Theorem C109_info : forall w s c path q now, chip_path c = Some path -> fresh_from now w ->
  exists i s' new, chip_ask w s c q = Some (i, s') /\ done s' = done s ++ new /\ open_after now new = Some now /\
  (i_valid i = true <-> exists fd, opens w (tick s) path = Some fd /\ new = [Opened path fd; Asked fd q; Closed fd] /\ answers_ w (S (tick s)) fd q = Some (i_fields i)) /\
  (i_valid i = false -> i_fields i = [] /\ (opens w (tick s) path = None \/ exists fd, opens w (tick s) path = Some fd /\ answers_ w (S (tick s)) fd q = None)).
Proof.
  intros w s c path q now P F. unfold chip_ask. rewrite P. unfold sys_open. destruct (opens w (tick s) path) as [fd|] eqn:E.
  - unfold sys_ioctl, sys_close. cbn [tick done]. destruct (F _ _ _ E) as (_ & N).
    assert (O : open_after now [Opened path fd; Asked fd q; Closed fd] = Some now) by (cbn; rewrite Z.eqb_refl; cbn; destruct (Z.eq_dec fd fd); [|contradiction]; rewrite notin_remove by exact N; reflexivity).
    destruct (answers_ w (S (tick s)) fd q) as [fields|] eqn:A.
    + do 2 eexists. exists [Opened path fd; Asked fd q; Closed fd]. split; [reflexivity|]. split; [cbn; rewrite <- !app_assoc; reflexivity|]. split; [exact O|]. cbn [i_valid i_fields].
      split; [|discriminate]. split; [|reflexivity]. intros _. exists fd. auto.
    + do 2 eexists. exists [Opened path fd; Asked fd q; Closed fd]. split; [reflexivity|]. split; [cbn; rewrite <- !app_assoc; reflexivity|]. split; [exact O|]. cbn [i_valid i_fields].
      split; [split; [discriminate|]|split; [reflexivity|right; eauto]]. intros (fd' & E' & _ & A'). injection E' as <-. congruence.
  - do 2 eexists. exists []. split; [reflexivity|]. split; [cbn; now rewrite app_nil_r|]. split; [reflexivity|]. cbn [i_valid i_fields].
    split; [split; [discriminate|]|split; [reflexivity|left; reflexivity]]. intros (fd' & E' & _). discriminate.
Qed.
Example C109_info_ex : chip_path chip0 = Some (bytes_of_string "/dev/gpiochip0") /\
  option_map fst (chip_ask one_chip at_start chip0 (About_line 17)) = Some {| i_fields := [17; 1]; i_valid := true |} /\
  option_map fst (chip_ask one_chip at_start chip0 (About_line 54)) = Some {| i_fields := []; i_valid := false |}.
Proof. split; [vm_compute; reflexivity|]. split; vm_compute; reflexivity. Qed.
(** The bus: an object that was made owns one descriptor and its end closes it. *)
Theorem C109_bus_partial : forall w s path buf now b s', zlen buf = 32 -> text path -> fresh_from now w -> smbus_init w s (Some path) buf = Made b s' ->
  c_str (ob_path b) = Some path /\ exists new, done s' = done s ++ new /\ open_after now new = Some (ob_fd b :: now) /\
  exists last, done (smbus_end s' b) = done s ++ new ++ last /\ open_after now (new ++ last) = Some now.
Proof.
  intros w s path buf now b s' B T F E. unfold smbus_init, gpio_max_path in E. destruct (Z.leb_spec 32 (zlen path)); [discriminate|]. unfold sys_open in E. destruct (opens w (tick s) path) as [fd|] eqn:O; [|discriminate].
  unfold sys_ioctl in E. cbn [tick done] in E. destruct (answers_ w (S (tick s)) fd About_chip) as [f|]; [|discriminate]. destruct (strncpy_text buf path B ltac:(lia) T) as (p & Ep & Cp & _). rewrite Ep in E. injection E as <- <-.
  split; [exact Cp|]. destruct (F _ _ _ O) as (P & N). exists [Opened path fd; Asked fd About_chip]. split; [cbn; rewrite <- app_assoc; reflexivity|]. split; [reflexivity|].
  exists [Closed fd]. unfold smbus_end. cbn [ob_fd]. destruct (Z.leb_spec 0 fd); [|lia]. split; [cbn; rewrite <- !app_assoc; reflexivity|].
  cbn. rewrite Z.eqb_refl. cbn. destruct (Z.eq_dec fd fd); [|contradiction]. rewrite notin_remove by exact N. reflexivity.
Qed.
Example C109_bus_ex : exists b s', smbus_init one_chip at_start (Some (bytes_of_string "/dev/gpiochip0")) (repeat 7 32) = Made b s' /\ ob_fd b = 3.
Proof. do 2 eexists. split; vm_compute; reflexivity. Qed.
(** False: "a constructor of the bus that throws leaves no descriptor open".  If the device does not tell its functions, the descriptor stays open for good. *)
Definition mute : world := {| opens := fun _ _ => Some 3; answers_ := fun _ _ _ => None |}.
Theorem C109_leak_refuted : exists w s', fresh_from [] w /\ smbus_at w at_start 1 (repeat 7 32) = Threw s' /\ open_after [] (done s') = Some [3].
Proof. exists mute. eexists. split; [intros k p fd E; injection E as <-; split; [lia|intros []]|]. split; vm_compute; reflexivity. Qed.

(** ** C110 *)
(** If every system call succeeds, the values are those the device sends after each sensor was asked for, in the order left, center, right, and all messages go
    to the target.  Missing: what happens when calls fail (below). *)
Theorem C110_values_partial : forall D b t rl rc rr old, healthy D -> typed_device D -> t_addr t <> 0 -> addr b = 0 \/ fd_addr b = Some (addr b) ->
  exists b' new a0 l0 l1 a1 c0 c1 a2 r0 r1, get_values D b t rl rc rr old = Some (word t l0 l1, word t c0 c1, word t r0 r1, b') /\
  evs b' = evs b ++ new /\ all_to (t_addr t) new /\
  List.map fst (delivered new) = ask t rl ++ ask t rc ++ ask t rr /\ List.map snd (delivered new) = [a0; l0; l1; a1; c0; c1; a2; r0; r1].
Proof.
  intros D b t rl rc rr ((ol, oc), or) H T N C. unfold get_values.
  destruct (sensor_healthy D b t rl ol H T N C) as (b1 & n1 & a0 & l0 & l1 & m0 & m1 & m2 & E1 & V1 & D1 & M1 & A1 & F1 & C1). rewrite E1.
  destruct (sensor_healthy D b1 t rc oc H T N C1) as (b2 & n2 & a1 & c0 & c1 & m3 & m4 & m5 & E2 & V2 & D2 & M2 & A2 & F2 & C2). rewrite E2.
  destruct (sensor_healthy D b2 t rr or H T N C2) as (b3 & n3 & a2 & r0 & r1 & m6 & m7 & m8 & E3 & V3 & D3 & M3 & A3 & F3 & C3). rewrite E3.
  exists b3, (n1 ++ n2 ++ n3), a0, l0, l1, a1, c0, c1, a2, r0, r1. split; [reflexivity|]. split; [rewrite V3, V2, V1, <- !app_assoc; reflexivity|].
  split; [apply all_to_app; [exact A1|]; apply all_to_app; assumption|]. rewrite !delivered_app, D1, D2, D3, <- M1, <- M2, <- M3. split; reflexivity.
Qed.
Definition hat4 : target := {| t_addr := 0x14; t_clock := 72000000; t_swap := true |}.
Definition byte_reply (x : Z) : answer := ADone {| r_byte := x; r_word := 0; r_block := repeat 0 34 |}.
(** A device that counts *)
Definition counting (n : nat) : answer := byte_reply (Z.of_nat n mod 256).
Example C110_values_ex : healthy counting /\ typed_device counting /\ option_map fst (get_values counting (bus_new true) hat4 0x12 0x11 0x10 (9, 9, 9)) = Some (2 * 256 + 3, 5 * 256 + 6, 8 * 256 + 9).
Proof.
  split; [intro n; eexists; reflexivity|]. split; [|vm_compute; reflexivity]. intros n r E. injection E as <-. cbn. split; [apply Z.mod_pos_bound; lia|lia].
Qed.
(** False: "a value is that of its sensor".  If the message that asks for the center sensor fails, what the left sensor says is stored for the center, and nothing is reported
    (with a log as well as without): the message to register 0x11 failed, nothing but register 0x12 was ever selected when the value 772 was read. *)
Definition answers110 (n : nat) : answer := match n with 4%nat => AFail | 5%nat => byte_reply 3 | 6%nat => byte_reply 4 | _ => byte_reply 1 end.
Theorem C110_wrong_sensor_refuted : exists D v b' l r, get_values D (bus_new true) hat4 0x12 0x11 0x10 (9, 9, 9) = Some (v, b') /\ v = (l, 772, r) /\
  exists e0 e1 e2 e3 x y rest, evs b' = [e0; e1; e2; e3; EXfer (Some 0x14) {| m_write := true; m_cmd := 0x11; m_kind := KWordData; m_data := PWord 0 |} None; EXfer (Some 0x14) x (Some y)] ++ rest /\
  e1 = EXfer (Some 0x14) {| m_write := true; m_cmd := 0x12; m_kind := KWordData; m_data := PWord 0 |} (Some {| r_byte := 1; r_word := 0; r_block := repeat 0 34 |}) /\ m_write x = false /\ r_byte y = 3.
Proof.
  exists answers110. do 4 eexists. split; [vm_compute; reflexivity|]. split; [reflexivity|]. do 7 eexists. cbn [evs]. split; [reflexivity|]. split; [reflexivity|]. split; reflexivity.
Qed.
(** False: "after the call the variables hold values of the sensors".  On a bus that does not answer they keep what they held; nothing is reported. *)
Theorem C110_dead_refuted : exists D b', get_values D (bus_new true) hat4 0x12 0x11 0x10 (9, 8, 7) = Some (9, 8, 7, b') /\ delivered (evs b') = [].
Proof. exists (fun _ => AFail). eexists. split; vm_compute; reflexivity. Qed.
(** Without a log they are set to 0 then. *)
Theorem C110_dead_no_log_refuted : exists D b', get_values D (bus_new false) hat4 0x12 0x11 0x10 (9, 8, 7) = Some (0, 0, 0, b') /\ delivered (evs b') = [].
Proof. exists (fun _ => AFail). eexists. split; vm_compute; reflexivity. Qed.

Print Assumptions C109_made.
Print Assumptions C109_null.
Print Assumptions C109_position.
Print Assumptions C109_info.
Print Assumptions C109_bus_partial.
Print Assumptions C109_leak_refuted.
Print Assumptions C110_values_partial.
Print Assumptions C110_wrong_sensor_refuted.
Print Assumptions C110_dead_refuted.
Print Assumptions C110_dead_no_log_refuted.
