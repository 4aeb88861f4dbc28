(** C55-C57, C63, C64: the SMBus, PWM registers, calibration and the tracker thread. *)

From Coq Require Import ZArith List Bool Lia.
From Verif Require Import Base ListMem Smbus_Model Smbus_Spec Smbus_Proofs.
Import ListNotations.
Open Scope Z_scope.

(** Devices and targets for the examples *)
Definition rep (b w : Z) (l : list Z) : reply := {| r_byte := b; r_word := w; r_block := l ++ repeat 0 (34 - length l) |}.
Definition answers (l : list answer) (n : nat) : answer := nth n l AFail.
Definition hat : target := {| t_addr := 0x14; t_clock := 72000000; t_swap := true |}.
Definition motion : target := {| t_addr := 0x68; t_clock := 1000; t_swap := false |}.
Lemma answers_locks : forall l, Forall (fun a => a <> ALock) l -> locks_work (answers l).
Proof.
  intros l F n. unfold answers. destruct (nth_in_or_default n l AFail) as [I|E].
  - rewrite Forall_forall in F. apply F, I.
  - rewrite E. discriminate.
Qed.
Lemma answers_typed : forall l, Forall (fun a => match a with ADone r => 0 <= r_byte r < 256 /\ 0 <= r_word r < 65536 | _ => True end) l -> typed_device (answers l).
Proof.
  intros l F n r E. unfold answers in E. destruct (nth_in_or_default n l AFail) as [I|E'].
  - rewrite Forall_forall in F. specialize (F _ I). rewrite E in F. exact F.
  - congruence.
Qed.
Lemma answers_good : forall l, Forall (fun a => match a with ADone r => exists k rest, r_block r = k :: rest /\ length rest = 33%nat /\ 0 <= k <= 32 | _ => True end) l -> good_device (answers l).
Proof.
  intros l F n r E. unfold answers in E. destruct (nth_in_or_default n l AFail) as [I|E'].
  - rewrite Forall_forall in F. specialize (F _ I). rewrite E in F. exact F.
  - congruence.
Qed.

(** ** C55 *)
(** With a log, locks that work and a device that keeps to 32 byte blocks: no call touches memory it
    must not touch; a call returns false if any system call it made failed, and then it stores
    nothing; it returns true only if exactly its messages were delivered, and then it stores what
    the device answered.  Missing: objects without a log, see the refutations. *)
Theorem C55_reported_partial : forall D b o, has_log b = true -> locks_work D -> good_device D -> typed_device D -> op_ok o ->
  exists ret out b' new, run D b o = Ret ret out b' /\ evs b' = evs b ++ new /\
    ((exists e, In e new /\ event_failed e) -> ret = false) /\ (ret = false -> out = SNone) /\
    (ret = true -> map fst (delivered new) = op_messages o /\ out = op_value o (map snd (delivered new))).
Proof.
  intros D b o W L G T O. destruct (run_spec D b o L G T O) as [R P]. destruct (R W) as (ret & out & b' & E).
  destruct (P _ _ _ E) as (_ & new & EV & A & _). destruct (A W) as (A1 & A2 & A3). exists ret, out, b', new. auto 10.
Qed.
(** A block that fits is sent as it is, a larger one refused without anything sent. *)
Theorem C55_block_limit : forall D b t reg block, has_log b = true -> locks_work D -> good_device D -> typed_device D -> 32 < zlen block ->
  run D b (PutBlock t reg block) = Ret false SNone b.
Proof.
  intros D b t reg block W _ _ _ Z0. cbn [run]. unfold put_block, block_max. rewrite W. destruct (Z.ltb_spec 32 (zlen block)); [reflexivity|lia].
Qed.
Definition dev55 : nat -> answer := answers [ADone (rep 0 0 [0]); ADone (rep 7 0x1234 [3; 10; 20; 30; 40])].
Example C55_reported_ex : locks_work dev55 /\ good_device dev55 /\ typed_device dev55 /\
  match run dev55 (bus_new true) (GetBlock motion 5 8) with Ret r o b => r = true /\ o = SBlock [10; 20; 30] /\ addr b = 0x68 | Undef => False end /\
  match run dev55 (bus_new true) (GetBlock motion 5 2) with Ret r o _ => r = false /\ o = SNone | Undef => False end /\
  match run dev55 (bus_new true) (GetWord hat 5) with Ret r o _ => r = true /\ o = SWord 0x3412 | Undef => False end /\
  match run dev55 (bus_new true) (GetNoreg2 hat) with Ret r o _ => r = false /\ o = SNone | Undef => False end.
Proof.
  split; [|split; [|split]].
  - apply answers_locks. repeat (constructor; [discriminate|]). constructor.
  - apply answers_good. constructor; [|constructor; [|constructor]]; (eexists _, _; split; [reflexivity|split; [reflexivity|lia]]).
  - apply answers_typed. constructor; [|constructor; [|constructor]]; cbn; lia.
  - vm_compute. repeat split; reflexivity.
Qed.
(** Without a log every call reports success, whatever failed. *)
Theorem C55_no_log_true : forall D b o ret out b', has_log b = false -> locks_work D -> good_device D -> typed_device D -> op_ok o ->
  run D b o = Ret ret out b' -> ret = true.
Proof.
  intros D b o ret out b' W L G T O E. destruct (run_spec D b o L G T O) as [_ P]. destruct (P _ _ _ E) as (_ & new & _ & _ & A & _). exact (A W).
Qed.
Example C55_no_log_true_ex : match run (answers []) (bus_new false) (PutByte hat 1 2) with Ret r _ b => r = true /\ delivered (evs b) = [] | Undef => False end.
Proof. vm_compute. split; reflexivity. Qed.
Theorem C55_no_log_refuted : exists D o b', locks_work D /\ run D (bus_new false) o = Ret true SNone b' /\
  evs b' = [ESelect 0x14 false; EXfer None {| m_write := true; m_cmd := 1; m_kind := KByteData; m_data := PByte 2 |} None].
Proof.
  exists (answers []), (PutByte hat 1 2). eexists. split; [apply answers_locks; constructor|]. split; vm_compute; reflexivity.
Qed.
(** Without a log a block of 34 bytes is copied over the end of the 34 byte union; a device that
    answers with more than the caller has room for overruns the caller's block. *)
Theorem C55_put_overflow_refuted : exists D block, length block = 34%nat /\ run D (bus_new false) (PutBlock hat 1 block) = Undef.
Proof. exists (answers []), (repeat 7 34). split; vm_compute; reflexivity. Qed.
Theorem C55_get_overflow_refuted : exists D, good_device D /\ locks_work D /\ run D (bus_new false) (GetBlock motion 5 2) = Undef.
Proof.
  exists dev55. destruct C55_reported_ex as (L & G & _). split; [exact G|]. split; [exact L|]. vm_compute. reflexivity.
Qed.
(** If locking the mutex throws, ENOLCK is taken for success although nothing was sent. *)
Theorem C55_lock_refuted : exists D b', run D (bus_new true) (PutByte hat 1 2) = Ret true SNone b' /\ evs b' = [].
Proof. exists (answers [ALock; ALock]). eexists. split; vm_compute; reflexivity. Qed.

(** ** C56 *)
(** Calls made one after the other on a bus with a log: every message of every call goes to the
    target of that call, whatever fails.  Missing: address 0, several threads, no log. *)
Theorem C56_sequential_partial : forall D l, locks_work D -> good_device D -> typed_device D -> Forall op_ok l -> Forall (fun o => t_addr (op_target o) <> 0) l ->
  exists res, run_all D (bus_new true) l = Some res /\ map fst res = l /\ Forall (fun p => all_to (t_addr (op_target (fst p))) (snd p)) res.
Proof. intros D l L G T O N. apply run_all_spec; auto. left. reflexivity. Qed.
Definition dev56 : nat -> answer := answers [ADone (rep 0 0 [0]); ADone (rep 1 2 [0]); AFail; ADone (rep 1 2 [0]); ADone (rep 1 2 [0]); ADone (rep 1 2 [0])].
Example C56_sequential_ex :
  run_all dev56 (bus_new true) [PutByte hat 1 2; GetByte motion 3; GetByte hat 4; PutNodata motion 5] =
  Some [(PutByte hat 1 2, [ESelect 0x14 true; EXfer (Some 0x14) {| m_write := true; m_cmd := 1; m_kind := KByteData; m_data := PByte 2 |} (Some (rep 1 2 [0]))]);
        (GetByte motion 3, [ESelect 0x68 false]);
        (GetByte hat 4, [EXfer (Some 0x14) {| m_write := false; m_cmd := 4; m_kind := KByteData; m_data := PByte 0 |} (Some (rep 1 2 [0]))]);
        (PutNodata motion 5, [ESelect 0x68 true; EXfer (Some 0x68) {| m_write := true; m_cmd := 5; m_kind := KByte; m_data := PNone |} (Some (rep 1 2 [0]))])].
Proof. vm_compute. reflexivity. Qed.
(** Without a log the same holds for the calls whose selection succeeded ... *)
Theorem C56_no_log_partial : forall D l res, locks_work D -> good_device D -> typed_device D -> Forall op_ok l -> run_all D (bus_new false) l = Some res ->
  Forall (fun p => ~ In (ESelect (t_addr (op_target (fst p))) false) (snd p) -> all_to (t_addr (op_target (fst p))) (snd p)) res.
Proof. intros D l res L G T O H. apply (run_all_nolog D L G T l (bus_new false)); auto. Qed.
Example C56_no_log_ex : match run_all dev56 (bus_new false) [PutByte hat 1 2; PutByte motion 3 4] with Some res => length res = 2%nat | None => False end.
Proof. vm_compute. reflexivity. Qed.
(** ... but if the selection fails the message goes to the target used before. *)
Theorem C56_no_log_refuted : exists D l res m r, run_all D (bus_new false) l = Some res /\
  nth_error res 1 = Some (PutByte motion 3 4, [ESelect 0x68 false; EXfer (Some 0x14) m (Some r)]).
Proof. exists dev56, [PutByte hat 1 2; PutByte motion 3 4]. eexists _, _, _. split; vm_compute; reflexivity. Qed.
(** The first message to address 0 is sent although no address was ever selected. *)
Theorem C56_address_zero_refuted : exists D b' m r, let t := {| t_addr := 0; t_clock := 1000; t_swap := false |} in
  run D (bus_new true) (PutByte t 1 2) = Ret true SNone b' /\ evs b' = [EXfer None m (Some r)].
Proof. exists dev56. eexists _, _, _. split; vm_compute; reflexivity. Qed.
(** Threads that all use the same target (other than 0), with a log: whatever the interleaving, all
    messages reach it. *)
Theorem C56_same_target : forall D a ths sched, locks_work D -> a <> 0 -> (forall th, In th ths -> t_addr (th_target th) = a /\ th_pc th = PcCompare) ->
  forall i to, In (i, to) (s_sent (sys_run D {| s_bus := bus_new true; s_threads := ths; s_sent := [] |} sched)) -> to = Some a.
Proof.
  intros D a ths sched L N T i to I.
  assert (V : sys_inv a {| s_bus := bus_new true; s_threads := ths; s_sent := [] |}).
  { split; [reflexivity|]. split; [intros th K; apply T, K|]. split; [intro K; elim N; symmetry; exact K|]. split; [|intros ? ? []].
    intros th K [H|H]; destruct (T th K) as [_ E]; cbn in *; congruence. }
  destruct (sys_run_inv D a sched _ L V) as (_ & _ & _ & _ & S0). exact (S0 i to I).
Qed.
Definition thr (t : target) : thread := {| th_target := t; th_msg := {| m_write := true; m_cmd := 1; m_kind := KByteData; m_data := PByte 2 |}; th_pc := PcCompare |}.
Definition alldone (n : nat) : answer := ADone (rep 0 0 [0]).
Example C56_same_target_ex :
  s_sent (sys_run alldone {| s_bus := bus_new true; s_threads := [thr hat; thr hat]; s_sent := [] |} [0; 1; 0; 1; 1; 1; 0; 0]%nat) = [(1%nat, Some 0x14); (0%nat, Some 0x14)].
Proof. vm_compute. reflexivity. Qed.
(** Threads with different targets: the first thread's message reaches the second thread's target. *)
Theorem C56_threads_refuted : exists sched, forall D, D = alldone ->
  s_sent (sys_run D {| s_bus := bus_new true; s_threads := [thr hat; thr motion]; s_sent := [] |} sched) = [(0%nat, Some 0x68)].
Proof. exists [0; 0; 0; 1; 1; 0]%nat. intros D ->. vm_compute. reflexivity. Qed.
(** The damage can last: after both calls have ended _addr names one target and the kernel's
    selection the other, so that later calls of a single thread go astray as well. *)
Theorem C56_stale_refuted : exists sched, let s := sys_run alldone {| s_bus := bus_new true; s_threads := [thr hat; thr motion]; s_sent := [] |} sched in
  map th_pc (s_threads s) = [PcEnd true; PcEnd true] /\ addr (s_bus s) = 0x14 /\ fd_addr (s_bus s) = Some 0x68 /\
  exists b' m r, run alldone (s_bus s) (PutByte hat 1 2) = Ret true SNone b' /\ evs b' = evs (s_bus s) ++ [EXfer (Some 0x68) m (Some r)].
Proof.
  exists [0; 1; 0; 1; 1; 1; 0; 0]%nat. split; [vm_compute; reflexivity|]. split; [vm_compute; reflexivity|]. split; [vm_compute; reflexivity|].
  eexists _, _, _. split; vm_compute; reflexivity.
Qed.
(** Byte swapping is its own inverse: the word that was put is the word that is got when the device
    returns what was transmitted; with swapping the high byte is the low byte of what is transmitted. *)
Theorem C56_word : forall t reg reg' w D b b1 D' b' ret out b2, locks_work D -> good_device D -> typed_device D -> locks_work D' -> good_device D' -> typed_device D' ->
  has_log b = true -> has_log b' = true -> 0 <= w < 65536 ->
  run D b (PutWord t reg w) = Ret true SNone b1 -> run D' b' (GetWord t reg') = Ret ret out b2 -> ret = true ->
  exists new new' m r m' r', evs b1 = evs b ++ new /\ delivered new = [(m, r)] /\ evs b2 = evs b' ++ new' /\ delivered new' = [(m', r')] /\ (m_data m = PWord (r_word r') -> out = SWord w).
Proof.
  intros t reg reg' w D b b1 D' b' ret out b2 L G T L' G' T' W W' B E E' ->.
  destruct (run_spec D b (PutWord t reg w) L G T B) as [_ P]. destruct (P _ _ _ E) as (_ & new & EV & A & _). destruct (A W) as (_ & _ & A1). destruct (A1 eq_refl) as [A2 _].
  destruct (run_spec D' b' (GetWord t reg') L' G' T' I) as [_ P']. destruct (P' _ _ _ E') as (_ & new' & EV' & A' & _). destruct (A' W') as (_ & _ & A1'). destruct (A1' eq_refl) as [A2' A3'].
  destruct (delivered new) as [|[m r] [|]] eqn:N; try discriminate A2. destruct (delivered new') as [|[m' r'] [|]] eqn:N'; try discriminate A2'.
  exists new, new', m, r, m', r'. repeat (split; [assumption|]). intro K. cbn [map fst snd op_messages op_value] in *. injection A2 as ->. cbn [m_data] in K.
  injection K as K. rewrite A3', <- K. destruct (t_swap t); [rewrite swapped_swapped by exact B; reflexivity|reflexivity].
Qed.
Example C56_word_ex : match run alldone (bus_new true) (PutWord hat 1 0x1234), run (fun _ => ADone (rep 0 0x3412 [0])) (bus_new true) (GetWord hat 2) with
  | Ret r _ b, Ret r' o _ => r = true /\ r' = true /\ o = SWord 0x1234 /\ map (fun p => m_data (fst p)) (delivered (evs b)) = [PWord 0x3412] | _, _ => False end.
Proof. vm_compute. repeat split; reflexivity. Qed.
Theorem C56_swap : forall w, 0 <= w < 65536 -> 0 <= swap_bytes w < 65536 /\ swap_bytes (swap_bytes w) = w /\
  swap_bytes w mod 256 = w / 256 /\ swap_bytes w / 256 = w mod 256.
Proof.
  intros w W. rewrite (swap_swapped w W). assert (R := swapped_range w W). rewrite (swap_swapped _ R), (swapped_swapped w W).
  assert (0 <= w mod 256 < 256) by (apply Z.mod_pos_bound; lia).
  assert (0 <= w / 256 < 256) by (split; [apply Z.div_pos; lia|apply Z.div_lt_upper_bound; lia]).
  split; [exact R|]. split; [reflexivity|]. unfold swapped. split.
  - symmetry. apply Z.mod_unique with (w mod 256); lia.
  - symmetry. apply Z.div_unique with (w / 256); lia.
Qed.
Example C56_swap_ex : swap_bytes 0x1234 = 0x3412.
Proof. reflexivity. Qed.

(** ** C57 *)
(** For periods from 2^18 up to 4259905000 clock ticks both registers are computed without a
    division by zero, they fit 16 bits, and prescaler * auto-reload is the largest multiple of
    auto-reload that does not exceed the period.  Missing: other periods. *)
Theorem C57_registers_partial : forall clk mn mx freq, 0 < freq -> 262144 <= clk / freq < 4259905000 ->
  exists p, pwm_new clk mn mx freq = Some p /\ 1 <= autoreload p <= 65536 /\ 1 <= prescaler p <= 65536 /\
    pwm_regs p = (autoreload p - 1, prescaler p - 1) /\
    autoreload p * prescaler p <= clk / freq < autoreload p * (prescaler p + 1).
Proof.
  intros clk mn mx freq F B. destruct (pwm_new_some clk mn mx freq F B) as (p & E & PE & _ & A & PS & P & _). exists p. split; [exact E|].
  split; [lia|]. split; [exact P|]. split.
  - unfold pwm_regs, wrap_u16, wrap_u64. rewrite !(Z.mod_small _ (2 ^ 64)) by lia. rewrite !Z.mod_small by lia. reflexivity.
  - rewrite PS, PE. assert (D := Z.div_mod (clk / freq) (autoreload p) ltac:(lia)). assert (M := Z.mod_pos_bound (clk / freq) (autoreload p) ltac:(lia)). lia.
Qed.
Example C57_registers_ex : match pwm_new 72000000 500 2500 50 with
  | Some p => pwm_regs p = (1999, 719) /\ min_w p = 50 /\ max_w p = 250 /\ capture_word p 50 = 150 | None => False end.
Proof. vm_compute. repeat split; reflexivity. Qed.
(** Shorter periods, that is for a 72 MHz clock frequencies from 275 Hz, divide by zero. *)
Theorem C57_short_period : forall clk mn mx freq, 0 < freq -> 0 <= clk -> clk / freq < 262144 -> pwm_new clk mn mx freq = None.
Proof.
  intros clk mn mx freq F C B. unfold pwm_new. assert (0 <= clk / freq) by (apply Z.div_pos; lia).
  destruct (autoreload_cases (clk / freq)) as [[? E]|[[? E]|[[? E]|[[? E]|[[? E]|[[? E]|[[? E]|[? E]]]]]]]]; try (cbn in *; lia).
  rewrite E. destruct (if mx =? 0 then _ else _) as [a c]. destruct (Z.eqb_spec freq 0); [lia|reflexivity].
Qed.
Theorem C57_short_period_refuted : exists clk freq, clk = 72000000 /\ freq = 1000 /\ pwm_new clk 0 0 freq = None.
Proof. exists 72000000, 1000. repeat split; vm_compute; reflexivity. Qed.
(** Long periods: the value written to a register is not the one computed. *)
Theorem C57_long_period_refuted : exists clk p, pwm_new clk 0 0 1 = Some p /\ snd (pwm_regs p) <> prescaler p - 1.
Proof. exists 4259905000. eexists. split; [vm_compute; reflexivity|vm_compute; discriminate]. Qed.
(** The capture value lies between 0 and auto-reload, is written unchanged, grows with the duty cycle, is 0 for 0 and auto-reload
    for 100: without pulse widths always, with pulse widths if the shorter is given first and the longer is at most auto-reload * prescaler
    clock ticks.  Missing: pulse widths close to the period. *)
Theorem C57_capture_partial : forall clk mn mx freq p, 0 < freq -> 0 <= clk -> 262144 <= clk / freq < 4259905000 -> pwm_new clk mn mx freq = Some p ->
  (mn = 0 /\ mx = 0) \/ (0 <= mn <= mx /\ mx * clk < 2 ^ 64 /\ mx * clk / 1000000 <= autoreload p * prescaler p) ->
  (forall d, 0 <= d -> 0 <= capture p d <= autoreload p /\ capture_word p d = capture p d) /\
  (forall d d', 0 <= d <= d' -> capture p d <= capture p d') /\ capture p 0 = 0 /\ (forall d, 100 <= d -> capture p d = autoreload p).
Proof.
  intros clk mn mx freq p F C B E H. destruct (pwm_new_some clk mn mx freq F B) as (p' & E' & _ & _ & A & _ & P & M). rewrite E in E'. injection E' as <-.
  assert (W : 0 <= min_w p <= max_w p /\ max_w p <= autoreload p <= 65000).
  { destruct M as (M1 & M2 & M3). destruct H as [[-> ->]|(N & O & L)]; [destruct (M1 eq_refl) as [-> ->]; lia|].
    assert (K : forall x, 0 <= x <= mx -> wrap_u64 (x * clk) = x * clk) by (intros x X; apply Z.mod_small; nia).
    rewrite !K in M2, M3 by lia. destruct (Z.eqb_spec mx 0) as [Q|Q].
    - destruct (M1 Q) as [-> ->]. lia.
    - assert (LE : mn * clk / 1000000 <= mx * clk / 1000000) by (apply div_mono; nia).
      assert (PO : 0 <= mn * clk / 1000000) by (apply Z.div_pos; nia).
      destruct (Z.eqb_spec (mx * clk / 1000000) 0) as [Q2|Q2].
      + destruct (M2 Q Q2) as [-> ->]. lia.
      + destruct (M3 Q Q2) as [-> ->]. split; [split; [apply Z.div_pos; lia|apply div_mono; lia]|].
        split; [|lia]. apply Z.div_le_upper_bound; lia. }
  destruct W as [W1 W2]. split; [|split; [|split]].
  - intros d Dd. assert (K := capture_bounds p d W1 W2 Dd). split; [exact K|]. apply Z.mod_small. lia.
  - intros d d' Dd. apply capture_mono; assumption.
  - reflexivity.
  - intros d Dd. unfold capture. destruct (Z.ltb_spec d 0); [lia|]. destruct (Z.ltb_spec 100 d); [reflexivity|]. replace d with 100 by lia. reflexivity.
Qed.
Example C57_capture_ex : match pwm_new 72000000 500 2500 50 with
  | Some p => 2500 * 72000000 / 1000000 <= autoreload p * prescaler p /\ map (capture p) [0; 1; 50; 99; 100; 700] = [0; 52; 150; 248; 2000; 2000] | None => False end.
Proof. vm_compute. split; [discriminate|reflexivity]. Qed.
(** A pulse width equal to the period: the capture value exceeds auto-reload and drops at 100. *)
Theorem C57_capture_refuted : exists clk us freq p, pwm_new clk us us freq = Some p /\ us * freq = 1000000 /\
  autoreload p < capture p 50 /\ capture p 100 < capture p 50.
Proof. exists 26299900, 10000, 100. eexists. split; [vm_compute; reflexivity|]. split; [reflexivity|]. split; vm_compute; reflexivity. Qed.

(** ** C63 *)
(** The calibration is the mean (rounded towards 0) of the 20 samples taken, if all partial sums fit 16 bits.  Missing: other samples. *)
Theorem C63_mean_partial : forall skip taken, length skip = 5%nat -> length taken = 20%nat ->
  (forall k, -32768 <= zsum (firstn k taken) <= 32767) -> calibrate (skip ++ taken) = Z.quot (zsum taken) 20.
Proof.
  intros skip taken Ls Lt B. unfold calibrate. rewrite firstn_all2 by (rewrite app_length; lia). rewrite <- Ls, skipn_evs.
  rewrite sum_exact by (intro k; rewrite Z.add_0_l; apply B). rewrite Z.add_0_l. apply wrap_s16_id.
  assert (K := B 20%nat). rewrite firstn_all2 in K by lia. split; [apply Z.quot_le_lower_bound; lia|]. apply Z.quot_le_upper_bound; lia.
Qed.
Example C63_mean_ex : calibrate ([1000; 2000; 3000; 4000; 5000] ++ repeat (-100) 10 ++ repeat 151 10) = 25.
Proof. vm_compute. reflexivity. Qed.
(** The calibration never leaves -1638..1638, so it is wrong for every channel whose mean does. *)
Theorem C63_bound : forall samples, -1638 <= calibrate samples <= 1638.
Proof. exact calibrate_range. Qed.
Example C63_bound_ex : calibrate (repeat 1638 25) = 1638.
Proof. vm_compute. reflexivity. Qed.
(** At rest the vertical channel reads 1 g = 32767 / 16 = 2047 all the time. *)
Theorem C63_gravity_refuted : exists samples, samples = repeat 2047 25 /\ calibrate samples = -1229.
Proof. eexists. split; [reflexivity|vm_compute; reflexivity]. Qed.

(** ** C64 *)
(** The destructor of the tracker has set the flag and is about to notify, and the thread is not between its decision to wait and its
    waiting.  Then in every interleaving at most four more steps are made, there is always a next one until the destructor has returned,
    and when it has, the thread has ended.  Missing: the other states, from which it can wait for ever (C64_destroy_refuted). *)
Theorem C64_destroy_partial : forall k l k', k_owner k = ODtor1 -> k_quit k = true ->
  (k_pc k = TWait \/ k_pc k = TWoken \/ k_pc k = TMeasure \/ k_pc k = TTop \/ k_pc k = TDone) -> tracker_run k l = Some k' ->
  (length l <= 4)%nat /\ (k_owner k' = OGone -> k_pc k' = TDone) /\ (k_owner k' = OGone \/ exists w, tracker_step k' w <> None).
Proof. exact destroyed. Qed.
Example C64_destroy_ex : match tracker_run tracker_new [WThread; WThread; WThread; WStart1; WStart2; WThread; WThread; WDtor] with
  | Some k => k_owner k = ODtor1 /\ k_quit k = true /\ k_pc k = TTop | None => False end.
Proof. vm_compute. repeat split; reflexivity. Qed.
(** It waits for ever if the tracker is destroyed within the 200 ms in which its thread sleeps: then nobody can make another step. *)
Theorem C64_destroy_refuted : exists l k, tracker_run tracker_new l = Some k /\ k_quit k = true /\ k_owner k = OJoin /\ (forall w, tracker_step k w = None).
Proof.
  exists [WThread; WDtor; WDtor; WThread; WThread]. eexists. split; [reflexivity|]. split; [reflexivity|]. split; [reflexivity|]. intros []; reflexivity.
Qed.
(** The same for start(): the tracker is told to run but its thread never measures unless start() is called once more. *)
Theorem C64_start_refuted : exists l k, tracker_run tracker_new l = Some k /\ k_run k = true /\ k_pc k = TWait /\ tracker_step k WThread = None.
Proof. exists [WThread; WStart1; WStart2; WThread; WThread]. eexists. repeat (split; [reflexivity|]). reflexivity. Qed.

(** If the thread is measuring, waiting or at the top of its loop when start() notifies, it measures within two of its steps. *)
Theorem C64_start_partial : forall k, k_owner k = ORun -> k_quit k = false -> k_run k = true -> (k_pc k = TWait \/ k_pc k = TWoken \/ k_pc k = TMeasure \/ k_pc k = TTop) ->
  exists n k', (n <= 2)%nat /\ tracker_run k (WStart2 :: repeat WThread n) = Some k' /\ k_pc k' = TMeasure /\ k_run k' = true.
Proof.
  intros [run q p o] O Q R H. cbn in *. subst. destruct H as [->|[->|[-> | ->]]].
  - exists 1%nat. eexists. split; [repeat constructor|]. repeat split; reflexivity.
  - exists 1%nat. eexists. split; [repeat constructor|]. repeat split; reflexivity.
  - exists 0%nat. eexists. split; [repeat constructor|]. repeat split; reflexivity.
  - exists 1%nat. eexists. split; [repeat constructor|]. repeat split; reflexivity.
Qed.
Example C64_start_ex : match tracker_run tracker_new [WThread; WThread; WThread; WStart1] with
  | Some k => k_owner k = ORun /\ k_quit k = false /\ k_run k = true /\ k_pc k = TWait | None => False end.
Proof. vm_compute. repeat split; reflexivity. Qed.

Print Assumptions C55_reported_partial.
Print Assumptions C55_block_limit.
Print Assumptions C55_no_log_true.
Print Assumptions C55_no_log_refuted.
Print Assumptions C55_put_overflow_refuted.
Print Assumptions C55_get_overflow_refuted.
Print Assumptions C55_lock_refuted.
Print Assumptions C56_sequential_partial.
Print Assumptions C56_no_log_partial.
Print Assumptions C56_no_log_refuted.
Print Assumptions C56_address_zero_refuted.
Print Assumptions C56_same_target.
Print Assumptions C56_threads_refuted.
Print Assumptions C56_stale_refuted.
Print Assumptions C56_word.
Print Assumptions C56_swap.
Print Assumptions C57_registers_partial.
Print Assumptions C57_short_period.
Print Assumptions C57_short_period_refuted.
Print Assumptions C57_long_period_refuted.
Print Assumptions C57_capture_partial.
Print Assumptions C57_capture_refuted.
Print Assumptions C63_mean_partial.
Print Assumptions C63_bound.
Print Assumptions C63_gravity_refuted.
Print Assumptions C64_destroy_partial.
Print Assumptions C64_destroy_refuted.
Print Assumptions C64_start_refuted.
Print Assumptions C64_start_partial.
