(** Proofs about the motion sensor (C120). *)

From Coq Require Import ZArith QArith Qabs List Bool Lia ZifyBool.
From Verif Require Import Base ListMem Smbus_Model Smbus_Spec Smbus_Proofs Smbus_Props Sensors_Spec Sensors_Proofs Motion_Model Motion_Spec.
Import ListNotations.
Open Scope list_scope.
Open Scope Z_scope.

Lemma land_bit : forall m n, 0 <= n -> (Z.land m (2 ^ n) =? 0) = negb (Z.testbit m n).
Proof.
  intros m n H. destruct (Z.testbit m n) eqn:E; cbn.
  - apply Z.eqb_neq. intros A. assert (Z.testbit (Z.land m (2 ^ n)) n = false) as B by (rewrite A; apply Z.bits_0). rewrite Z.land_spec, E, Z.pow2_bits_true in B by exact H. discriminate.
  - apply Z.eqb_eq. apply Z.bits_inj'. intros i Hi. rewrite Z.land_spec, Z.bits_0, Z.pow2_bits_eqb by exact H. destruct (Z.eqb_spec n i) as [<-|]; [rewrite E; reflexivity|apply andb_false_r].
Qed.
Lemma said_word : forall t w, 0 <= w < 65536 -> wrap_s16 (if t_swap t then swap_bytes w else w) = said t w.
Proof.
  intros t w W. unfold said. assert (0 <= (if t_swap t then swapped w else w) < 65536) as R by (destruct (t_swap t); [apply swapped_range, W|exact W]).
  replace (if t_swap t then swap_bytes w else w) with (if t_swap t then swapped w else w) by (destruct (t_swap t); [rewrite swap_swapped by exact W|]; reflexivity).
  set (x := if t_swap t then swapped w else w) in *. cbv zeta. unfold wrap_s16. change (2 ^ 15) with 32768. change (2 ^ 16) with 65536. destruct (Z.ltb_spec x 32768).
  - rewrite Z.mod_small by lia. lia.
  - replace (x + 32768) with (x - 32768 + 1 * 65536) by lia. rewrite Z_mod_plus_full, Z.mod_small by lia. lia.
Qed.
Lemma said_range : forall t w, 0 <= w < 65536 -> -32768 <= said t w <= 32767.
Proof.
  intros t w W. unfold said. assert (0 <= (if t_swap t then swapped w else w) < 65536) as R by (destruct (t_swap t); [apply swapped_range, W|exact W]).
  set (x := if t_swap t then swapped w else w) in *. cbv zeta. destruct (Z.ltb_spec x 32768); lia.
Qed.

Section Healthy.
Variables (D : nat -> answer) (t : target).
Hypothesis H : healthy D.
Hypothesis T : typed_device D.
Hypothesis N : t_addr t <> 0.
Notation ask_reg reg := {| m_write := false; m_cmd := reg; m_kind := KWordData; m_data := PWord 0 |}.
Notation in_mask mask := (fun c : Z * Z => negb (Z.land mask (fst c) =? 0)).

Lemma measure_healthy : forall mask cs b temp, NoDup (map snd cs) -> consistent b ->
  exists w b' new, measure D b t mask cs temp = Some (map (fun c => if Z.land mask (fst c) =? 0 then 0 else said t (r_word (w (snd c)))) cs, b') /\
  evs b' = evs b ++ new /\ delivered new = map (fun c => (ask_reg (snd c), w (snd c))) (filter (in_mask mask) cs) /\ all_to (t_addr t) new /\ consistent b' /\
  forall reg, 0 <= r_word (w reg) < 65536.
Proof.
  intros mask cs. induction cs as [|(bit, reg) cs IH]; intros b temp Nd C.
  - destruct (H O) as (r & E). exists (fun _ => r), b, []. split; [reflexivity|]. split; [now rewrite app_nil_r|]. split; [reflexivity|]. split; [intros ? ? ? []|]. split; [exact C|]. intros _. apply (T _ _ E).
  - inversion Nd as [|? ? Ni Nd']; subst. cbn [measure map filter fst snd]. destruct (Z.land mask bit =? 0) eqn:E; cbn [negb].
    + destruct (IH b temp Nd' C) as (w & b' & new & Em & R). exists w, b', new. rewrite Em. split; [reflexivity|exact R].
    + unfold get_word. destruct (transfer_healthy D b t (ask_reg reg) H N C) as (r & b1 & n1 & E1 & V1 & D1 & A1 & F1 & C1 & (k & Q) & L1). rewrite E1.
      destruct (T _ _ Q) as (_ & W). set (x := if t_swap t then swap_bytes (r_word r) else r_word r).
      destruct (IH b1 (Some x) Nd' C1) as (w & b' & new & Em & V & Dn & A & C' & B). rewrite Em.
      exists (fun q => if q =? reg then r else w q), b', (n1 ++ new). rewrite Z.eqb_refl. unfold x. rewrite said_word by exact W.
      assert (forall c, In c cs -> (if snd c =? reg then r else w (snd c)) = w (snd c)) as K.
      { intros c I. destruct (Z.eqb_spec (snd c) reg) as [K|]; [|reflexivity]. exfalso. apply Ni. rewrite <- K. apply in_map, I. }
      split. { f_equal. f_equal. f_equal. apply map_ext_in. intros c I. rewrite (K c I). reflexivity. }
      split; [rewrite V, V1, app_assoc; reflexivity|]. split.
      { rewrite delivered_app, D1, Dn. cbn [app map fst snd]. rewrite Z.eqb_refl. f_equal. apply map_ext_in. intros c I. apply filter_In in I as (I & _). rewrite (K c I). reflexivity. }
      split; [apply all_to_app; assumption|]. split; [exact C'|]. intros q. destruct (q =? reg); [exact W|apply B].
Qed.
Lemma measured : forall mask b, consistent b ->
  exists w b' new, get_measurements D b t mask = Some (map (fun k => if Z.testbit mask (Z.of_nat k) then said t (r_word (w k)) else 0) (seq 0 7), b') /\
  evs b' = evs b ++ new /\ delivered new = flat_map (fun k => map (fun q => (q, w k)) (question t k)) (asked mask) /\ all_to (t_addr t) new /\ consistent b' /\
  forall k, 0 <= r_word (w k) < 65536.
Proof.
  intros mask b C. destruct (measure_healthy mask channels b None ltac:(cbn; repeat constructor; cbn; intuition lia) C) as (w & b' & new & E & V & Dn & A & C' & B).
  exists (fun k => w (register k)), b', new. unfold channels in *.
  assert ((Z.land mask 1 =? 0) = negb (Z.testbit mask (Z.of_nat 0))) as B0 by exact (land_bit mask 0 ltac:(lia)).
  assert ((Z.land mask 2 =? 0) = negb (Z.testbit mask (Z.of_nat 1))) as B1 by exact (land_bit mask 1 ltac:(lia)).
  assert ((Z.land mask 4 =? 0) = negb (Z.testbit mask (Z.of_nat 2))) as B2 by exact (land_bit mask 2 ltac:(lia)).
  assert ((Z.land mask 8 =? 0) = negb (Z.testbit mask (Z.of_nat 3))) as B3 by exact (land_bit mask 3 ltac:(lia)).
  assert ((Z.land mask 16 =? 0) = negb (Z.testbit mask (Z.of_nat 4))) as B4 by exact (land_bit mask 4 ltac:(lia)).
  assert ((Z.land mask 32 =? 0) = negb (Z.testbit mask (Z.of_nat 5))) as B5 by exact (land_bit mask 5 ltac:(lia)).
  assert ((Z.land mask 64 =? 0) = negb (Z.testbit mask (Z.of_nat 6))) as B6 by exact (land_bit mask 6 ltac:(lia)).
  cbn [map filter fst snd] in E, Dn. rewrite B0, B1, B2, B3, B4, B5, B6 in E, Dn. split; [|split; [exact V|split; [|split; [exact A|split; [exact C'|intros k; apply B]]]]].
  - unfold get_measurements, channels. rewrite E. cbn [map seq]. repeat (rewrite if_negb). reflexivity.
  - rewrite Dn. unfold asked. cbn [filter seq]. clear. destruct (Z.testbit mask (Z.of_nat 0)), (Z.testbit mask (Z.of_nat 1)), (Z.testbit mask (Z.of_nat 2)), (Z.testbit mask (Z.of_nat 3)), (Z.testbit mask (Z.of_nat 4)), (Z.testbit mask (Z.of_nat 5)), (Z.testbit mask (Z.of_nat 6)); reflexivity.
Qed.

(** ** The constructor *)
Lemma put_healthy : forall b reg x, consistent b -> exists b' new r, put_byte D b t reg x = Ret true SNone b' /\ evs b' = evs b ++ new /\
  delivered new = [({| m_write := true; m_cmd := reg; m_kind := KByteData; m_data := PByte x |}, r)] /\ all_to (t_addr t) new /\ consistent b'.
Proof.
  intros b reg x C. unfold put_byte. destruct (transfer_healthy D b t {| m_write := true; m_cmd := reg; m_kind := KByteData; m_data := PByte x |} H N C) as (r & b' & new & E & V & Dn & A & _ & C' & _).
  rewrite E. exists b', new, r. auto.
Qed.
Lemma init_healthy : forall b, consistent b -> exists new, evs (motion_init D b t) = evs b ++ new /\ all_to (t_addr t) new /\
  map fst (delivered new) = op_messages (PutByte t 107 0) ++ op_messages (PutByte t 26 3) ++ op_messages (PutByte t 28 24) ++ op_messages (PutByte t 27 24).
Proof.
  intros b C. unfold motion_init. destruct (put_healthy b 0x6b 0 C) as (b1 & n1 & r1 & -> & V1 & D1 & A1 & C1). destruct (put_healthy b1 0x1a 3 C1) as (b2 & n2 & r2 & -> & V2 & D2 & A2 & C2).
  destruct (put_healthy b2 0x1c (Z.shiftl 3 3) C2) as (b3 & n3 & r3 & -> & V3 & D3 & A3 & C3). destruct (put_healthy b3 0x1b (Z.shiftl 3 3) C3) as (b4 & n4 & r4 & -> & V4 & D4 & A4 & C4).
  exists (n1 ++ n2 ++ n3 ++ n4). split; [rewrite V4, V3, V2, V1, <- !app_assoc; reflexivity|]. split; [repeat (apply all_to_app; [assumption|]); assumption|].
  rewrite !delivered_app, D1, D2, D3, D4. reflexivity.
Qed.

(** ** Calibration *)
Lemma rounds_healthy : forall mask n b, consistent b -> exists samples b' new, rounds n D b t mask = Some (samples, b') /\ evs b' = evs b ++ new /\ all_to (t_addr t) new /\ consistent b' /\
  forall w, (forall m r, In (m, r) (delivered new) -> r_word r = w (m_cmd m)) ->
    samples = repeat (map (fun k => if Z.testbit (Z.land mask (Z.lnot 64)) (Z.of_nat k) then said t (w (register k)) else 0) (seq 0 7)) n.
Proof.
  intros mask n. induction n as [|n IH]; intros b C.
  - exists [], b, []. split; [reflexivity|]. split; [now rewrite app_nil_r|]. split; [intros ? ? ? []|]. split; [exact C|]. reflexivity.
  - cbn [rounds]. destruct (measured (Z.land mask (Z.lnot 64)) b C) as (w & b1 & n1 & E1 & V1 & D1 & A1 & C1 & B1). rewrite E1. destruct (IH b1 C1) as (ss & b2 & n2 & E2 & V2 & A2 & C2 & K). rewrite E2.
    do 2 eexists. exists (n1 ++ n2). split; [reflexivity|]. split; [rewrite V2, V1, app_assoc; reflexivity|]. split; [apply all_to_app; assumption|]. split; [exact C2|].
    intros w' S. cbn [repeat]. f_equal; [|apply K; intros m r I; apply S; rewrite delivered_app; apply in_or_app; right; exact I].
    apply map_ext_in. intros k I. destruct (Z.testbit _ _) eqn:Tb; [|reflexivity]. f_equal. rewrite (S {| m_write := false; m_cmd := register k; m_kind := KWordData; m_data := PWord 0 |} (w k)); [reflexivity|].
    rewrite delivered_app. apply in_or_app. left. rewrite D1. apply in_flat_map. exists k. split; [apply filter_In; split; assumption|left; reflexivity].
Qed.
End Healthy.
Lemma map_rep : forall A B (f : A -> B) x n, map f (repeat x n) = repeat (f x) n.
Proof. intros A B f x n. induction n as [|n IH]; [reflexivity|]. cbn. rewrite IH. reflexivity. Qed.
Lemma zsum_still : forall x n k, zsum (firstn k (repeat x n)) = Z.of_nat (Nat.min k n) * x.
Proof. intros x n. induction n as [|n IH]; intros [|k]; try reflexivity. cbn [repeat firstn Nat.min]. change (zsum (x :: firstn k (repeat x n))) with (x + zsum (firstn k (repeat x n))). rewrite IH. lia. Qed.
Lemma calibrate_still : forall x, -1638 <= x <= 1638 -> calibrate (repeat x 25) = x.
Proof.
  intros x B. change (repeat x 25) with (repeat x 5 ++ repeat x 20). rewrite C63_mean_partial; [|reflexivity|reflexivity|].
  - pose proof (zsum_still x 20 20) as Z. change (firstn 20 (repeat x 20)) with (repeat x 20) in Z. rewrite Z. change (Z.of_nat (Nat.min 20 20)) with 20. rewrite Z.mul_comm. apply Z.quot_mul. lia.
  - intros k. rewrite zsum_still. assert (0 <= Z.of_nat (Nat.min k 20) <= 20) by lia. nia.
Qed.
Lemma other_bits : forall mask k, (k < 6)%nat -> Z.testbit (Z.land mask (Z.lnot 64)) (Z.of_nat k) = Z.testbit mask (Z.of_nat k).
Proof. intros mask k L. rewrite Z.land_spec. do 6 (destruct k as [|k]; [apply andb_true_r|]). lia. Qed.
Lemma calibrated : forall D t mask b, healthy D -> typed_device D -> t_addr t <> 0 -> consistent b ->
  exists cal b' new, calibrate_all true D b t mask = Some (cal, b') /\ length cal = 7%nat /\ nth 6 cal 0 = 0 /\ Forall (fun c => -1638 <= c <= 1638) cal /\ evs b' = evs b ++ new /\ all_to (t_addr t) new /\
  forall w, (forall m r, In (m, r) (delivered new) -> r_word r = w (m_cmd m)) -> forall k, (k < 6)%nat ->
    (Z.testbit mask (Z.of_nat k) = true -> -1638 <= said t (w (register k)) <= 1638 -> nth k cal 0 = said t (w (register k))) /\
    (Z.testbit mask (Z.of_nat k) = false -> nth k cal 0 = 0).
Proof.
  intros D t mask b H T N C. unfold calibrate_all. destruct (rounds_healthy D t H T N mask 25 b C) as (ss & b' & new & E & V & A & C' & K). rewrite E.
  do 2 eexists. exists new. split; [reflexivity|]. split; [reflexivity|]. split; [reflexivity|]. split.
  { apply Forall_app. split; [|repeat constructor; lia]. apply Forall_forall. intros c I. apply in_map_iff in I as (k & <- & _). apply C63_bound. }
  split; [exact V|]. split; [exact A|]. intros w S k Lk. rewrite (K w S).
  rewrite app_nth1 by exact Lk. set (f := fun k : nat => calibrate _). rewrite (nth_indep _ 0 (f O)) by exact Lk. rewrite map_nth, seq_nth by exact Lk. cbn [Nat.add]. unfold f.
  rewrite map_rep, (nth_indep _ 0 ((fun k => if Z.testbit (Z.land mask (Z.lnot 64)) (Z.of_nat k) then said t (w (register k)) else 0) O)) by (cbn [map seq length]; lia).
  rewrite (map_nth (fun k => if Z.testbit (Z.land mask (Z.lnot 64)) (Z.of_nat k) then said t (w (register k)) else 0)), seq_nth by lia. cbn [Nat.add]. rewrite other_bits by exact Lk. split; intros Tb; rewrite Tb; [intros B; apply calibrate_still, B|reflexivity].
Qed.

(** ** Values *)
Lemma values_shown : forall mask (m : nat -> Z) cal, length cal = 7%nat -> let vs := values_from mask channels conversions (map m (seq 0 7)) cal in length vs = 7%nat /\
  forall k, (k < 7)%nat -> (nth k vs 0 == if Z.testbit mask (Z.of_nat k) then shown k (m k) (nth k cal 0%Z) else 0)%Q.
Proof.
  intros mask m cal L. do 7 (destruct cal as [|? cal]; [discriminate L|]). destruct cal; [|discriminate L]. cbv zeta. split; [reflexivity|]. intros k Lk.
  unfold channels, conversions. cbn [map seq values_from].
  assert ((Z.land mask 1 =? 0) = negb (Z.testbit mask (Z.of_nat 0))) as -> by exact (land_bit mask 0 ltac:(lia)).
  assert ((Z.land mask 2 =? 0) = negb (Z.testbit mask (Z.of_nat 1))) as -> by exact (land_bit mask 1 ltac:(lia)).
  assert ((Z.land mask 4 =? 0) = negb (Z.testbit mask (Z.of_nat 2))) as -> by exact (land_bit mask 2 ltac:(lia)).
  assert ((Z.land mask 8 =? 0) = negb (Z.testbit mask (Z.of_nat 3))) as -> by exact (land_bit mask 3 ltac:(lia)).
  assert ((Z.land mask 16 =? 0) = negb (Z.testbit mask (Z.of_nat 4))) as -> by exact (land_bit mask 4 ltac:(lia)).
  assert ((Z.land mask 32 =? 0) = negb (Z.testbit mask (Z.of_nat 5))) as -> by exact (land_bit mask 5 ltac:(lia)).
  assert ((Z.land mask 64 =? 0) = negb (Z.testbit mask (Z.of_nat 6))) as -> by exact (land_bit mask 6 ltac:(lia)).
  do 7 (destruct k as [|k]; [cbn [nth]; rewrite if_negb; destruct (Z.testbit mask _); [|reflexivity]; unfold shown, value_from, temperature_from, max_accel, max_gyro, max_measurement; cbn [Nat.ltb Nat.leb];
    unfold Qeq, Qdiv, Qmult, Qplus, Qinv, inject_Z; cbn [Qnum Qden]; try rewrite !Pos2Z.inj_mul; lia|]). lia.
Qed.
Lemma shown_range : forall k m c, -32768 <= m <= 32767 -> -1638 <= c <= 1638 ->
  ((k < 3)%nat -> (Qabs (shown k m c) <= 16 * (34406 # 32767))%Q) /\ ((3 <= k < 6)%nat -> (Qabs (shown k m c) <= 2000 * (34406 # 32767))%Q).
Proof.
  intros k m c M C. unfold shown. split; intros L.
  - replace (k <? 3)%nat with true by lia. unfold Qabs, Qle, Qmult. cbn [Qnum Qden]. lia.
  - replace (k <? 3)%nat with false by lia. replace (k <? 6)%nat with true by lia. unfold Qabs, Qle, Qmult. cbn [Qnum Qden]. lia.
Qed.
