From Coq Require Import String.
From Coq Require Import ZArith List Bool Lia ZifyBool.
From Verif Require Import Base ListMem Table_Model Table_Spec Table_Proofs Equal_Model Equal_Spec.
Import ListNotations.
Open Scope Z_scope.

Lemma memcmp0_spec : forall n a b, (n <= length a)%nat -> (n <= length b)%nat ->
  exists r, memcmp0 n a b = Some r /\ (r = true <-> (forall k, (k < n)%nat -> nth k a 0 = nth k b 0)).
Proof.
  induction n as [|n IH]; intros a b Ha Hb; cbn [memcmp0].
  - exists true. split; [reflexivity|]. split; intros; [lia|reflexivity].
  - destruct a as [|x a]; cbn [length] in Ha; [lia|]. destruct b as [|y b]; cbn [length] in Hb; [lia|].
    destruct (IH a b) as (r & -> & R); [lia..|]. eexists; split; [reflexivity|].
    rewrite andb_true_iff, Z.eqb_eq, R. split.
    + intros (-> & H) k Hk. destruct k as [|k]; cbn; [reflexivity|]. apply H. lia.
    + intros H. split; [apply (H 0%nat); lia|]. intros k Hk. apply (H (S k)). lia.
Qed.

Definition nonul (l : list Z) : Prop := Forall (fun c => c <> 0) l.
Lemma c_str_nonul : forall a b, nonul a -> c_str (a ++ 0 :: b) = Some a.
Proof.
  induction a as [|c a IH]; intros b H; cbn; [reflexivity|]. inversion H; subst.
  replace (c =? 0) with false by lia. rewrite IH by assumption. reflexivity.
Qed.
Lemma hexdigit_nonul : forall x, hexdigit (Z.land x 15) <> 0.
Proof. intros. pose proof (land15 x). unfold hexdigit. destruct (_ <? 10) eqn:E; lia. Qed.
Lemma hex_half_nonul : forall n d, nonul (hex_half d n).
Proof.
  induction n as [|n IH]; intros d; cbn [hex_half]; [constructor|].
  destruct d as [|c d]; repeat (constructor; [try lia; apply hexdigit_nonul|]); apply IH.
Qed.
Lemma ascii_col_nonul : forall n d, nonul (ascii_col d n).
Proof.
  induction n as [|n IH]; intros d; cbn [ascii_col]; [constructor|].
  destruct d as [|c d]; constructor; try apply IH; [lia|]. unfold isprint. destruct ((32 <=? c) && (c <=? 126)) eqn:E; lia.
Qed.
Lemma chunk_vis_nonul : forall off rest, nonul (chunk_vis off rest).
Proof.
  intros. unfold chunk_vis, nonul.
  repeat (apply Forall_app; split); try apply hex_half_nonul; try apply ascii_col_nonul; repeat (constructor; [try lia; apply hexdigit_nonul|]); try constructor; lia.
Qed.

(** The printed offset is the offset modulo 65536. *)
Lemma digit_mod : forall off k, 0 <= off -> (k = 0 \/ k = 4 \/ k = 8 \/ k = 12) ->
  Z.land (Z.shiftr off k) 15 = Z.land (Z.shiftr (off mod 65536) k) 15.
Proof.
  intros off k H K. apply Z.bits_inj'. intros n Hn. rewrite !Z.land_spec.
  destruct (Z.ltb_spec n 4).
  - f_equal. rewrite !Z.shiftr_spec by lia. change 65536 with (2 ^ 16). rewrite Z.mod_pow2_bits_low by lia. reflexivity.
  - change 15 with (Z.ones 4). rewrite Z.ones_spec_high by lia. rewrite !andb_false_r. reflexivity.
Qed.
Lemma chunk_vis_mod : forall off rest, 0 <= off -> chunk_vis off rest = chunk_vis (off mod 65536) rest.
Proof.
  intros off rest H. unfold chunk_vis.
  rewrite (digit_mod off 12), (digit_mod off 8), (digit_mod off 4) by lia.
  pose proof (digit_mod off 0 H ltac:(lia)) as E. rewrite !Z.shiftr_0_r in E. rewrite E. reflexivity.
Qed.
Lemma parse_any : forall off rest, 0 <= off -> Forall byte_ok rest ->
  parse_dump_line (chunk_vis off rest) = Some (off mod 65536, firstn 16 rest).
Proof. intros. rewrite chunk_vis_mod by assumption. apply parse_chunk; [apply Z.mod_pos_bound; lia|assumption]. Qed.

Lemma k2_ok : 0 <= k2 < 2 ^ 31. Proof. unfold k2. lia. Qed.
Lemma holds_get : forall l p, holds k2 l p -> nonul p -> zlen p < k2 -> exists l', line_get l = Some (l', p) /\ holds k2 l' p.
Proof.
  intros l p (S1 & S2 & S3 & S4 & r & S5) N F. pose proof (zlen_nonneg _ p).
  unfold line_get. rewrite S1, S3, S5. replace (zlen p <=? k2) with true by lia.
  rewrite S5, zlen_app in S2. rewrite write_at_prefix by (change (zlen [0]) with 1; lia).
  change (zlen [0]) with 1. cbn [app]. rewrite c_str_nonul by assumption.
  eexists; split; [reflexivity|]. unfold holds; cbn [l_size l_buf l_pcount l_table]. repeat split; auto.
  - rewrite zlen_app, zlen_cons, zlen_drop by lia. lia.
  - eexists; reflexivity.
Qed.

(** The entries of the rounds i, i+1, .. *)
Fixpoint entries (n i : nat) (equal : bool) (a e : list Z) : list entry :=
  match n with
  | O => []
  | S n => report equal (chunk_vis (16 * Z.of_nat i) (drop (16 * Z.of_nat i) a)) (chunk_vis (16 * Z.of_nat i) (drop (16 * Z.of_nat i) e))
           :: entries n (S i) equal a e
  end.

Lemma blob_loop_spec : forall n i fuel raw log equal a e r,
  (forall i, zlen (fst (raw i)) = k2 + 2 /\ zlen (snd (raw i)) = k2 + 2) ->
  zlen a = 16 * Z.of_nat (i + n) + r -> zlen e = zlen a -> 0 <= r < 16 -> (n < fuel)%nat ->
  blob_loop fuel raw i log equal a e (16 * Z.of_nat i) = Done (if log then entries n i equal a e else []).
Proof.
  induction n as [|n IH]; intros i fuel raw log equal a e r Hraw La Le Hr Hf;
    (destruct fuel as [|fuel]; [lia|]); cbn [blob_loop]; destruct (Hraw i) as [R1 R2];
    pose proof (new_holds k2 k2_ok (fst (raw i)) None R1) as N1; pose proof (new_holds k2 k2_ok (snd (raw i)) None R2) as N2.
  - destruct (Z.eq_dec r 0) as [->|Hne].
    + assert (line_put_binary (line_new k2 (fst (raw i)) None) a (16 * Z.of_nat i) = Some (line_new k2 (fst (raw i)) None, 16 * Z.of_nat i, false)) as ->.
      { unfold line_put_binary. unfold line_new at 1 2. cbn [l_size l_pcount]. change (wrap_u64 (k2 - 0) <=? 72) with false.
        replace (zlen a <=? 16 * Z.of_nat i) with true by lia. reflexivity. }
      cbn [negb]. destruct (holds_flush k2 k2_ok _ _ N1) as (l' & -> & _). destruct log; reflexivity.
    + destruct (holds_chunk k2 k2_ok _ _ a (16 * Z.of_nat i) N1) as (l' & -> & Hl & _);
        [change (zlen (@nil Z)) with 0; unfold k2; lia|lia|rewrite Z.mul_comm; apply Z.mod_mul; lia|].
      rewrite zlen_drop by lia. replace (16 <=? zlen a - 16 * Z.of_nat i) with false by lia. cbn [negb].
      destruct (holds_flush k2 k2_ok _ _ Hl) as (l2 & -> & _). destruct log; reflexivity.
  - assert (16 * Z.of_nat i mod 16 = 0) as M by (rewrite Z.mul_comm; apply Z.mod_mul; lia).
    destruct (holds_chunk k2 k2_ok _ _ a (16 * Z.of_nat i) N1) as (la & -> & Hla & _);
      [change (zlen (@nil Z)) with 0; unfold k2; lia|lia|assumption|].
    rewrite zlen_drop by lia. replace (16 <=? zlen a - 16 * Z.of_nat i) with true by lia. cbn [negb].
    destruct (holds_chunk k2 k2_ok _ _ e (16 * Z.of_nat i) N2) as (le & -> & Hle & _);
      [change (zlen (@nil Z)) with 0; unfold k2; lia|lia|assumption|].
    cbn [app] in Hla, Hle.
    destruct (holds_get _ _ Hla (chunk_vis_nonul _ _)) as (la2 & Ga & Hla2); [rewrite chunk_vis_len; unfold k2; lia|].
    destruct (holds_get _ _ Hle (chunk_vis_nonul _ _)) as (le2 & Ge & Hle2); [rewrite chunk_vis_len; unfold k2; lia|].
    replace (16 * Z.of_nat i + 16) with (16 * Z.of_nat (S i)) by lia.
    specialize (IH (S i) fuel raw log equal a e r Hraw ltac:(lia) Le Hr ltac:(lia)).
    destruct log.
    + rewrite Ga, Ge.
      destruct (holds_flush k2 k2_ok _ _ Hla2) as (l3 & -> & _). destruct (holds_flush k2 k2_ok _ _ Hle2) as (l4 & -> & _).
      rewrite IH. reflexivity.
    + destruct (holds_flush k2 k2_ok _ _ Hla) as (l3 & -> & _). destruct (holds_flush k2 k2_ok _ _ Hle) as (l4 & -> & _).
      rewrite IH. reflexivity.
Qed.

Lemma entries_length : forall n i q a e, length (entries n i q a e) = n.
Proof. induction n; intros; cbn; auto. Qed.
Lemma entries_nth : forall n i j q a e, (j < n)%nat ->
  nth_error (entries n i q a e) j = Some (report q (chunk_vis (16 * Z.of_nat (i + j)) (drop (16 * Z.of_nat (i + j)) a)) (chunk_vis (16 * Z.of_nat (i + j)) (drop (16 * Z.of_nat (i + j)) e))).
Proof.
  induction n as [|n IH]; intros i j q a e H; [lia|]. destruct j as [|j]; cbn [entries nth_error].
  - rewrite Nat.add_0_r. reflexivity.
  - rewrite IH by lia. replace (S i + j)%nat with (i + S j)%nat by lia. reflexivity.
Qed.

Lemma Forall_skip : forall A (P : A -> Prop) n l, Forall P l -> Forall P (skipn n l).
Proof. intros A P n l H. rewrite <- (firstn_skipn n l) in H. apply Forall_app in H. apply H. Qed.
Lemma Forall_first : forall A (P : A -> Prop) n l, Forall P l -> Forall P (firstn n l).
Proof. intros A P n l H. rewrite <- (firstn_skipn n l) in H. apply Forall_app in H. apply H. Qed.

Lemma piece_take : forall i size d, 16 * Z.of_nat (S i) <= size ->
  firstn 16 (drop (16 * Z.of_nat i) (take size d)) = piece i d.
Proof.
  intros i size d H. unfold piece, drop, take.
  replace (Z.to_nat (16 * Z.of_nat i)) with (16 * i)%nat by lia.
  rewrite skipn_firstn_comm, firstn_firstn. f_equal. lia.
Qed.

Lemma blob_equal_done : forall fuel raw log a e size, raws_ok raw -> 0 <= size <= zlen a -> size <= zlen e -> size / 16 < Z.of_nat fuel ->
  exists v, blob_equal fuel raw log a e size
            = Done (v, if log then entries (Z.to_nat (size / 16)) 0 v (take size a) (take size e) else [])
  /\ (v = true <-> same_bytes size a e).
Proof.
  intros fuel raw log a e size Hr Ha He Hf. unfold blob_equal.
  destruct (memcmp0_spec (Z.to_nat size) a e) as (v & -> & V); [unfold zlen in *; lia..|].
  pose proof (Z.div_mod size 16 ltac:(lia)). pose proof (Z.mod_pos_bound size 16 ltac:(lia)). pose proof (Z.div_pos size 16 ltac:(lia) ltac:(lia)).
  rewrite (blob_loop_spec (Z.to_nat (size / 16)) 0 fuel raw log v _ _ (size mod 16)).
  - exists v. split; [reflexivity|]. rewrite V. unfold same_bytes. split; intros K k Hk.
    + apply K. lia.
    + specialize (K (Z.of_nat k) ltac:(lia)). rewrite !Nat2Z.id in K. exact K.
  - exact Hr.
  - rewrite zlen_take by lia. lia.
  - rewrite !zlen_take by lia. reflexivity.
  - lia.
  - lia.
Qed.

Lemma report_shows : forall (q : bool) i size a e, Forall byte_ok a -> Forall byte_ok e -> 16 * Z.of_nat (S i) <= size ->
  shows (report q (chunk_vis (16 * Z.of_nat i) (drop (16 * Z.of_nat i) (take size a))) (chunk_vis (16 * Z.of_nat i) (drop (16 * Z.of_nat i) (take size e))))
    (if q then 4 else 3) (if q then "Pass" else "Fail") (16 * Z.of_nat i mod 65536) (piece i a) (piece i e).
Proof.
  intros q i size a e Ha He Hi.
  eexists; eexists. split; [|split; [|split; [|split]]].
  - unfold report. destruct q; cbn [negb]; reflexivity.
  - apply chunk_vis_len.
  - apply chunk_vis_len.
  - rewrite parse_any by (try lia; apply Forall_skip, Forall_first; assumption). rewrite piece_take by assumption. reflexivity.
  - rewrite parse_any by (try lia; apply Forall_skip, Forall_first; assumption). rewrite piece_take by assumption. reflexivity.
Qed.

Lemma nth_firstn_lt : forall A (l : list A) n j, (j < n)%nat -> nth_error (firstn n l) j = nth_error l j.
Proof. intros A l; induction l as [|x l IH]; intros [|n] [|j] H; cbn; try lia; auto. apply IH. lia. Qed.
Lemma nth_skipn_add : forall A (l : list A) n j, nth_error (skipn n l) j = nth_error l (n + j).
Proof. intros A l; induction l as [|x l IH]; intros [|n] j; cbn; auto. destruct j; reflexivity. Qed.
Lemma piece_nth : forall i j d, (j < 16)%nat -> nth_error (piece i d) j = nth_error d (16 * i + j).
Proof. intros. unfold piece. rewrite nth_firstn_lt by assumption. apply nth_skipn_add. Qed.

Lemma strcmp0_spec : forall a b s t, c_str a = Some s -> c_str b = Some t ->
  exists r, strcmp0 a b = Some r /\ (r = true <-> s = t).
Proof.
  induction a as [|x a IH]; intros b s t Ha Hb; [discriminate|]. destruct b as [|y b]; [discriminate|].
  cbn [c_str] in Ha, Hb. cbn [strcmp0]. destruct (x =? y) eqn:E.
  - apply Z.eqb_eq in E; subst y. destruct (x =? 0).
    + exists true. split; [reflexivity|]. split; congruence.
    + destruct (c_str a) as [s'|] eqn:Ea; [|discriminate]. destruct (c_str b) as [t'|] eqn:Eb; [|discriminate].
      destruct (IH b s' t' eq_refl Eb) as (r & -> & R). exists r. split; [reflexivity|]. rewrite R.
      injection Ha as <-; injection Hb as <-. split; congruence.
  - exists false. split; [reflexivity|]. split; [discriminate|]. intros ->. apply Z.eqb_neq in E.
    destruct (x =? 0) eqn:E0.
    + apply Z.eqb_eq in E0. destruct (y =? 0) eqn:E1; [apply Z.eqb_eq in E1; lia|].
      destruct (c_str b); congruence.
    + destruct (c_str a); [|discriminate]. destruct (y =? 0); [congruence|]. destruct (c_str b); congruence.
Qed.
