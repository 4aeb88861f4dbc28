From Coq Require Import ZArith List Bool Lia ZifyBool.
From Verif Require Import Base ListMem Table_Model Table_Spec.
Import ListNotations.
Open Scope Z_scope.

Lemma wrap_u64_id : forall x, 0 <= x < 2 ^ 64 -> wrap_u64 x = x.
Proof. intros; unfold wrap_u64. apply Z.mod_small. assumption. Qed.

(** A line holding [p] as pending text. *)
Definition holds (size : Z) (l : line) (p : list Z) : Prop :=
  l_size l = size /\ zlen (l_buf l) = size + 2 /\ l_pcount l = zlen p /\ zlen p <= size
  /\ exists r, l_buf l = p ++ r.

Section Lines.
Variable size : Z.
Hypothesis Hsize : 0 <= size < 2 ^ 31.

Lemma holds_put : forall l p t, holds size l p -> zlen p + zlen t < size ->
  exists l', put_anyv l t = Some l' /\ holds size l' (p ++ t) /\ l_table l' = l_table l.
Proof.
  intros l p t (S1 & S2 & S3 & S4 & r & S5) F.
  pose proof (zlen_nonneg _ p). pose proof (zlen_nonneg _ t).
  unfold put_anyv. rewrite S1, S3, S5.
  rewrite (wrap_u64_id (size - zlen p)) by lia.
  unfold vsn_stored. replace (size - zlen p =? 0) with false by lia.
  rewrite take_all by lia.
  rewrite S5, zlen_app in S2.
  rewrite write_at_prefix by (rewrite zlen_app, zlen_cons, zlen_nil; lia).
  unfold vsn_result. replace (zlen t <=? 2 ^ 31 - 1) with true by lia.
  rewrite wrap_u64_id by lia.
  eexists; split; [reflexivity|]. split; [|reflexivity].
  unfold holds; cbn [l_size l_buf l_pcount l_table]. repeat split; auto.
  - zl.
  - rewrite zlen_app. reflexivity.
  - rewrite zlen_app. lia.
  - eexists. rewrite <- !app_assoc. reflexivity.
Qed.

Lemma put_line_holds : forall out p r, zlen p < 2 ^ 32 -> put_line out (p ++ r) (zlen p) = Some (out ++ p).
Proof.
  intros. unfold put_line. replace (zlen p =? size_strlen) with false by (unfold size_strlen; lia).
  rewrite read_at_prefix. reflexivity.
Qed.

Lemma holds_flush : forall l p, holds size l p ->
  exists l', line_flush l = Some l' /\ holds size l' []
  /\ l_table l' = match l_table l with Some o => Some (o ++ p ++ [10]) | None => None end.
Proof.
  intros l p (S1 & S2 & S3 & S4 & r & S5). pose proof (zlen_nonneg _ p).
  unfold line_flush. rewrite S1, S3, S5. replace (zlen p <=? size) with true by lia.
  rewrite S5, zlen_app in S2.
  rewrite write_at_prefix by (rewrite zlen_cons, zlen_nil; lia).
  change (zlen [10]) with 1. rewrite wrap_u64_id by lia.
  replace (zlen p + 1) with (zlen (p ++ [10])) by (rewrite zlen_app; reflexivity).
  rewrite app_assoc. rewrite write_at_prefix by (rewrite zlen_drop by lia; change (zlen [0]) with 1; lia).
  assert (forall x, holds size {| l_size := size; l_buf := (p ++ [10]) ++ [0] ++ drop (zlen [0]) (drop 1 r); l_pcount := 0; l_table := x |} []) as K.
  { intros x. unfold holds; cbn [l_size l_buf l_pcount l_table]. change (zlen [0]) with 1. change (zlen (@nil Z)) with 0.
    repeat split; try lia.
    - rewrite !zlen_app, zlen_drop by (rewrite zlen_drop by lia; lia). rewrite zlen_drop by lia.
      change (zlen [10]) with 1. change (zlen [0]) with 1. lia.
    - eexists; reflexivity. }
  destruct (l_table l) as [out|].
  - rewrite put_line_holds by (rewrite zlen_app; change (zlen [10]) with 1; lia).
    eexists; split; [reflexivity|]. split; [apply K|reflexivity].
  - eexists; split; [reflexivity|]. split; [apply K|reflexivity].
Qed.

Lemma lines_run : forall ops l p out, holds size l p -> l_table l = Some out -> fits size (zlen p) ops ->
  exists l', line_run l (map to_line_op ops) = Some l' /\ l_table l' = Some (out ++ lines p ops).
Proof.
  induction ops as [|o ops IH]; intros l p out Hl Ht F; cbn.
  - exists l. rewrite app_nil_r. auto.
  - destruct o as [t|]; cbn in F |- *.
    + destruct F as [F1 F2]. destruct (holds_put l p t Hl F1) as (l1 & -> & H1 & T1).
      rewrite <- zlen_app in F2. apply IH; auto. congruence.
    + destruct (holds_flush l p Hl) as (l1 & -> & H1 & T1). rewrite Ht in T1.
      destruct (IH l1 [] (out ++ p ++ [10]) H1 T1 F) as (l2 & -> & T2).
      exists l2. split; [reflexivity|]. rewrite T2, <- !app_assoc. reflexivity.
Qed.

Lemma new_holds : forall raw table, zlen raw = size + 2 -> holds size (line_new size raw table) [].
Proof.
  intros. unfold holds, line_new; cbn [l_size l_buf l_pcount l_table]. change (zlen (@nil Z)) with 0.
  repeat split; auto; try lia. exists raw. reflexivity.
Qed.

(** *** C19 *)
Definition inb (l : line) (n : Z) : Prop :=
  l_size l = size /\ zlen (l_buf l) = size + 2 /\ l_pcount l = n /\ 0 <= n <= size.

Lemma c_str_app0 : forall a b, exists s, c_str (a ++ 0 :: b) = Some s.
Proof.
  induction a as [|c a IH]; intros; cbn.
  - eexists; reflexivity.
  - destruct (c =? 0); [eexists; reflexivity|]. destruct (IH b) as [s ->]. eexists; reflexivity.
Qed.

Lemma inb_write : forall b n w, zlen b = size + 2 -> 0 <= n -> n + zlen w <= size + 2 ->
  exists b', write_at b n w = Some b' /\ zlen b' = size + 2.
Proof.
  intros. destruct (write_at_some b n w) as [b' E]; [lia|lia|]. exists b'. split; [assumption|].
  apply write_at_len in E. lia.
Qed.

Lemma hex_half_len : forall n d, zlen (hex_half d n) = 3 * Z.of_nat n.
Proof.
  induction n; intros; cbn; [reflexivity|]. destruct d; rewrite !zlen_cons, IHn; lia.
Qed.
Lemma ascii_col_len : forall n d, zlen (ascii_col d n) = Z.of_nat n.
Proof. induction n; intros; cbn; [reflexivity|]. destruct d; rewrite !zlen_cons, IHn; lia. Qed.
Lemma chunk_text_len : forall off d, zlen (chunk_text off d) = 73.
Proof.
  intros. unfold chunk_text. rewrite !zlen_app, !zlen_cons, !zlen_nil, !hex_half_len, ascii_col_len. reflexivity.
Qed.

Lemma inb_step : forall l n o, inb l n ->
  (match o with LPut t => n + zlen t <= size | LThread id => zlen id <= 15 /\ n + zlen id <= size | _ => True end) ->
  exists l', line_step l o = Some l' /\ inb l' (advance size n o).
Proof.
  intros l n o (S1 & S2 & S3 & S4) F.
  assert (forall t, n + zlen t <= size -> exists l', put_anyv l t = Some l' /\ inb l' (n + zlen t)) as P.
  { intros t Ft. pose proof (zlen_nonneg _ t). unfold put_anyv. rewrite S1, S3, wrap_u64_id by lia.
    destruct (inb_write (l_buf l) n (vsn_stored (size - n) t)) as (b & -> & Lb).
    - assumption.
    - lia.
    - unfold vsn_stored. destruct (size - n =? 0) eqn:E; [rewrite zlen_nil; lia|].
      rewrite zlen_app, zlen_cons, zlen_nil. unfold zlen, take in *. rewrite firstn_length. lia.
    - eexists; split; [reflexivity|]. unfold inb; cbn [l_size l_buf l_pcount l_table].
      unfold vsn_result. replace (zlen t <=? 2 ^ 31 - 1) with true by lia. rewrite wrap_u64_id by lia.
      repeat split; auto; lia. }
  destruct o; cbn [line_step advance].
  - apply P; assumption.
  - unfold put_thread_id. replace (zlen id + 1 <=? 16) with true by lia. apply P; lia.
  - unfold line_get. rewrite S1, S3. replace (n <=? size) with true by lia.
    destruct (split_at _ n (l_buf l) ltac:(lia)) as (a & r & E & La). rewrite E in *. rewrite zlen_app in S2.
    rewrite <- La. rewrite write_at_prefix by (change (zlen [0]) with 1; lia).
    change (zlen [0]) with 1.
    destruct (c_str_app0 a (drop 1 r)) as [s Es]. cbn [app]. rewrite Es.
    eexists; split; [reflexivity|]. unfold inb; cbn [l_size l_buf l_pcount l_table]. repeat split; auto; try lia.
    rewrite zlen_app, zlen_cons, zlen_drop by lia. lia.
  - unfold line_flush. rewrite S1, S3. replace (n <=? size) with true by lia.
    destruct (inb_write (l_buf l) n [10]) as (b & -> & Lb); [assumption|lia|change (zlen [10]) with 1; lia|].
    rewrite wrap_u64_id by lia.
    destruct (inb_write b (n + 1) [0]) as (b2 & -> & Lb2); [assumption|lia|change (zlen [0]) with 1; lia|].
    destruct (l_table l) as [out|].
    + unfold put_line. replace (n + 1 =? size_strlen) with false by (unfold size_strlen; lia).
      unfold read_at. replace ((0 <=? 0) && (0 <=? n + 1) && (0 + (n + 1) <=? zlen b2)) with true by lia.
      eexists; split; [reflexivity|]. unfold inb; cbn [l_size l_buf l_pcount l_table]. repeat split; auto; lia.
    + eexists; split; [reflexivity|]. unfold inb; cbn [l_size l_buf l_pcount l_table]. repeat split; auto; lia.
  - unfold line_put_binary. rewrite S1, S3, wrap_u64_id by lia.
    destruct (size - n <=? 72) eqn:E1; [cbn; exists l; unfold inb; auto|].
    destruct (zlen data <=? offset) eqn:E2; [cbn; exists l; unfold inb; auto|].
    destruct (negb (offset mod 16 =? 0)) eqn:E3; [cbn; exists l; unfold inb; auto|]. cbn [orb].
    destruct (inb_write (l_buf l) n (chunk_text offset (drop offset data))) as (b & -> & Lb);
      [assumption|lia|rewrite chunk_text_len; lia|].
    eexists; split; [reflexivity|]. unfold inb; cbn [l_size l_buf l_pcount l_table]. rewrite wrap_u64_id by lia.
    repeat split; auto; lia.
Qed.

Lemma inb_run : forall ops l n, inb l n -> pieces_fit size n ops -> exists l', line_run l ops = Some l' /\ zlen (l_buf l') = size + 2.
Proof.
  induction ops as [|o ops IH]; intros l n I F; cbn.
  - exists l. split; [reflexivity|]. apply I.
  - destruct F as [F1 F2]. destruct (inb_step l n o I F1) as (l1 & -> & I1). eapply IH; eauto.
Qed.

(** *** C21 *)
Lemma hexdigit_unhex : forall x, 0 <= x < 16 -> unhex (hexdigit x) = Some x.
Proof.
  intros. unfold hexdigit, unhex. destruct (x <? 10) eqn:E.
  - replace ((48 <=? 48 + x) && (48 + x <=? 57)) with true by lia. f_equal; lia.
  - replace ((48 <=? 87 + x) && (87 + x <=? 57)) with false by lia.
    replace ((97 <=? 87 + x) && (87 + x <=? 102)) with true by lia. f_equal; lia.
Qed.
Lemma land15 : forall x, 0 <= Z.land x 15 < 16.
Proof. intros. change 15 with (Z.ones 4). rewrite Z.land_ones by lia. apply Z.mod_pos_bound. lia. Qed.
Lemma land15_mod : forall x, Z.land x 15 = x mod 16.
Proof. intros. change 15 with (Z.ones 4). rewrite Z.land_ones by lia. reflexivity. Qed.
Lemma hexdigit_not_blank : forall x, 0 <= x < 16 -> (hexdigit x =? 32) = false.
Proof. intros. unfold hexdigit. destruct (x <? 10) eqn:E; lia. Qed.

Lemma parse_cols_hex : forall n d r, Forall byte_ok d -> parse_cols (hex_half d n ++ r) n = Some (firstn n d, r).
Proof.
  induction n; intros d r Hd; [reflexivity|].
  destruct d as [|c d]; cbn [hex_half app parse_cols].
  - rewrite (IHn []) by constructor. rewrite firstn_nil. reflexivity.
  - inversion Hd as [|? ? Hc Hd']; subst. rewrite IHn by assumption.
    rewrite hexdigit_not_blank by apply land15. cbn [andb].
    rewrite !hexdigit_unhex by apply land15. cbn [firstn]. do 3 f_equal.
    rewrite !land15_mod, Z.shiftr_div_pow2 by lia. unfold byte_ok in Hc. change (2 ^ 4) with 16.
    rewrite (Z.mod_small (c / 16)); [|split; [apply Z.div_pos; lia|apply Z.div_lt_upper_bound; lia]].
    pose proof (Z.div_mod c 16). lia.
Qed.

(** The visible part of a chunk. *)
Definition chunk_vis (off : Z) (rest : list Z) : list Z :=
  [hexdigit (Z.land (Z.shiftr off 12) 15); hexdigit (Z.land (Z.shiftr off 8) 15);
   hexdigit (Z.land (Z.shiftr off 4) 15); hexdigit (Z.land off 15); 58]
  ++ [32] ++ hex_half rest 8 ++ [32] ++ hex_half (skipn 8 rest) 8 ++ [32] ++ ascii_col rest 16.
Lemma chunk_text_vis : forall off rest, chunk_text off rest = chunk_vis off rest ++ [0].
Proof. intros. unfold chunk_text, chunk_vis. rewrite <- !app_assoc. reflexivity. Qed.
Lemma chunk_vis_len : forall off rest, zlen (chunk_vis off rest) = 72.
Proof. intros. pose proof (chunk_text_len off rest). rewrite chunk_text_vis, zlen_app in H. change (zlen [0]) with 1 in H. lia. Qed.

Lemma ascii_column : forall n d, ascii_col d n = map (fun c => if (32 <=? c) && (c <=? 126) then c else 46) (firstn n d) ++ repeat 32 (n - length (firstn n d)).
Proof.
  induction n as [|n IH]; intro d; [reflexivity|]. destruct d as [|c d]; cbn [ascii_col firstn map app length].
  - rewrite IH, firstn_nil. cbn [map app length]. rewrite !Nat.sub_0_r. reflexivity.
  - rewrite IH. reflexivity.
Qed.

Lemma parse_chunk : forall off rest, 0 <= off < 65536 -> Forall byte_ok rest ->
  parse_dump_line (chunk_vis off rest) = Some (off, firstn 16 rest).
Proof.
  intros off rest Ho Hr. unfold chunk_vis. cbn [app parse_dump_line].
  rewrite !hexdigit_unhex by apply land15.
  rewrite parse_cols_hex by assumption.
  rewrite parse_cols_hex.
  2:{ rewrite <- (firstn_skipn 8 rest) in Hr. apply Forall_app in Hr. apply Hr. }
  assert (E16 : firstn 8 rest ++ firstn 8 (skipn 8 rest) = firstn 16 rest)
    by (rewrite <- (firstn_skipn 8 (firstn 16 rest)); rewrite firstn_firstn, firstn_skipn_comm; reflexivity).
  rewrite E16. destruct (list_eq_dec Z.eq_dec (ascii_col rest 16) (text_column (firstn 16 rest))) as [_|NE]; [|exfalso; apply NE, ascii_column].
  f_equal. f_equal.
  - rewrite !land15_mod, !Z.shiftr_div_pow2 by lia. change (2 ^ 12) with 4096. change (2 ^ 8) with 256. change (2 ^ 4) with 16.
    pose proof (Z.div_mod off 16 ltac:(lia)). pose proof (Z.div_mod (off / 16) 16 ltac:(lia)).
    pose proof (Z.div_mod (off / 256) 16 ltac:(lia)). pose proof (Z.div_mod (off / 4096) 16 ltac:(lia)).
    assert (off / 16 / 16 = off / 256) by (rewrite Z.div_div by lia; reflexivity).
    assert (off / 256 / 16 = off / 4096) by (rewrite Z.div_div by lia; reflexivity).
    assert (off / 4096 / 16 = 0) by (rewrite Z.div_div by lia; apply Z.div_small; lia).
    lia.
Qed.

Lemma holds_chunk : forall l p data off, holds size l p -> zlen p + 72 < size ->
  0 <= off < zlen data -> off mod 16 = 0 ->
  exists l', line_put_binary l data off = Some (l', off + 16, 16 <=? zlen (drop off data))
  /\ holds size l' (p ++ chunk_vis off (drop off data)) /\ l_table l' = l_table l.
Proof.
  intros l p data off (S1 & S2 & S3 & S4 & r & S5) F O1 O2. pose proof (zlen_nonneg _ p).
  unfold line_put_binary. rewrite S1, S3, S5, wrap_u64_id by lia.
  replace (size - zlen p <=? 72) with false by lia. replace (zlen data <=? off) with false by lia.
  rewrite O2. cbn [Z.eqb negb]. rewrite S5, zlen_app in S2.
  rewrite write_at_prefix by (rewrite chunk_text_len; lia).
  rewrite wrap_u64_id by lia.
  eexists; split; [reflexivity|]. split; [|reflexivity].
  unfold holds; cbn [l_size l_buf l_pcount l_table]. repeat split; auto.
  - rewrite !zlen_app, chunk_text_len, zlen_drop by lia. lia.
  - rewrite zlen_app, chunk_vis_len. reflexivity.
  - rewrite zlen_app, chunk_vis_len. lia.
  - rewrite chunk_text_vis. eexists. rewrite <- !app_assoc. reflexivity.
Qed.

(** The chunks from an offset on, as the visible lines. *)
Fixpoint vis_lines (n : nat) (data : list Z) (off : Z) : list (list Z) :=
  match n with O => [] | S n' => chunk_vis off (drop off data) :: vis_lines n' data (off + 16) end.

Lemma vis_lines_len : forall n d o, length (vis_lines n d o) = n.
Proof. induction n; intros; cbn; auto. Qed.

Lemma dump_loop : forall n fuel props i l l1 out data off,
  (forall j, zlen (props j) + 72 < size) ->
  (if off =? 0 then Some l else line_flush l) = Some l1 -> holds size l1 [] -> l_table l1 = Some out ->
  0 <= off <= zlen data -> off mod 16 = 0 ->
  16 * (Z.of_nat n - 1) < zlen data - off <= 16 * Z.of_nat n ->
  (n < fuel)%nat ->
  exists l' q o', log_put_binary fuel props i l data off = Done l' /\ holds size l' q /\ l_table l' = Some o'
  /\ o' ++ q ++ [10] = out ++ dump_out props i (vis_lines n data off ++ (if zlen data mod 16 =? 0 then [[]] else [])).
Proof.
  induction n; intros fuel props i l l1 out data off Hp Hl1 H1 Ht O1 O2 En Hf;
    (destruct fuel as [|fuel]; [lia|]); cbn [log_put_binary]; rewrite Hl1;
    pose proof (zlen_nonneg _ (props i)); pose proof (Hp i);
    (destruct (holds_put l1 [] (props i) H1 ltac:(zl)) as (l2 & -> & H2 & T2)); cbn [app] in H2.
  - assert (off = zlen data) by lia. subst off.
    unfold line_put_binary. destruct H2 as (S1 & S2 & S3 & S4 & S5).
    rewrite S1, S3, wrap_u64_id by lia. replace (size - zlen (props i) <=? 72) with false by lia.
    rewrite Z.leb_refl. exists l2, (props i), out. split; [reflexivity|]. split; [unfold holds; auto|]. split; [congruence|].
    rewrite O2. cbn. reflexivity.
  - destruct (Z.eq_dec (zlen data mod 16) 0) as [M|M].
    + (* the last chunk is complete *)
      destruct (holds_chunk l2 (props i) data off H2 ltac:(lia) ltac:(lia) O2) as (l3 & -> & H3 & T3).
      assert (16 <= zlen data - off).
      { pose proof (Z.div_mod (zlen data) 16). pose proof (Z.div_mod off 16). lia. }
      rewrite zlen_drop by lia. replace (16 <=? zlen data - off) with true by lia.
      destruct (holds_flush l3 _ H3) as (l4 & F4 & HH4 & T4).
      rewrite T3, T2, Ht in T4.
      destruct (IHn fuel props (S i) l3 l4 (out ++ (props i ++ chunk_vis off (drop off data)) ++ [10]) data (off + 16)) as (l' & q & o' & E & H' & T' & G); auto; try lia.
      * replace (off + 16 =? 0) with false by lia. exact F4.
      * rewrite Z.add_mod, O2 by lia. reflexivity.
      * exists l', q, o'. split; [exact E|]. split; [exact H'|]. split; [exact T'|]. rewrite G.
        cbn [vis_lines app dump_out]. rewrite <- !app_assoc. reflexivity.
    + destruct (holds_chunk l2 (props i) data off H2 ltac:(lia) ltac:(lia) O2) as (l3 & -> & H3 & T3).
      rewrite zlen_drop by lia. destruct (16 <=? zlen data - off) eqn:E16.
      * destruct (holds_flush l3 _ H3) as (l4 & F4 & HH4 & T4).
        rewrite T3, T2, Ht in T4.
        destruct (IHn fuel props (S i) l3 l4 (out ++ (props i ++ chunk_vis off (drop off data)) ++ [10]) data (off + 16)) as (l' & q & o' & E & H' & T' & G); auto; try lia.
        -- replace (off + 16 =? 0) with false by lia. exact F4.
        -- rewrite Z.add_mod, O2 by lia. reflexivity.
        -- exists l', q, o'. split; [exact E|]. split; [exact H'|]. split; [exact T'|]. rewrite G.
           cbn [vis_lines app dump_out]. rewrite <- !app_assoc. reflexivity.
      * assert (n = O) by lia. subst n.
        exists l3, (props i ++ chunk_vis off (drop off data)), out.
        split; [reflexivity|]. split; [exact H3|]. split; [congruence|].
        replace (zlen data mod 16 =? 0) with false by lia. cbn [vis_lines app dump_out]. rewrite <- app_assoc. reflexivity.
Qed.

Lemma chunks_vis : forall n data off, Forall byte_ok data -> zlen data < 65536 -> 0 <= off <= zlen data ->
  16 * (Z.of_nat n - 1) < zlen data - off <= 16 * Z.of_nat n ->
  map parse_dump_line (vis_lines n data off) =
  map Some (combine (map (fun k => off + 16 * Z.of_nat k) (seq 0 n)) (chunks n (drop off data))).
Proof.
  induction n; intros data off Hb Hl Ho Hn; [reflexivity|].
  cbn [vis_lines map seq combine chunks].
  assert (Forall byte_ok (drop off data)) as Hd.
  { rewrite <- (take_drop _ off data) in Hb. apply Forall_app in Hb. apply Hb. }
  rewrite parse_chunk by (auto; lia).
  destruct (drop off data) as [|c r] eqn:E.
  - assert (zlen (drop off data) = 0) by (rewrite E; reflexivity). rewrite zlen_drop in H by lia. lia.
  - rewrite <- E in *. cbn [combine map]. rewrite Z.mul_0_r, Z.add_0_r. f_equal.
    replace (skipn 16 (drop off data)) with (drop (off + 16) data).
    2:{ change (skipn 16 (drop off data)) with (drop 16 (drop off data)). rewrite drop_drop by lia. f_equal. lia. }
    destruct (Z_lt_le_dec (zlen data) (off + 16)).
    + assert (n = O) by lia. subst n. reflexivity.
    + rewrite IHn by (auto; lia). f_equal. f_equal. rewrite <- seq_shift, map_map. apply map_ext. intros. lia.
Qed.
End Lines.

Lemma chunks_concat : forall n d, zlen d <= 16 * Z.of_nat n -> concat (chunks n d) = d.
Proof.
  induction n; intros; cbn [chunks].
  - destruct d; [reflexivity|]. rewrite zlen_cons in H. pose proof (zlen_nonneg _ d). lia.
  - destruct d as [|c r] eqn:E; [reflexivity|]. rewrite <- E in *. cbn [concat].
    rewrite IHn; [apply firstn_skipn|]. unfold zlen in *. rewrite skipn_length. lia.
Qed.

Lemma n_chunks_bound : forall d, 16 * (Z.of_nat (n_chunks d) - 1) < zlen d <= 16 * Z.of_nat (n_chunks d).
Proof.
  intros. unfold n_chunks. pose proof (zlen_nonneg _ d).
  pose proof (Z.div_mod (zlen d + 15) 16 ltac:(lia)). pose proof (Z.mod_pos_bound (zlen d + 15) 16 ltac:(lia)).
  rewrite Z2Nat.id by (apply Z.div_pos; lia). lia.
Qed.

Lemma binary_dump : forall size raw out props data sev,
  0 <= size < 2 ^ 31 -> zlen raw = size + 2 -> (forall i, zlen (props i) + 72 < size) ->
  zlen data < 65536 -> Forall byte_ok data ->
  exists lns,
    log_put_bin (bin_fuel data) {| g_size := size; g_filter := None; g_out := out |} sev raw props data
    = Done {| g_size := size; g_filter := None;
              g_out := out ++ dump_out props 0 (lns ++ (if zlen data mod 16 =? 0 then [[]] else [])) |}
    /\ map parse_dump_line lns
       = map Some (combine (map (fun k => 16 * Z.of_nat k) (seq 0 (n_chunks data))) (chunks (n_chunks data) data))
    /\ concat (chunks (n_chunks data) data) = data.
Proof.
  intros size raw out props data sev Hs Hr Hp Hd Hb.
  pose proof (n_chunks_bound data) as B. pose proof (zlen_nonneg _ data).
  exists (vis_lines (n_chunks data) data 0).
  unfold log_put_bin. cbn [enabled g_filter g_size g_out].
  pose proof (new_holds size Hs raw (Some out) Hr) as Hn.
  destruct (dump_loop size Hs (n_chunks data) (bin_fuel data) props 0 _ _ out data 0 Hp eq_refl Hn eq_refl) as (l' & q & o' & -> & H' & T' & G); auto; try lia.
  { unfold bin_fuel. unfold zlen in *. lia. }
  destruct (holds_flush size Hs l' q H') as (l2 & -> & H2 & T2). rewrite T', G in T2. rewrite T2.
  split; [reflexivity|]. split.
  - rewrite chunks_vis by (auto; lia). reflexivity.
  - apply chunks_concat. lia.
Qed.

(** *** C22 *)
(** What one enabled operation adds. *)
Definition emitted (o : log_op) : list Z :=
  match o with
  | LText _ _ p t => p ++ t ++ [10]
  | LBin _ _ p d => dump_out p 0 (vis_lines (n_chunks d) d 0 ++ (if zlen d mod 16 =? 0 then [[]] else []))
  | LBlank _ => [10]
  | LMin _ => []
  end.
Definition is_min (o : log_op) : bool := match o with LMin _ => true | _ => false end.

Lemma log_step_spec : forall size g o, 0 <= size < 2 ^ 31 -> g_size g = size -> op_fits size o ->
  log_step g o = Done {| g_size := size;
    g_filter := match o with LMin m => match g_filter g with None => None | Some _ => Some m end | _ => g_filter g end;
    g_out := if is_min o || negb (enabled (g_filter g) (op_severity o)) then g_out g else g_out g ++ emitted o |}.
Proof.
  intros size [gs gf go] o Hs Hg F. cbn [g_size g_filter g_out] in *. subst gs.
  destruct o as [s raw p t|s raw p d|s|m]; cbn [log_step is_min op_severity orb].
  - unfold log_put_anyv. cbn [g_size g_filter g_out]. destruct (enabled gf s); cbn [negb]; [|reflexivity].
    destruct F as [F1 F2]. pose proof (zlen_nonneg _ p). pose proof (zlen_nonneg _ t).
    destruct (holds_put size Hs _ [] p (new_holds size Hs raw (Some go) F1) ltac:(zl)) as (l1 & -> & H1 & T1).
    destruct (holds_put size Hs l1 _ t H1 ltac:(zl)) as (l2 & -> & H2 & T2).
    destruct (holds_flush size Hs l2 _ H2) as (l3 & -> & H3 & T3). rewrite T2, T1 in T3. cbn in T3.
    rewrite T3. cbn [emitted]. rewrite <- app_assoc. reflexivity.
  - destruct F as (F1 & F2 & F3 & F4).
    destruct (enabled gf s) eqn:En; cbn [negb]; [|unfold log_put_bin; cbn [g_filter]; rewrite En; reflexivity].
    unfold log_put_bin. cbn [g_size g_filter g_out]. rewrite En.
    pose proof (n_chunks_bound d) as B. pose proof (zlen_nonneg _ d).
    destruct (dump_loop size Hs (n_chunks d) (bin_fuel d) p 0 _ _ go d 0 F2 eq_refl (new_holds size Hs raw (Some go) F1) eq_refl) as (l' & q & o' & -> & H' & T' & G); auto; try lia.
    { unfold bin_fuel. unfold zlen in *. lia. }
    destruct (holds_flush size Hs l' q H') as (l2 & -> & H2 & T2). rewrite T', G in T2. rewrite T2. reflexivity.
  - unfold log_put_blank. cbn [g_filter g_size g_out]. destruct (enabled gf s); reflexivity.
  - reflexivity.
Qed.

Lemma log_run_spec : forall size ops f out, 0 <= size < 2 ^ 31 -> Forall (op_fits size) ops ->
  exists f', log_run {| g_size := size; g_filter := f; g_out := out |} ops
  = Done {| g_size := size; g_filter := f'; g_out := out ++ flat_map emitted (passed f ops) |}.
Proof.
  induction ops as [|o ops IH]; intros f out Hs F.
  - exists f. cbn. rewrite app_nil_r. reflexivity.
  - inversion F; subst. cbn [log_run]. rewrite (log_step_spec size) by auto. cbn [g_filter g_out].
    destruct (IH (match o with LMin m => match f with None => None | Some _ => Some m end | _ => f end)
      (if is_min o || negb (enabled f (op_severity o)) then out else out ++ emitted o) Hs H2) as [f' E].
    exists f'. rewrite E. do 2 f_equal.
    destruct o; cbn [is_min orb passed op_severity]; try reflexivity;
      unfold enabled, is_higher_or_equal; destruct f as [m0|]; cbn [negb];
      try (destruct (severity <=? m0); cbn [negb]); cbn [flat_map]; rewrite <- ?app_assoc; reflexivity.
Qed.

(** The same without a filter: showing a set of operations. *)
Lemma log_unfiltered : forall size ops out, 0 <= size < 2 ^ 31 -> Forall (op_fits size) ops ->
  Forall (fun o => is_min o = false) ops ->
  log_run {| g_size := size; g_filter := None; g_out := out |} ops
  = Done {| g_size := size; g_filter := None; g_out := out ++ flat_map emitted ops |}.
Proof.
  induction ops as [|o ops IH]; intros out Hs F N.
  - cbn. rewrite app_nil_r. reflexivity.
  - inversion F; inversion N; subst. cbn [log_run]. rewrite (log_step_spec size) by auto. cbn [g_filter g_out].
    destruct o; try discriminate; cbn [is_min orb enabled negb]; rewrite IH by auto; cbn [flat_map]; rewrite <- app_assoc; reflexivity.
Qed.

Lemma passed_sub : forall f ops o, In o (passed f ops) -> In o ops /\ is_min o = false.
Proof.
  intros f ops; revert f. induction ops as [|a ops IH]; intros f o H; [destruct H|].
  destruct a; cbn [passed] in H.
  1-3: (destruct f as [m0|]; [destruct (op_severity _ <=? m0)|]; cbn in H; 
        repeat (destruct H as [<-|H]; [cbn; auto|]); apply IH in H; cbn; intuition).
  apply IH in H. cbn; intuition.
Qed.

Lemma log_filtering : forall size ops f out, 0 <= size < 2 ^ 31 -> Forall (op_fits size) ops ->
  exists out' f',
    log_run {| g_size := size; g_filter := f; g_out := out |} ops = Done {| g_size := size; g_filter := f'; g_out := out' |}
    /\ log_run {| g_size := size; g_filter := None; g_out := out |} (passed f ops) = Done {| g_size := size; g_filter := None; g_out := out' |}.
Proof.
  intros size ops f out Hs F. destruct (log_run_spec size ops f out Hs F) as [f' E].
  exists (out ++ flat_map emitted (passed f ops)), f'. split; [exact E|].
  apply log_unfiltered; auto.
  - apply Forall_forall. intros o H. apply passed_sub in H. rewrite Forall_forall in F. apply F, H.
  - apply Forall_forall. intros o H. apply passed_sub in H. apply H.
Qed.

Lemma passed_monotone : forall ops m1 m2, m1 <= m2 -> Forall (fun o => is_min o = false) ops ->
  forall o, In o (passed (Some m1) ops) -> In o (passed (Some m2) ops).
Proof.
  induction ops as [|a ops IH]; intros m1 m2 L N o H; [destruct H|].
  inversion N; subst. destruct a; try discriminate; cbn [passed] in H |- *;
    destruct (op_severity _ <=? m1) eqn:E1; destruct (op_severity _ <=? m2) eqn:E2; try lia; cbn in H |- *;
    try (destruct H as [<-|H]; [auto|]); eauto.
Qed.

Lemma test_indent_spec : forall raw s, zlen raw = 17 -> 1 <= s <= 255 ->
  test_indent raw s = Some (repeat 32 (Z.to_nat (2 * (Z.min s 8 - 1)))).
Proof.
  intros raw s Hr Hs. unfold test_indent.
  replace (if s <=? 8 then s else 8) with (Z.min s 8) by (destruct (s <=? 8) eqn:E; lia).
  assert (1 <= Z.min s 8 <= 8) as B by lia. set (k := Z.min s 8) in *. clearbody k.
  do 17 (destruct raw as [|? raw]; [rewrite ?zlen_cons, ?zlen_nil in Hr; try (pose proof (zlen_nonneg _ (@nil Z))); lia|]).
  destruct raw; [|rewrite !zlen_cons in Hr; pose proof (zlen_nonneg _ raw); lia].
  assert (k = 1 \/ k = 2 \/ k = 3 \/ k = 4 \/ k = 5 \/ k = 6 \/ k = 7 \/ k = 8) as K by lia.
  repeat (destruct K as [->|K]; [reflexivity|]). subst. reflexivity.
Qed.
