(** Proofs about the grayscale sensors and about chips. *)

From Coq Require Import String ZArith List Bool Lia ZifyBool.
From Verif Require Import Base ListMem Endpoint_Model Endpoint_Spec Endpoint_Proofs Car_Model Car_Spec Car_Replies Smbus_Model Smbus_Spec Smbus_Proofs Paths_Model Paths_Spec Paths_Proofs Sensors_Model Sensors_Spec.
Import ListNotations.
Open Scope list_scope.
Open Scope Z_scope.

Lemma healthy_locks : forall D, healthy D -> locks_work D.
Proof. intros D H n E. destruct (H n) as (r & E'). congruence. Qed.

Lemma ensure_healthy : forall D b a, healthy D -> a <> 0 -> consistent b -> exists b' new, ensure_address D b a = (true, b') /\ evs b' = evs b ++ new /\ delivered new = [] /\ all_to a new /\
  (forall e, In e new -> ~ event_failed e) /\ addr b' = a /\ fd_addr b' = Some a /\ has_log b' = has_log b.
Proof.
  intros D b a H N C. unfold ensure_address. destruct ((addr b =? a) && has_log b) eqn:E.
  - exists b, []. apply andb_prop in E as (E & _). apply Z.eqb_eq in E. subst a. split; [reflexivity|]. split; [now rewrite app_nil_r|]. split; [reflexivity|]. split; [intros ? ? ? []|]. split; [intros ? []|].
    split; [reflexivity|]. split; [|reflexivity]. destruct C as [C|C]; [contradiction|exact C].
  - unfold ioctl_select. destruct (H (calls b)) as (r & ->). cbn. exists (set_addr {| has_log := has_log b; addr := addr b; fd_addr := Some a; calls := S (calls b); evs := evs b ++ [ESelect a true] |} a), [ESelect a true].
    split; [reflexivity|]. split; [reflexivity|]. split; [reflexivity|]. split; [intros to m r' [I|[]]; discriminate|]. split; [intros e [<-|[]]; discriminate|]. repeat split.
Qed.
Lemma transfer_healthy : forall D b t m, healthy D -> t_addr t <> 0 -> consistent b -> exists r b' new, transfer D b t m = (Some (Some r), b') /\ evs b' = evs b ++ new /\ delivered new = [(m, r)] /\ all_to (t_addr t) new /\
  (forall e, In e new -> ~ event_failed e) /\ consistent b' /\ (exists n, D n = ADone r) /\ has_log b' = has_log b.
Proof.
  intros D b t m H N C. unfold transfer. destruct (ensure_healthy D b (t_addr t) H N C) as (b1 & new & E & V & DN & A & F & A1 & F1 & L1). rewrite E. cbn [negb andb].
  unfold ioctl_smbus. destruct (H (calls b1)) as (r & Q). rewrite Q. cbn. exists r. eexists. exists (new ++ [EXfer (Some (t_addr t)) m (Some r)]). split; [reflexivity|].
  split; [cbn; rewrite V, F1, app_assoc; reflexivity|]. split; [rewrite delivered_app, DN; reflexivity|].
  split; [apply all_to_app; [exact A|]; intros to m' r' [I|[]]; injection I as <- _ _; reflexivity|].
  split; [intros e I; apply in_app_or in I as [I|[<-|[]]]; [exact (F e I)|discriminate]|].
  split; [right; cbn; rewrite F1, A1; reflexivity|]. split; [eauto|exact L1].
Qed.
Lemma sensor_healthy : forall D b t reg old, healthy D -> typed_device D -> t_addr t <> 0 -> consistent b ->
  exists b' new a r0 r1 m0 m1 m2, read_sensor D b t reg old = Some (word t r0 r1, b') /\ evs b' = evs b ++ new /\ delivered new = [(m0, a); (m1, r0); (m2, r1)] /\ [m0; m1; m2] = ask t reg /\
  all_to (t_addr t) new /\ (forall e, In e new -> ~ event_failed e) /\ consistent b'.
Proof.
  intros D b t reg old H T N C. unfold read_sensor, put_word.
  replace (if t_swap t then swap_bytes 0 else 0) with (if t_swap t then swapped 0 else 0) by (destruct (t_swap t); reflexivity).
  destruct (transfer_healthy D b t {| m_write := true; m_cmd := reg; m_kind := KWordData; m_data := PWord (if t_swap t then swapped 0 else 0) |} H N C) as (a & b1 & n1 & E1 & V1 & D1 & A1 & F1 & C1 & _ & L1). rewrite E1.
  unfold get_noreg_2, get_noreg.
  destruct (transfer_healthy D b1 t {| m_write := false; m_cmd := 0; m_kind := KByte; m_data := PByte 0 |} H N C1) as (r0 & b2 & n2 & E2 & V2 & D2 & A2 & F2 & C2 & (k0 & Q0) & L2). rewrite E2. cbn [negb andb].
  destruct (transfer_healthy D b2 t {| m_write := false; m_cmd := 0; m_kind := KByte; m_data := PByte 0 |} H N C2) as (r1 & b3 & n3 & E3 & V3 & D3 & A3 & F3 & C3 & (k1 & Q1) & L3). rewrite E3. cbn [negb andb].
  exists b3, (n1 ++ n2 ++ n3), a, r0, r1. do 3 eexists. destruct (T _ _ Q0) as (B0 & _). destruct (T _ _ Q1) as (B1 & _).
  split; [unfold word; destruct (t_swap t); rewrite lor_join by assumption; reflexivity|].
  split; [rewrite V3, V2, V1, <- !app_assoc; reflexivity|]. split; [rewrite !delivered_app, D1, D2, D3; reflexivity|]. split; [reflexivity|].
  split; [apply all_to_app; [exact A1|]; apply all_to_app; assumption|]. split; [|exact C3].
  intros e I. apply in_app_or in I as [I|I]; [exact (F1 e I)|]. apply in_app_or in I as [I|I]; [exact (F2 e I)|exact (F3 e I)].
Qed.

(** ** Chips *)
Lemma strncpy_text : forall buf s, zlen buf = 32 -> zlen s < 32 -> text s -> exists b, strncpy buf s 32 = Some b /\ c_str b = Some s /\ zlen b = 32.
Proof.
  intros buf s B L T. unfold strncpy. rewrite take_all by lia. assert (0 <= zlen s) by apply zlen_nonneg.
  assert (Z1 : zlen (s ++ repeat 0 (Z.to_nat (32 - zlen s))) = 32) by (rewrite zlen_app; unfold zlen in *; rewrite repeat_length; lia).
  assert (W := write_at_prefix [] buf (s ++ repeat 0 (Z.to_nat (32 - zlen s)))). rewrite Z1, B in W. specialize (W ltac:(lia)). change (zlen (@nil Z)) with 0 in W. cbn [app] in W.
  rewrite W. eexists. split; [reflexivity|].
  destruct (Z.to_nat (32 - zlen s)) as [|k] eqn:K; [lia|]. cbn [repeat]. split.
  - rewrite <- app_assoc. cbn [app]. apply c_str_text, T.
  - cbn [repeat] in Z1. rewrite zlen_app, Z1, zlen_drop by lia. lia.
Qed.
Lemma show_range : forall pos, - 2 ^ 31 <= pos < 2 ^ 31 -> zlen (show pos) <= 11 /\ text (show pos).
Proof.
  intros pos R.
  assert (ZU : forall f n, (0 < f)%nat -> 0 <= n < 10 ^ Z.of_nat f -> zlen (zu 20 n) <= Z.of_nat f /\ text (zu 20 n)).
  { assert (G : forall g f n, (0 < f <= g)%nat -> 0 <= n < 10 ^ Z.of_nat f -> zlen (zu g n) <= Z.of_nat f /\ text (zu g n)).
    { induction g as [|g IH]; intros f n F N; [lia|]. cbn [zu]. destruct (Z.ltb_spec n 10) as [L|L].
      - split; [unfold zlen; cbn [length]; lia|constructor; [lia|constructor]].
      - destruct f as [|[|f]]; [lia|cbn in N; lia|].
        assert (N' : 0 <= n / 10 < 10 ^ Z.of_nat (S f)).
        { split; [apply Z.div_pos; lia|]. apply Z.div_lt_upper_bound; [lia|]. replace (10 * 10 ^ Z.of_nat (S f)) with (10 ^ Z.of_nat (S (S f))); [lia|]. rewrite (Nat2Z.inj_succ (S f)), Z.pow_succ_r by lia. reflexivity. }
        destruct (IH (S f) (n / 10) ltac:(lia) N') as (A & B).
        split; [rewrite zlen_app, zlen_cons, zlen_nil; lia|]. apply Forall_app. split; [exact B|]. constructor; [|constructor]. assert (0 <= n mod 10 < 10) by (apply Z.mod_pos_bound; lia). lia. }
    intros f n F N. destruct (le_lt_dec f 20) as [D|D]; [apply G; [lia|exact N]|].
    (* more than 20 digits: not needed *)
    destruct (Z.ltb_spec n (10 ^ 20)) as [M|M].
    - destruct (G 20%nat 20%nat n ltac:(lia) ltac:(change (Z.of_nat 20) with 20; lia)) as (A & B). split; [lia|exact B].
    - assert (X : forall g n, zlen (zu g n) <= Z.of_nat g /\ (0 <= n -> text (zu g n))).
      { induction g as [|g IH]; intros m; cbn [zu]; [split; [unfold zlen; cbn; lia|intro; constructor]|]. destruct (Z.ltb_spec m 10).
        - split; [unfold zlen; cbn [length]; lia|]. intro. constructor; [lia|constructor].
        - destruct (IH (m / 10)) as (A & B). split; [rewrite zlen_app, zlen_cons, zlen_nil; lia|]. intro P. apply Forall_app. split; [apply B, Z.div_pos; lia|]. constructor; [|constructor].
          assert (0 <= m mod 10 < 10) by (apply Z.mod_pos_bound; lia). lia. }
      destruct (X 20%nat n) as (A & B). split; [lia|apply B; lia]. }
  unfold show, decimal, wrap_u64. destruct (Z.ltb_spec pos 0) as [L|L].
  - rewrite Z.mod_small by lia. destruct (ZU 10%nat (- pos) ltac:(lia) ltac:(change (10 ^ Z.of_nat 10) with 10000000000; lia)) as (A & B). split; [rewrite zlen_cons; lia|constructor; [discriminate|exact B]].
  - rewrite Z.mod_small by lia. destruct (ZU 10%nat pos ltac:(lia) ltac:(change (10 ^ Z.of_nat 10) with 10000000000; lia)) as (A & B). split; [lia|exact B].
Qed.
