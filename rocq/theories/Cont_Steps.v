(** Proofs about containers: inserting and erasing an item. *)

From Coq Require Import ZArith List Bool Lia.
From Verif Require Import Base Cache_Model Linked_Model Linked_Proofs Cont_Model Cont_Proofs.
Import ListNotations.
Open Scope Z_scope.
Local Opaque page_nil.

Lemma small_u16 n : 0 <= n < 65536 -> wrap_u16 n = n.
Proof. intro. unfold wrap_u16. apply Z.mod_small. lia. Qed.
Definition zl {B} (l : list B) : Z := Z.of_nat (length l).
Lemma zl_app {B} (a b : list B) : zl (a ++ b) = zl a + zl b. Proof. unfold zl. rewrite app_length. lia. Qed.
Lemma zl_cons {B} x (b : list B) : zl (x :: b) = 1 + zl b. Proof. unfold zl. cbn [length]. lia. Qed.
Lemma zl_nil {B} : zl (@nil B) = 0. Proof. reflexivity. Qed.
Lemma zl_pos {B} (a : list B) : 0 <= zl a. Proof. unfold zl. lia. Qed.
Lemma nil_eq i : (i =? item_nil) = true <-> i = item_nil. Proof. apply Z.eqb_eq. Qed.

Lemma page_items {A} (m : mem A) L X c u p i v : W m L X -> c <> 0 -> L c = u ++ (p, i) :: v -> holds (pages m p) i.
Proof. intros Wm Hc E. apply (w_items _ _ _ Wm c); auto. rewrite E. apply in_or_app; right; left; auto. Qed.
Lemma page_bnd {A} (m : mem A) L X c u p i v : W m L X -> c <> 0 -> L c = u ++ (p, i) :: v -> 2 <= p < fsize m /\ 0 < p < page_nil.
Proof. intros Wm Hc E. eapply pgs_bnd; eauto. rewrite E, pgs_app. apply in_or_app; right; left; auto. Qed.
Lemma page_links {A} (m : mem A) L X c u p i v : W m L X -> c <> 0 -> L c = u ++ (p, i) :: v ->
  p_prev (pages m p) = last (pgs u) page_nil /\ p_next (pages m p) = hd page_nil (pgs v).
Proof.
  intros Wm Hc E. pose proof (w_rep _ _ _ Wm c Hc) as (_ & G). rewrite E, pgs_app in G. apply seg_app in G. destruct G as (_ & G).
  change (pgs ((p, i) :: v)) with (p :: pgs v) in G. cbn [seg] in G. tauto.
Qed.
Lemma W_states {A} (m : mem A) L X c : W m L X -> c <> 0 -> sts m c = mkState (hd page_nil (pgs (L c))) (last (pgs (L c)) page_nil).
Proof. intros Wm Hc. apply (w_rep _ _ _ Wm c Hc). Qed.

Lemma iwc_W {A} t (m : mem A) L X c u p a b v i x : W m L X -> c <> 0 -> L c = u ++ (p, a ++ b) :: v ->
  zl (a ++ b) < t_cap t <= 65534 -> i_page i = p -> (i_item i = zl a \/ (i_item i = item_nil /\ b = [])) ->
  exists m', insert_with_capacity t m i x = COk (m', mkR (mkI true p (zl a) E_none) (no_lead m) (no_lead m)) /\
    W m' (upd L c (u ++ (p, a ++ x :: b) :: v)) X /\ sts m' = sts m /\ steady m m' /\ fsize m' = fsize m.
Proof.
  intros Wm Hc EL Hcap Ep Hi. rewrite zl_app in Hcap. pose proof (zl_pos a). pose proof (zl_pos b).
  destruct (page_items _ _ _ _ _ _ _ _ Wm Hc EL) as (Ic & It). rewrite app_length in Ic.
  unfold insert_with_capacity. rewrite Ep.
  assert (Epos : (if i_item i =? item_nil then p_cnt (pages m p) else i_item i) = zl a).
  { destruct Hi as [Hi|(Hi & ->)]; rewrite Hi.
    - destruct (Z.eqb_spec (zl a) item_nil) as [E|]; [unfold item_nil in E; lia|reflexivity].
    - rewrite Z.eqb_refl, Ic. unfold zl. cbn [length]. lia. }
  rewrite Epos.
  assert (En : p_cnt (pages m p) - zl a = zl b) by (rewrite Ic; unfold zl; lia). rewrite En.
  destruct (Z.ltb_spec (zl b) 0); [lia|]. cbn [orb].
  destruct (Z.ltb_spec (t_cap t) (zl a + 1 + zl b)); [lia|]. rewrite andb_false_r.
  destruct (Z.leb_spec (t_cap t) (zl a)); [lia|].
  set (m1 := set_cnt _ _ _). set (m2 := set_arr m1 _ _). exists m2. split; [reflexivity|].
  assert (Hm2 : holds (pages m2 p) (a ++ x :: b)).
  { split.
    - unfold m2, m1. rewrite cnt_set_arr, cnt_set_cnt, Z.eqb_refl. rewrite small_u16; rewrite Ic; unfold zl in *; [|lia]. rewrite app_length. cbn [length]. lia.
    - unfold m2. rewrite arr_set_arr, Z.eqb_refl. unfold m1. rewrite arr_set_cnt, arr_set_arr, Z.eqb_refl. apply (tab_insert (p_arr (pages m p)) a x b It). }
  split; [|split; [reflexivity|split; [repeat split|reflexivity]]].
  eapply (W_items_of m m2 L X c u p (a ++ b) (a ++ x :: b) v Wm Hc EL); auto.
  - intros q Hq. unfold m2, m1. rewrite other_set_arr, other_set_cnt, other_set_arr; auto.
  - destruct (links_set_arr m p (moved (p_arr (pages m p)) (zl a + 1) (p_arr (pages m p)) (zl a) (zl b)) p) as (A1 & A2 & A3).
    destruct (links_set_cnt (set_arr m p (moved (p_arr (pages m p)) (zl a + 1) (p_arr (pages m p)) (zl a) (zl b))) p (wrap_u16 (p_cnt (pages m p) + 1)) p) as (B1 & B2 & B3).
    fold m1 in B1, B2, B3. destruct (links_set_arr m1 p (upd (p_arr (pages m1 p)) (zl a) x) p) as (C1 & C2 & C3). fold m2 in C1, C2, C3. repeat split; congruence.
Qed.

Definition good {A} (cap : Z) (ps : list (Z * list A)) : Prop := Forall (fun e => snd e <> [] /\ zl (snd e) <= cap) ps.
Lemma good_app {A} cap (a b : list (Z * list A)) : good cap (a ++ b) <-> good cap a /\ good cap b. Proof. apply Forall_app. Qed.
Lemma good_cons {A} cap p i (b : list (Z * list A)) : good cap ((p, i) :: b) <-> i <> [] /\ zl i <= cap /\ good cap b.
Proof. unfold good. rewrite Forall_cons_iff. cbn. tauto. Qed.

(** Where the new item [x] sits after inserting it between [l] and [r]. *)
Definition placed {A} cap (ps : list (Z * list A)) (l : list A) (x : A) (r : list A) (i : citr) : Prop :=
  good cap ps /\ exists u q a b v, ps = u ++ (q, a ++ x :: b) :: v /\ flat u ++ a = l /\ b ++ flat v = r /\ i = mkI true q (zl a) E_none.

Lemma upd_ext {A} (m : mem A) L X c a b : W m (upd (upd L c a) c b) X -> W m (upd L c b) X.
Proof. apply W_ext. intros d _. rewrite !upd_eq. destruct (d =? c); reflexivity. Qed.
Lemma upd_id {A} (m : mem A) L X c a : L c = a -> W m L X -> W m (upd L c a) X.
Proof. intro E. apply W_ext. intros d _. rewrite upd_eq. destruct (Z.eqb_spec d c); subst; auto. Qed.

Lemma split_W {A} t (m : mem A) L X c u p a1 a2 q v : W m L X -> c <> 0 -> L c = u ++ (p, a1 ++ a2) :: (q, []) :: v ->
  zl (a1 ++ a2) = t_cap t -> 1 <= t_cap t <= 65534 -> zl a2 = t_cap t / 2 ->
  let m' := balance_split t m p q in
  W m' (upd L c (u ++ (p, a1) :: (q, a2) :: v)) X /\ sts m' = sts m /\ steady m m' /\ fsize m' = fsize m /\
  p_cnt (pages m' p) = zl a1 /\ p_cnt (pages m' q) = zl a2.
Proof.
  intros Wm Hc EL Hcap Hb H2 m'. rewrite zl_app in Hcap. pose proof (zl_pos a1). pose proof (zl_pos a2).
  destruct (page_items _ _ _ _ _ _ _ _ Wm Hc EL) as (Ic & It).
  assert (EL2 : L c = (u ++ [(p, a1 ++ a2)]) ++ (q, []) :: v) by (rewrite <- app_assoc; exact EL).
  destruct (page_items _ _ _ _ _ _ _ _ Wm Hc EL2) as (Jc & Jt).
  assert (Npq : p <> q).
  { intros ->. pose proof (w_nd _ _ _ Wm c Hc) as ND. rewrite EL, pgs_app in ND. apply nodup_split in ND. apply (proj1 (proj2 ND)). left; reflexivity. }
  unfold m', balance_split. rewrite <- H2. replace (t_cap t - zl a2) with (zl a1) by lia. rewrite !small_u16 by lia.
  set (f := moved _ _ _ _ _). set (m1 := set_arr m q f). set (m2 := set_cnt m1 q (zl a2)). set (m3 := set_cnt m2 p (zl a1)).
  destruct (tab_split (p_arr (pages m p)) a1 a2 It) as (It1 & It2).
  assert (Wm1 : W m1 (upd L c ((u ++ [(p, a1 ++ a2)]) ++ (q, []) :: v)) X).
  { eapply (W_items_of m m1 L X c _ q [] [] v Wm Hc EL2); auto.
    - intros z Hz. apply other_set_arr; auto.
    - apply links_set_arr.
    - split; [unfold m1; rewrite cnt_set_arr; exact Jc|reflexivity]. }
  assert (Wm2 : W m2 (upd (upd L c ((u ++ [(p, a1 ++ a2)]) ++ (q, []) :: v)) c ((u ++ [(p, a1 ++ a2)]) ++ (q, a2) :: v)) X).
  { eapply (W_items_of m1 m2 _ X c _ q [] a2 v Wm1 Hc); auto.
    - apply upd_same.
    - intros z Hz. apply other_set_cnt; auto.
    - apply links_set_cnt.
    - split; [unfold m2; rewrite cnt_set_cnt, Z.eqb_refl; reflexivity|]. unfold m2. rewrite arr_set_cnt. unfold m1. rewrite arr_set_arr, Z.eqb_refl.
      etransitivity; [|exact It2]. apply tab_ext. intros k Hk. unfold f. rewrite moved_in by (unfold zl; lia). f_equal. unfold zl. lia. }
  assert (EL3 : upd (upd L c ((u ++ [(p, a1 ++ a2)]) ++ (q, []) :: v)) c ((u ++ [(p, a1 ++ a2)]) ++ (q, a2) :: v) c = u ++ (p, a1 ++ a2) :: (q, a2) :: v).
  { rewrite upd_same, <- app_assoc. reflexivity. }
  split; [|split; [reflexivity|split; [repeat split|split; [reflexivity|]]]].
  - apply (upd_ext _ _ _ _ ((u ++ [(p, a1 ++ a2)]) ++ (q, []) :: v)). apply (upd_ext _ _ _ _ ((u ++ [(p, a1 ++ a2)]) ++ (q, a2) :: v)).
    eapply (W_items_of m2 m3 _ X c u p (a1 ++ a2) a1 _ Wm2 Hc EL3); auto.
    + intros z Hz. apply other_set_cnt; auto.
    + apply links_set_cnt.
    + split; [unfold m3; rewrite cnt_set_cnt, Z.eqb_refl; reflexivity|]. unfold m3. rewrite arr_set_cnt. unfold m2. rewrite arr_set_cnt. unfold m1. rewrite arr_set_arr.
      destruct (Z.eqb_spec p q); [congruence|]. exact It1.
  - unfold m3. rewrite !cnt_set_cnt, Z.eqb_refl. destruct (Z.eqb_spec q p); [congruence|]. unfold m2. rewrite cnt_set_cnt, Z.eqb_refl. auto.
Qed.

Definition flags_ok (t : ctype) : Prop := 2 <= t_cap t /\ flag_test (t_ins t) flag_begin = true /\ flag_test (t_ins t) flag_inner = true.

Lemma ovf_W {A} t (m : mem A) L c u p a b v i x : W m L [] -> c <> 0 -> L c = u ++ (p, a ++ b) :: v ->
  good (t_cap t) (L c) -> zl (a ++ b) = t_cap t -> 1 <= t_cap t <= 65534 -> i_page i = p ->
  (i_item i = zl a /\ b <> [] /\ i_edge i = E_none /\ flags_ok t) \/ (i_item i = item_nil /\ i_edge i = E_end /\ b = [] /\ v = []) ->
  exists m' r, insert_with_overflow t c m i x = COk (m', r) /\ steady m m' /\ fsize m <= fsize m' <= fsize m + 1 /\
    ((i_ok (r_itr r) = false /\ W m' L [] /\ fsize m' = room m) \/
     exists ps, W m' (upd L c ps) [] /\ placed (t_cap t) ps (flat u ++ a) x (b ++ flat v) (r_itr r) /\ last (pgs ps) page_nil <> p).
Proof.
  intros Wm Hc EL Hg Hfull Hcap Ep Hi. unfold insert_with_overflow. rewrite Ep.
  destruct (page_bnd _ _ _ _ _ _ _ _ Wm Hc EL) as (Bp & Bp').
  assert (ELa : L c = (u ++ [(p, a ++ b)]) ++ v) by (rewrite <- app_assoc; exact EL).
  destruct (insert_page_W m L c _ _ Wm Hc ELa) as (m1 & q & E1 & ST1 & SZ1 & K1 & _). { intro E. destruct u; discriminate. }
  rewrite last_pgs in E1. rewrite E1. cbn [cbind].
  destruct K1 as [(-> & W1 & Z1)|(Nq & W1)].
  { rewrite Z.eqb_refl. exists m1, (no_result m1). split; [reflexivity|]. split; [auto|]. split; [auto|]. left. auto. }
  destruct (Z.eqb_spec q page_nil); [congruence|]. clear n.
  rewrite <- app_assoc in W1. cbn [app] in W1.
  set (L1 := upd L c (u ++ (p, a ++ b) :: (q, []) :: v)) in *.
  assert (EL1 : L1 c = u ++ (p, a ++ b) :: (q, []) :: v) by (unfold L1; apply upd_same).
  assert (ND1 : forall x1 x2, NoDup (pgs (u ++ (p, x1) :: (q, x2) :: v))).
  { intros. pose proof (w_nd _ _ _ W1 c Hc) as ND. rewrite EL1 in ND. rewrite pgs_app in *. exact ND. }
  assert (LAST : forall x1 x2, last (pgs (u ++ (p, x1) :: (q, x2) :: v)) page_nil <> p).
  { intros x1 x2 E. specialize (ND1 x1 x2). rewrite pgs_app in *. rewrite last_app in E. apply nodup_split in ND1.
    change (pgs ((p, x1) :: (q, x2) :: v)) with (p :: q :: pgs v) in *. rewrite last_cons in E.
    apply (proj1 (proj2 ND1)). rewrite <- E at 1. apply last_in. discriminate. }
  rewrite EL in Hg. apply good_app in Hg. destruct Hg as (Hgu & Hg). apply good_cons in Hg. destruct Hg as (_ & _ & Hgv).
  set (balance := should_balance_insert t m i).
  destruct Hi as [(Hit & Hb & Hed & (Hc2 & Hfb & Hfi))|(Hit & Hed & -> & ->)].
  - assert (EB : balance = true).
    { unfold balance, should_balance_insert. rewrite Hed. cbn [edge_eqb]. rewrite !andb_false_r. destruct (_ && _); auto. }
    rewrite EB. clear balance EB.
    pose (s := (length (a ++ b) - Z.to_nat (t_cap t / 2))%nat). set (a1 := firstn s (a ++ b)). set (a2 := skipn s (a ++ b)).
    assert (E12 : a1 ++ a2 = a ++ b) by apply firstn_skipn.
    assert (Hdiv : 1 <= t_cap t / 2 <= t_cap t - t_cap t / 2).
    { pose proof (Z.div_mod (t_cap t) 2). pose proof (Z.mod_pos_bound (t_cap t) 2). assert (1 <= t_cap t / 2) by (apply Z.div_le_lower_bound; lia). lia. }
    assert (Hz2 : zl a2 = t_cap t / 2). { unfold a2, s, zl in *. rewrite skipn_length. lia. }
    assert (Hz1 : zl a1 = t_cap t - t_cap t / 2). { rewrite <- Hz2, <- Hfull, <- E12, zl_app. lia. }
    rewrite <- E12 in EL1.
    destruct (split_W t m1 L1 [] c u p a1 a2 q v W1 Hc EL1) as (W2 & S2 & ST2 & SZ2 & Cp & Cq); auto. { rewrite E12; auto. }
    set (m2 := balance_split t m1 p q) in *. clearbody m2.
    set (L2 := upd L1 c (u ++ (p, a1) :: (q, a2) :: v)) in *.
    assert (EL2 : L2 c = u ++ (p, a1) :: (q, a2) :: v) by (unfold L2; apply upd_same).
    rewrite Cp, Hit.
    assert (Ha : zl a < t_cap t). { rewrite <- Hfull, zl_app. destruct b; [congruence|]. rewrite zl_cons. pose proof (zl_pos b). lia. }
    pose proof (zl_pos a).
    destruct (Z.eqb_spec (zl a) item_nil) as [E|_]; [unfold item_nil in E; lia|]. cbn [negb andb].
    destruct (Z.leb_spec (zl a) (zl a1)) as [Hle|Hgt].
    + (* the former page *)
      assert (exists b1, a1 = a ++ b1 /\ b1 ++ a2 = b) as (b1 & Eb1 & Eb).
      { exists (skipn (length a) a1). unfold zl in *.
        assert (F : firstn (length a) a1 = a).
        { pose proof (f_equal (firstn (length a)) E12) as F. rewrite firstn_app, firstn_app in F.
          replace (length a - length a1)%nat with 0%nat in F by lia. rewrite Nat.sub_diag, !firstn_O, !app_nil_r, firstn_all in F. exact F. }
        split; [rewrite <- F at 1; symmetry; apply firstn_skipn|].
        apply (app_inv_head a). rewrite <- E12. rewrite <- (firstn_skipn (length a) a1) at 2. rewrite F, app_assoc. reflexivity. }
      rewrite Eb1 in EL2, Hz1.
      destruct (iwc_W t m2 L2 [] c u p a b1 _ i x W2 Hc EL2) as (m3 & E3 & W3 & S3 & ST3 & SZ3); auto. { lia. }
      rewrite E3. cbn [cbind]. eexists m3, _. split; [reflexivity|].
      split; [eapply steady_trans; [exact ST1|eapply steady_trans; eauto]|]. split; [lia|]. right.
      exists (u ++ (p, a ++ x :: b1) :: (q, a2) :: v). split; [|split; [|apply LAST]].
      * apply upd_ext in W3. apply upd_ext in W3. exact W3.
      * split.
        -- apply good_app. split; auto. apply good_cons. split; [destruct a; discriminate|]. split; [rewrite zl_app, zl_cons; rewrite zl_app in Hz1; lia|].
           apply good_cons. split; [intros ->; rewrite zl_nil in Hz2; lia|]. split; [lia|auto].
        -- exists u, p, a, b1, ((q, a2) :: v). cbn [r_itr]. split; [reflexivity|]. split; [reflexivity|]. split; [|reflexivity]. rewrite flat_cons, app_assoc, Eb. reflexivity.
    + (* the latter page *)
      assert (exists a', a = a1 ++ a' /\ a' ++ b = a2) as (a' & Ea & Ea').
      { exists (skipn (length a1) a). unfold zl in *.
        assert (F : firstn (length a1) a = a1).
        { pose proof (f_equal (firstn (length a1)) E12) as F. rewrite firstn_app, firstn_app in F.
          replace (length a1 - length a)%nat with 0%nat in F by lia. rewrite Nat.sub_diag, !firstn_O, !app_nil_r, firstn_all in F. auto. }
        split; [rewrite <- F at 1; symmetry; apply firstn_skipn|].
        apply (app_inv_head a1). rewrite E12, app_assoc. f_equal. rewrite <- F at 1. apply firstn_skipn. }
      assert (EL2' : L2 c = (u ++ [(p, a1)]) ++ (q, a' ++ b) :: v) by (rewrite EL2, <- app_assoc, Ea'; reflexivity).
      rewrite small_u16 by lia.
      destruct (iwc_W t m2 L2 [] c (u ++ [(p, a1)]) q a' b v (mkI true q (zl a - zl a1) E_none) x W2 Hc EL2') as (m3 & E3 & W3 & S3 & ST3 & SZ3); auto.
      { rewrite Ea'. lia. } { left. cbn. rewrite Ea, zl_app. lia. }
      rewrite E3. cbn [cbind]. eexists m3, _. split; [reflexivity|].
      split; [eapply steady_trans; [exact ST1|eapply steady_trans; eauto]|]. split; [lia|]. right.
      exists (u ++ (p, a1) :: (q, a' ++ x :: b) :: v). split; [|split; [|apply LAST]].
      * apply upd_ext in W3. apply upd_ext in W3. rewrite <- app_assoc in W3. exact W3.
      * split.
        -- apply good_app. split; auto. apply good_cons. split; [intros E; rewrite E, zl_nil in Hz1; lia|]. split; [lia|].
           apply good_cons. split; [destruct a'; discriminate|]. split; [|auto]. rewrite zl_app, zl_cons. rewrite <- Ea', zl_app in Hz2. lia.
        -- exists (u ++ [(p, a1)]), q, a', b, v. cbn [r_itr]. split; [rewrite <- app_assoc; reflexivity|]. split; [rewrite flat_app, Ea, <- app_assoc; cbn; rewrite app_nil_r; reflexivity|]. split; reflexivity.
  - (* at the end *)
    rewrite app_nil_r in *. rewrite Hit, Z.eqb_refl. cbn [negb andb].
    set (m2 := if balance then balance_split t m1 p q else m1).
    assert (exists a1 a2, a1 ++ a2 = a /\ zl a2 < t_cap t /\ (zl a1 <= t_cap t) /\ a1 <> [] /\ W m2 (upd L1 c (u ++ (p, a1) :: (q, a2) :: [])) [] /\ steady m1 m2 /\ fsize m2 = fsize m1 /\ p_cnt (pages m2 q) = zl a2) as (a1 & a2 & E12 & Hz2 & Hz1 & Hn1 & W2 & ST2 & SZ2 & Cq).
    { unfold m2. destruct balance.
      - pose (s := (length a - Z.to_nat (t_cap t / 2))%nat). exists (firstn s a), (skipn s a).
        assert (Hdiv : 0 <= t_cap t / 2 < t_cap t). { split; [apply Z.div_pos; lia|apply Z.div_lt_upper_bound; lia]. }
        assert (E12 : firstn s a ++ skipn s a = a) by apply firstn_skipn.
        assert (Hz2 : zl (skipn s a) = t_cap t / 2). { unfold s, zl in *. rewrite skipn_length. lia. }
        rewrite <- E12 in EL1 at 1.
        destruct (split_W t m1 L1 [] c u p _ _ q [] W1 Hc EL1) as (W2 & S2 & ST2 & SZ2 & Cp & Cq); auto. { rewrite E12; auto. }
        split; [exact E12|]. split; [lia|]. split; [unfold zl in *; rewrite firstn_length; lia|]. split; [intro E; apply f_equal with (f := @length A) in E; rewrite firstn_length in E; unfold zl, s in *; cbn in E; lia|]. auto.
      - exists a, []. split; [apply app_nil_r|]. rewrite zl_nil. split; [lia|]. split; [lia|]. split; [intros ->; rewrite zl_nil in Hfull; lia|].
        split; [apply upd_id; auto|]. split; [apply steady_refl|]. split; [reflexivity|].
        assert (ELq : L1 c = (u ++ [(p, a)]) ++ (q, []) :: []) by (rewrite EL1, <- app_assoc; reflexivity).
        destruct (page_items _ _ _ _ _ _ _ _ W1 Hc ELq) as (Ic & _). exact Ic. }
    clearbody m2. clear balance. rewrite Cq.
    set (L2 := upd L1 c (u ++ (p, a1) :: (q, a2) :: [])) in *.
    assert (EL2 : L2 c = (u ++ [(p, a1)]) ++ (q, a2 ++ []) :: []) by (unfold L2; rewrite upd_same, <- app_assoc, app_nil_r; reflexivity).
    destruct (iwc_W t m2 L2 [] c (u ++ [(p, a1)]) q a2 [] [] (mkI true q (zl a2) E_none) x W2 Hc EL2) as (m3 & E3 & W3 & S3 & ST3 & SZ3); auto. { rewrite app_nil_r. lia. }
    rewrite E3. cbn [cbind]. eexists m3, _. split; [reflexivity|].
    split; [eapply steady_trans; [exact ST1|eapply steady_trans; eauto]|]. split; [lia|]. right.
    exists (u ++ (p, a1) :: (q, a2 ++ [x]) :: []). split; [|split; [|apply LAST]].
    + apply upd_ext in W3. apply upd_ext in W3. rewrite <- app_assoc in W3. exact W3.
    + split.
      * apply good_app. split; auto. apply good_cons. split; [auto|]. split; [auto|]. apply good_cons. split; [destruct a2; discriminate|]. split; [rewrite zl_app; unfold zl at 2; cbn; lia|constructor].
      * exists (u ++ [(p, a1)]), q, a2, [], []. cbn [r_itr]. split; [rewrite <- app_assoc; reflexivity|]. split; [rewrite flat_app, <- E12, <- app_assoc; cbn; rewrite app_nil_r; reflexivity|]. split; reflexivity.
Qed.

Lemma W_tot {A} (m : mem A) L X c v : W m L X -> W (set_tot m c v) L X.
Proof. intros [R It Nd Di Bn NX Lo Fr Sz]. constructor; auto. Qed.
Lemma nonempty_ends {A} (m : mem A) L X c : W m L X -> c <> 0 -> L c <> [] ->
  front (sts m c) <> page_nil /\ back (sts m c) <> page_nil /\ back (sts m c) = last (pgs (L c)) page_nil.
Proof.
  intros Wm Hc Hn. rewrite (W_states _ _ _ _ Wm Hc). cbn [front back].
  assert (B : forall q, In q (pgs (L c)) -> q <> page_nil). { intros q Hq ->. apply (pgs_bnd _ _ _ _ _ Wm Hc) in Hq. lia. }
  assert (N : pgs (L c) <> []) by (destruct (L c); [congruence|discriminate]).
  split; [apply B, hd_in; auto|]. split; [apply B, last_in; auto|auto].
Qed.

(** The iterator [i] stands between the items [l] and [r]. *)
Definition between {A} (m : mem A) (L : layout A) (c : Z) (i : citr) (l r : list A) : Prop :=
  (i = c_end c m /\ l = flat (L c) /\ r = []) \/
  (exists u p a y b v, L c = u ++ (p, a ++ y :: b) :: v /\ i = mkI true p (zl a) E_none /\ l = flat u ++ a /\ r = y :: b ++ flat v).

Lemma zl_ok {B} (a : list B) n : zl a <= n -> n < 65535 -> (zl a =? item_nil) = false.
Proof. intros. apply Z.eqb_neq. unfold item_nil. lia. Qed.

Lemma ins_W {A} t (m : mem A) L c i l r x : W m L [] -> c <> 0 -> good (t_cap t) (L c) -> 1 <= t_cap t <= 65534 ->
  between m L c i l r -> (r = [] \/ flags_ok t) ->
  exists m' r', c_insert t c m i x = COk (m', r') /\ room m' = room m /\ m_zero m' = m_zero m /\ fsize m <= fsize m' <= fsize m + 1 /\
    ((r_itr r' = c_end c m' /\ W m' L [] /\ fsize m' = room m /\ tots m' = tots m) \/
     exists ps, W m' (upd L c ps) [] /\ placed (t_cap t) ps l x r (r_itr r') /\ tots m' = upd (tots m) c (wrap_u64 (tots m c + 1))).
Proof.
  intros Wm Hc Hg Hcap Hbt Hfl. unfold c_insert.
  assert (K : forall m1 r1, insert_nostate t c m i x = COk (m1, r1) -> steady m m1 -> fsize m <= fsize m1 <= fsize m + 1 ->
     ((i_ok (r_itr r1) = false /\ W m1 L [] /\ fsize m1 = room m) \/
      exists ps, W m1 (upd L c ps) [] /\ placed (t_cap t) ps l x r (r_itr r1) /\ (ld_page (r_l0 r1) <> page_nil -> last (pgs ps) page_nil <> i_page i)) ->
     exists m' r', cbind (insert_nostate t c m i x) (fun '(m, r) =>
       if i_ok (r_itr r) then
        let m := if front (sts m c) =? page_nil then set_front m c (i_page (r_itr r)) else m in
        let m := if back (sts m c) =? page_nil then set_back m c (i_page (r_itr r))
                 else if (back (sts m c) =? i_page i) && negb (ld_page (r_l0 r) =? page_nil) then set_back m c (ld_page (r_l0 r))
                 else m in
        COk (set_tot m c (wrap_u64 (tots m c + 1)), r)
       else COk (m, mkR (c_end c m) (no_lead m) (no_lead m))) = COk (m', r') /\ room m' = room m /\ m_zero m' = m_zero m /\ fsize m <= fsize m' <= fsize m + 1 /\
    ((r_itr r' = c_end c m' /\ W m' L [] /\ fsize m' = room m /\ tots m' = tots m) \/
     exists ps, W m' (upd L c ps) [] /\ placed (t_cap t) ps l x r (r_itr r') /\ tots m' = upd (tots m) c (wrap_u64 (tots m c + 1)))).
  { intros m1 r1 E (T1 & R1 & Z1) SZ H. rewrite E. cbn [cbind]. destruct H as [(Ho & W1 & F1)|(ps & W1 & P1 & B1)].
    - rewrite Ho. eexists m1, _. split; [reflexivity|]. repeat (split; [auto; fail|]). left. auto.
    - assert (Ho : i_ok (r_itr r1) = true) by (destruct P1 as (_ & u & q & a & b & v & _ & _ & _ & ->); reflexivity). rewrite Ho.
      assert (Nps : upd L c ps c <> []). { rewrite upd_same. destruct P1 as (_ & u & q & a & b & v & -> & _). destruct u; discriminate. }
      destruct (nonempty_ends _ _ _ _ W1 Hc Nps) as (N1 & N2 & N3). rewrite upd_same in N3.
      destruct (Z.eqb_spec (front (sts m1 c)) page_nil); [congruence|]. cbn zeta.
      destruct (Z.eqb_spec (back (sts m1 c)) page_nil); [congruence|].
      assert (EX : (back (sts m1 c) =? i_page i) && negb (ld_page (r_l0 r1) =? page_nil) = false).
      { rewrite N3. destruct (Z.eqb_spec (ld_page (r_l0 r1)) page_nil); [apply andb_false_r|]. rewrite andb_true_r. apply Z.eqb_neq. auto. }
      rewrite EX. eexists (set_tot m1 c _), r1. split; [reflexivity|]. split; [auto|]. split; [auto|]. split; [auto|]. right.
      exists ps. split; [apply W_tot; auto|]. split; auto. cbn. rewrite T1. reflexivity. }
  destruct Hbt as [(-> & -> & ->)|(u & p & a & y & b & v & EL & -> & -> & ->)].
  - unfold c_end in *. cbn [i_page i_item i_edge] in *. rewrite Z.eqb_refl in *. cbn [negb orb edge_eqb andb] in *. rewrite andb_false_r. 
    pose proof (W_states _ _ _ _ Wm Hc) as ES.
    destruct (L c) as [|w u _] eqn:EL using rev_ind.
    + assert (ES2 : sts m c = mkState page_nil page_nil) by exact ES. unfold c_empty, l_empty. rewrite ES2 in *. cbn [front back] in *. rewrite Z.eqb_refl in *. cbn [orb negb andb] in *.
      unfold insert_nostate in *. cbn [i_page] in *. rewrite Z.eqb_refl in *. unfold insert_empty in *.
      destruct (insert_page_W m L c [] [] Wm Hc EL) as (m1 & q & E1 & ST1 & SZ1 & K1 & _); [auto|]. cbn [pgs map last] in E1. rewrite E1 in *. cbn [cbind] in *.
      destruct K1 as [(-> & W1 & Z1)|(Nq & W1)].
      * rewrite Z.eqb_refl in *. apply (K m1 (no_result m1)); auto.
      * destruct (Z.eqb_spec q page_nil); [congruence|].
        destruct (iwc_W t m1 (upd L c [(q, [])]) [] c [] q [] [] [] (mkI true q 0 E_none) x W1 Hc) as (m2 & E2 & W2 & S2 & ST2 & SZ2); auto.
        { apply upd_same. } { cbn. lia. }
        rewrite E2 in *. apply (K _ _ eq_refl); [eapply steady_trans; eauto|lia|]. right. exists [(q, [x])]. split; [apply upd_ext in W2; exact W2|]. split; [|cbn; congruence].
        split; [apply good_cons; split; [discriminate|]; split; [unfold zl; cbn; lia|constructor]|]. exists [], q, [], [], []. cbn. auto.
    + destruct w as [p its]. pose proof ES as ES2. rewrite last_pgs in ES2. rewrite ES2 in *. cbn [back] in *.
      destruct (page_bnd _ _ _ _ _ _ _ _ Wm Hc EL) as (Bp & Bp'). destruct (Z.eqb_spec p page_nil); [lia|]. cbn [andb].
      pose proof Hg as Hg'. apply good_app in Hg'. destruct Hg' as (Hgu & Hgp). apply good_cons in Hgp. destruct Hgp as (Hn & Hle & _).
      destruct (page_items _ _ _ _ _ _ _ _ Wm Hc EL) as (Ic & It).
      assert (EL' : L c = u ++ (p, its ++ []) :: []) by (rewrite app_nil_r; exact EL).
      unfold insert_nostate in *. cbn [i_page] in *. destruct (Z.eqb_spec p page_nil); [lia|]. unfold insert_nonempty in *. cbn [i_page] in *. fold (zl its) in Ic. rewrite Ic in *.
      destruct (Z.eqb_spec (zl its) (t_cap t)) as [E|N].
      * destruct (ovf_W t m L c u p its [] [] (mkI true p item_nil E_end) x Wm Hc EL') as (m1 & r1 & E1 & ST1 & SZ1 & K1); auto.
        { rewrite EL; auto. } { rewrite app_nil_r; auto. }
        apply (K m1 r1); auto. destruct K1 as [K1|(ps & W1 & P1 & L1)]; [left; auto|right]. exists ps. split; auto. split; [|auto]. rewrite flat_app. cbn [flat map concat snd]. rewrite app_nil_r. cbn [app] in P1. rewrite app_nil_r in P1 || idtac. exact P1.
      * destruct (iwc_W t m L [] c u p its [] [] (mkI true p item_nil E_end) x Wm Hc EL') as (m1 & E1 & W1 & S1 & ST1 & SZ1); auto.
        { rewrite app_nil_r. lia. }
        apply (K _ _ E1); auto; [lia|]. right. exists (u ++ [(p, its ++ [x])]). split; auto. split; [|cbn; congruence].
        split; [apply good_app; split; auto; apply good_cons; split; [destruct its; discriminate|]; split; [rewrite zl_app; unfold zl at 2; cbn; lia|constructor]|].
        exists u, p, its, [], []. split; auto. split; [rewrite flat_app; cbn; rewrite app_nil_r; auto|]. cbn. auto.
  - assert (FO : flags_ok t) by (destruct Hfl as [Hfl|]; [discriminate|auto]). clear Hfl. cbn [i_page i_item i_edge] in *.
    destruct (page_bnd _ _ _ _ _ _ _ _ Wm Hc EL) as (Bp & Bp'). destruct (Z.eqb_spec p page_nil); [lia|]. cbn [andb].
    pose proof Hg as Hg'. rewrite EL in Hg'. apply good_app in Hg'. destruct Hg' as (Hgu & Hgp). apply good_cons in Hgp. destruct Hgp as (Hn & Hle & Hgv).
    pose proof Hle as Hle2. rewrite zl_app, zl_cons in Hle2. pose proof (zl_pos a). pose proof (zl_pos b).
    rewrite (zl_ok a (t_cap t)) by lia. cbn [andb].
    destruct (page_items _ _ _ _ _ _ _ _ Wm Hc EL) as (Ic & It). fold (zl (a ++ y :: b)) in Ic.
    unfold insert_nostate in *. cbn [i_page] in *. destruct (Z.eqb_spec p page_nil); [lia|]. unfold insert_nonempty in *. cbn [i_page] in *. rewrite Ic in *.
    destruct (Z.eqb_spec (zl (a ++ y :: b)) (t_cap t)) as [E|N].
    + destruct (ovf_W t m L c u p a (y :: b) v (mkI true p (zl a) E_none) x Wm Hc EL) as (m1 & r1 & E1 & ST1 & SZ1 & K1); auto.
      { left. repeat split; auto; try discriminate; apply FO. }
      apply (K m1 r1); auto. destruct K1 as [K1|(ps & W1 & P1 & L1)]; [left; auto|right]. exists ps. auto.
    + destruct (iwc_W t m L [] c u p a (y :: b) v (mkI true p (zl a) E_none) x Wm Hc EL) as (m1 & E1 & W1 & S1 & ST1 & SZ1); auto.
      { lia. }
      apply (K _ _ E1); auto; [lia|]. right. exists (u ++ (p, a ++ x :: y :: b) :: v). split; auto. split; [|cbn; congruence].
      split; [apply good_app; split; auto; apply good_cons; split; [destruct a; discriminate|]; split; [rewrite zl_app, !zl_cons in *; lia|auto]|].
      exists u, p, a, (y :: b), v. split; auto.
Qed.
