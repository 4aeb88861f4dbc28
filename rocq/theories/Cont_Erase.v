(** Proofs about containers: erasing an item. *)

From Coq Require Import ZArith List Bool Lia.
From Verif Require Import Base Cache_Model Linked_Model Linked_Proofs Cont_Model Cont_Spec Cont_Proofs Cont_Steps.
Import ListNotations.
Open Scope Z_scope.
Local Opaque page_nil.

(** The first item of the pages [v], or the end of the container. *)
Definition at_v {A} (m : mem A) (c : Z) (v : list (Z * list A)) : citr :=
  match v with [] => c_end c m | (q, _) :: _ => mkI true q 0 E_none end.

Lemma next_v {A} (m : mem A) L X c u p i v : W m L X -> c <> 0 -> L c = u ++ (p, i) :: v ->
  (if p_next (pages m p) =? page_nil then c_end c m else mkI true (p_next (pages m p)) 0 E_none) = at_v m c v.
Proof.
  intros Wm Hc EL. destruct (page_links _ _ _ _ _ _ _ _ Wm Hc EL) as (_ & E). rewrite E. destruct v as [|[q j] v]; cbn [pgs map hd fst at_v].
  - rewrite Z.eqb_refl. reflexivity.
  - assert (EL2 : L c = (u ++ [(p, i)]) ++ (q, j) :: v) by (rewrite <- app_assoc; exact EL). destruct (page_bnd _ _ _ _ _ _ _ _ Wm Hc EL2).
    destruct (Z.eqb_spec q page_nil); [lia|reflexivity].
Qed.

Lemma efm_W {A} t (m : mem A) L c u p a x b v : W m L [] -> c <> 0 -> L c = u ++ (p, a ++ x :: b) :: v -> a ++ b <> [] ->
  zl (a ++ x :: b) <= t_cap t <= 65534 ->
  exists m' r, erase_from_many t c m (mkI true p (zl a) E_none) = COk (m', r) /\ W m' (upd L c (u ++ (p, a ++ b) :: v)) [] /\
    sts m' = sts m /\ steady m m' /\ fsize m' = fsize m /\ p_cnt (pages m' p) = zl (a ++ b) /\
    r_itr r = match b with [] => at_v m c v | _ => mkI true p (zl a) E_none end.
Proof.
  intros Wm Hc EL Hn Hcap. rewrite zl_app, zl_cons in Hcap. pose proof (zl_pos a). pose proof (zl_pos b).
  destruct (page_items _ _ _ _ _ _ _ _ Wm Hc EL) as (Ic & It). fold (zl (a ++ x :: b)) in Ic. rewrite zl_app, zl_cons in Ic.
  unfold erase_from_many. cbn [i_page i_item]. rewrite Ic.
  destruct b as [|y b].
  - rewrite zl_nil in *. destruct (Z.ltb_spec (zl a) (zl a + (1 + 0) - 1)); [lia|]. cbn [cbind r_itr].
    rewrite (next_v _ _ _ _ _ _ _ _ Wm Hc EL). eexists _, _. split; [reflexivity|].
    rewrite small_u16 by lia. split; [|split; [reflexivity|split; [repeat split|split; [reflexivity|split; [rewrite cnt_set_cnt, Z.eqb_refl, app_nil_r; lia|reflexivity]]]]].
    eapply (W_items_of m _ L [] c u p _ (a ++ []) v Wm Hc EL); auto.
    + intros q Hq. apply other_set_cnt; auto.
    + apply links_set_cnt.
    + split; [rewrite cnt_set_cnt, Z.eqb_refl; rewrite app_nil_r; unfold zl; lia|]. rewrite arr_set_cnt, app_nil_r. apply (tab_split _ _ _ It).
  - rewrite zl_cons in *. pose proof (zl_pos b). destruct (Z.ltb_spec (zl a) (zl a + (1 + (1 + zl b)) - 1)); [|lia].
    destruct (Z.ltb_spec (t_cap t) (zl a + (zl a + (1 + (1 + zl b)) - zl a - 1))); [lia|]. cbn [cbind r_itr].
    eexists _, _. split; [reflexivity|].
    rewrite small_u16 by lia. split; [|split; [reflexivity|split; [repeat split|split; [reflexivity|split; [rewrite cnt_set_cnt, Z.eqb_refl, zl_app, zl_cons; lia|reflexivity]]]]].
    set (f := moved _ _ _ _ _). set (m1 := set_arr m p f).
    eapply (W_items_of m _ L [] c u p _ (a ++ y :: b) v Wm Hc EL); auto.
    + intros q Hq. rewrite other_set_cnt; auto. apply other_set_arr; auto.
    + destruct (links_set_arr m p f p) as (A1 & A2 & A3). fold m1 in A1, A2, A3. destruct (links_set_cnt m1 p (zl a + (1 + (1 + zl b)) - 1) p) as (B1 & B2 & B3). repeat split; congruence.
    + split; [rewrite cnt_set_cnt, Z.eqb_refl; fold (zl (a ++ y :: b)); rewrite zl_app, zl_cons; lia|]. rewrite arr_set_cnt. unfold m1. rewrite arr_set_arr, Z.eqb_refl. unfold f.
      replace (zl a + (1 + (1 + zl b)) - zl a - 1) with (Z.of_nat (length (y :: b))) by (cbn [length]; unfold zl; lia).
      apply tab_erase with (x := x). exact It.
Qed.

(** Merging page [q] into page [p] in front of it: common part of balance_merge_next and balance_merge_prev. *)
Lemma merge_W {A} (m : mem A) L c u p i1 q i2 v : W m L [] -> c <> 0 -> L c = u ++ (p, i1) :: (q, i2) :: v -> zl i1 + zl i2 <= 65534 ->
  let m1 := set_arr m p (moved (p_arr (pages m p)) (p_cnt (pages m p)) (p_arr (pages m q)) 0 (p_cnt (pages m q))) in
  let m2 := set_cnt m1 p (wrap_u16 (p_cnt (pages m p) + p_cnt (pages m q))) in
  exists m', erase_page c m2 q = COk m' /\ W m' (upd L c (u ++ (p, i1 ++ i2) :: v)) [] /\ steady m m' /\ fsize m' = fsize m.
Proof.
  intros Wm Hc EL Hcap m1 m2. pose proof (zl_pos i1). pose proof (zl_pos i2).
  destruct (page_items _ _ _ _ _ _ _ _ Wm Hc EL) as (Ic & It). fold (zl i1) in Ic.
  assert (EL2 : L c = (u ++ [(p, i1)]) ++ (q, i2) :: v) by (rewrite <- app_assoc; exact EL).
  destruct (page_items _ _ _ _ _ _ _ _ Wm Hc EL2) as (Jc & Jt). fold (zl i2) in Jc.
  assert (W2 : W m2 (upd L c (u ++ (p, i1 ++ i2) :: (q, i2) :: v)) []).
  { eapply (W_items_of m m2 L [] c u p i1 (i1 ++ i2) _ Wm Hc EL); auto.
    - intros z Hz. unfold m2, m1. rewrite other_set_cnt, other_set_arr; auto.
    - destruct (links_set_arr m p (moved (p_arr (pages m p)) (p_cnt (pages m p)) (p_arr (pages m q)) 0 (p_cnt (pages m q))) p) as (A1 & A2 & A3). fold m1 in A1, A2, A3.
      destruct (links_set_cnt m1 p (wrap_u16 (p_cnt (pages m p) + p_cnt (pages m q))) p) as (B1 & B2 & B3). fold m2 in B1, B2, B3. repeat split; congruence.
    - split; [unfold m2; rewrite cnt_set_cnt, Z.eqb_refl, Ic, Jc, small_u16 by lia; fold (zl (i1 ++ i2)); rewrite zl_app; reflexivity|].
      unfold m2. rewrite arr_set_cnt. unfold m1. rewrite arr_set_arr, Z.eqb_refl, Ic, Jc. apply tab_append; auto. }
  assert (EL3 : upd L c (u ++ (p, i1 ++ i2) :: (q, i2) :: v) c = (u ++ [(p, i1 ++ i2)]) ++ (q, i2) :: v) by (rewrite upd_same, <- app_assoc; reflexivity).
  destruct (erase_page_W m2 _ c _ q i2 v W2 Hc EL3) as (m3 & E3 & W3 & ST3 & SZ3).
  exists m3. split; auto. split; [apply upd_ext in W3; rewrite <- app_assoc in W3; exact W3|]. split; [|cbn in SZ3; exact SZ3].
  eapply steady_trans; [|exact ST3]. repeat split.
Qed.

Lemma merge_next_W {A} t (m : mem A) L c u p i1 q i2 v i : W m L [] -> c <> 0 -> L c = u ++ (p, i1) :: (q, i2) :: v -> t_cap t <= 65534 ->
  exists m' r, balance_merge_next t c m i p = COk (m', r) /\ steady m m' /\ fsize m' = fsize m /\
    (if zl i1 + zl i2 <=? t_cap t then W m' (upd L c (u ++ (p, i1 ++ i2) :: v)) [] /\ r_itr r = (if i_page i =? q then mkI true p (zl i1) E_none else i)
     else m' = m /\ r_itr r = i).
Proof.
  intros Wm Hc EL Hcap. unfold balance_merge_next.
  destruct (page_items _ _ _ _ _ _ _ _ Wm Hc EL) as (Ic & It). fold (zl i1) in Ic.
  assert (EL2 : L c = (u ++ [(p, i1)]) ++ (q, i2) :: v) by (rewrite <- app_assoc; exact EL).
  destruct (page_items _ _ _ _ _ _ _ _ Wm Hc EL2) as (Jc & Jt). fold (zl i2) in Jc.
  destruct (page_links _ _ _ _ _ _ _ _ Wm Hc EL) as (_ & E). cbn [pgs map hd fst] in E. rewrite E. 
  destruct (Z.leb_spec (zl i1 + zl i2) (t_cap t)) as [H|H].
  - destruct (merge_W m L c u p i1 q i2 v Wm Hc EL) as (m' & E' & W' & ST' & SZ'); [lia|].
    rewrite Ic, Jc in *. destruct (Z.leb_spec (zl i1 + zl i2) (t_cap t)); [|lia]. destruct (Z.ltb_spec (t_cap t) (zl i1 + zl i2)); [lia|].
    rewrite E'. cbn [cbind]. eexists _, _. split; [reflexivity|]. split; auto.
  - rewrite Ic, Jc. destruct (Z.leb_spec (zl i1 + zl i2) (t_cap t)); [lia|]. eexists _, _. split; [reflexivity|]. split; [apply steady_refl|]. auto.
Qed.
Lemma merge_prev_W {A} t (m : mem A) L c u o i0 p i1 v i : W m L [] -> c <> 0 -> L c = u ++ (o, i0) :: (p, i1) :: v -> t_cap t <= 65534 ->
  exists m' r, balance_merge_prev t c m i p = COk (m', r) /\ steady m m' /\ fsize m' = fsize m /\
    (if zl i0 + zl i1 <=? t_cap t then W m' (upd L c (u ++ (o, i0 ++ i1) :: v)) [] /\
       r_itr r = (if i_page i =? p then (if i_item i =? item_nil then mkI true o (i_item i) (i_edge i) else mkI true o (wrap_u16 (i_item i + zl i0)) E_none) else i)
     else m' = m /\ r_itr r = i).
Proof.
  intros Wm Hc EL Hcap. unfold balance_merge_prev.
  destruct (page_items _ _ _ _ _ _ _ _ Wm Hc EL) as (Ic & It). fold (zl i0) in Ic.
  assert (EL2 : L c = (u ++ [(o, i0)]) ++ (p, i1) :: v) by (rewrite <- app_assoc; exact EL).
  destruct (page_items _ _ _ _ _ _ _ _ Wm Hc EL2) as (Jc & Jt). fold (zl i1) in Jc.
  destruct (page_links _ _ _ _ _ _ _ _ Wm Hc EL2) as (E & _). rewrite last_pgs in E. rewrite E.
  destruct (Z.leb_spec (zl i0 + zl i1) (t_cap t)) as [H|H].
  - destruct (merge_W m L c u o i0 p i1 v Wm Hc EL) as (m' & E' & W' & ST' & SZ'); [lia|].
    rewrite Ic, Jc in *. destruct (Z.leb_spec (zl i1 + zl i0) (t_cap t)); [|lia]. destruct (Z.ltb_spec (t_cap t) (zl i0 + zl i1)); [lia|].
    rewrite E'. cbn [cbind]. eexists _, _. split; [reflexivity|]. split; auto.
  - rewrite Ic, Jc. destruct (Z.leb_spec (zl i1 + zl i0) (t_cap t)); [lia|]. eexists _, _. split; [reflexivity|]. split; [apply steady_refl|]. auto.
Qed.

Lemma pair_app {B} (u : list B) x y v : u ++ x :: y :: v = (u ++ [x]) ++ y :: v.
Proof. rewrite <- app_assoc. reflexivity. Qed.

(** balance_merge with the iterator that erase_from_many returned *)
Lemma bm_W {A} t (m : mem A) L c u p a b v i : W m L [] -> c <> 0 -> L c = u ++ (p, a ++ b) :: v -> good (t_cap t) (L c) -> t_cap t <= 65534 ->
  i = match b with [] => at_v m c v | _ => mkI true p (zl a) E_none end ->
  let bad := match u, b, v with _ :: _, [], (_, i2) :: _ => zl a + zl i2 <=? t_cap t | _, _, _ => false end in
  exists m' r ps, balance_merge t c m i p = COk (m', r) /\ steady m m' /\ fsize m' = fsize m /\ W m' (upd L c ps) [] /\ good (t_cap t) ps /\
    flat ps = flat u ++ a ++ b ++ flat v /\
    (bad = false -> between m' (upd L c ps) c (r_itr r) (flat u ++ a) (b ++ flat v)) /\
    (bad = true -> In (i_page (r_itr r)) (pgs (L c)) /\ ~ In (i_page (r_itr r)) (pgs ps)) /\ i_ok (r_itr r) = true.
Proof.
  intros Wm Hc EL Hg Hcap Hi bad. unfold balance_merge.
  destruct (page_bnd _ _ _ _ _ _ _ _ Wm Hc EL) as (Bp & Bp').
  destruct (page_links _ _ _ _ _ _ _ _ Wm Hc EL) as (Epv & Enx).
  pose proof Hg as Hg'. rewrite EL in Hg'. apply good_app in Hg'. destruct Hg' as (Hgu & Hgp). apply good_cons in Hgp. destruct Hgp as (Hne & Hle & Hgv).
  (* first step: the next page *)
  assert (STEP1 : exists m1 r1 b1 v1, (if p_next (pages m p) =? page_nil then COk (m, mkR i (no_lead m) (no_lead m)) else balance_merge_next t c m i p) = COk (m1, r1) /\
     steady m m1 /\ fsize m1 = fsize m /\ W m1 (upd L c (u ++ (p, a ++ b ++ b1) :: v1)) [] /\ zl (a ++ b ++ b1) <= t_cap t /\ good (t_cap t) v1 /\ b1 ++ flat v1 = flat v /\
     (match b, v with [], (_, i2) :: _ => zl a + zl i2 <=? t_cap t | _, _ => false end = true -> 
        r_itr r1 = mkI true p (zl a) E_none /\ b = [] /\ b1 <> [] /\ exists q i2 v', v = (q, i2) :: v' /\ i = mkI true q 0 E_none /\ v1 = v') /\
     (match b, v with [], (_, i2) :: _ => zl a + zl i2 <=? t_cap t | _, _ => false end = false -> r_itr r1 = i /\ (b <> [] \/ (b1 = [] /\ v1 = v)))).
  { destruct v as [|[q i2] v'].
    - rewrite Enx. cbn [pgs map hd]. rewrite Z.eqb_refl. eexists m, _, [], []. split; [reflexivity|]. split; [apply steady_refl|]. split; [reflexivity|].
      rewrite app_nil_r. split; [apply upd_id; auto|]. split; [auto|]. split; [constructor|]. split; [reflexivity|]. destruct b; split; try discriminate; intros _; cbn [r_itr]; split; auto; left; discriminate.
    - rewrite Enx. cbn [pgs map hd fst]. assert (ELq : L c = (u ++ [(p, a ++ b)]) ++ (q, i2) :: v') by (rewrite <- pair_app; exact EL).
      destruct (page_bnd _ _ _ _ _ _ _ _ Wm Hc ELq) as (Bq & Bq'). destruct (Z.eqb_spec q page_nil); [lia|].
      destruct (merge_next_W t m L c u p (a ++ b) q i2 v' i Wm Hc EL Hcap) as (m1 & r1 & E1 & ST1 & SZ1 & K1).
      apply good_cons in Hgv. destruct Hgv as (Hn2 & Hl2 & Hgv').
      destruct (Z.leb_spec (zl (a ++ b) + zl i2) (t_cap t)) as [H|H].
      + destruct K1 as (W1 & R1). exists m1, r1, i2, v'. split; auto. split; auto. split; auto. rewrite <- app_assoc in W1. split; auto.
        split; [rewrite app_assoc, zl_app; auto|]. split; auto. split; [reflexivity|]. 
        destruct b as [|y b].
        * rewrite app_nil_r in *. destruct (Z.leb_spec (zl a + zl i2) (t_cap t)); [|lia]. split; [intros _|discriminate].
          split; [rewrite R1, Hi; cbn [at_v i_page]; rewrite Z.eqb_refl; reflexivity|]. split; auto. split; auto. exists q, i2, v'. auto.
        * split; [discriminate|]. intros _. split; [|left; discriminate]. rewrite R1, Hi. cbn [i_page].
          assert (p <> q). { intros ->. pose proof (w_nd _ _ _ Wm c Hc) as ND. rewrite EL, pgs_app in ND. apply nodup_split in ND. apply (proj1 (proj2 ND)). left; reflexivity. }
          destruct (Z.eqb_spec p q); [congruence|reflexivity].
      + destruct K1 as (-> & R1). exists m, r1, [], ((q, i2) :: v'). split; auto. split; auto. split; auto. rewrite app_nil_r. split; [apply upd_id; auto|]. split; auto.
        split; [apply good_cons; auto|]. split; [reflexivity|]. destruct b as [|y b].
        * rewrite app_nil_r in *. destruct (Z.leb_spec (zl a + zl i2) (t_cap t)); [lia|]. split; [discriminate|]. intros _. split; auto.
        * split; [discriminate|]. intros _. split; auto; left; discriminate. }
  destruct STEP1 as (m1 & r1 & b1 & v1 & E1 & ST1 & SZ1 & W1 & Hl1 & Hgv1 & Efl & Kt & Kf). rewrite E1. cbn [cbind]. clear E1.
  set (L1 := upd L c (u ++ (p, a ++ b ++ b1) :: v1)) in *.
  assert (EL1 : L1 c = u ++ (p, a ++ b ++ b1) :: v1) by (unfold L1; apply upd_same).
  destruct (page_links _ _ _ _ _ _ _ _ W1 Hc EL1) as (Epv1 & _). rewrite Epv1.
  assert (IOK : i_ok i = true). { rewrite Hi. destruct b; [|reflexivity]. destruct v as [|[? ?] ?]; reflexivity. }
  assert (Hne1 : a ++ b ++ b1 <> []). { rewrite app_assoc. destruct (a ++ b); [congruence|discriminate]. }
  assert (NDL : NoDup (pgs (L c))) by (apply (w_nd _ _ _ Wm); auto).
  destruct u as [|[o i0] u' _] using rev_ind.
  - (* no previous page *)
    cbn [pgs map last]. rewrite Z.eqb_refl. exists m1, r1, ((p, a ++ b ++ b1) :: v1). split; [reflexivity|]. split; auto. split; auto. cbn [app] in W1. split; auto.
    split; [apply good_cons; auto|]. split; [rewrite flat_cons, <- !app_assoc, Efl; reflexivity|].
    assert (EB : bad = false) by reflexivity. split; [intros _|split; [rewrite EB; discriminate|]].
    + cbn [flat map concat app]. destruct (match b, v with [], (_, i2) :: _ => zl a + zl i2 <=? t_cap t | _, _ => false end) eqn:EM.
      * destruct (Kt eq_refl) as (R1 & -> & Hb1 & q & i2 & v' & -> & Ei & ->). right. destruct b1 as [|z b1]; [congruence|].
        exists [], p, a, z, b1, v'. rewrite upd_same. split; [reflexivity|]. split; [exact R1|]. split; [reflexivity|]. cbn [app]. cbn [app] in Efl. rewrite <- Efl. reflexivity.
      * destruct (Kf eq_refl) as (R1 & Hb). rewrite R1, Hi. destruct b as [|y b].
        -- destruct Hb as [Hb|(-> & ->)]; [congruence|]. destruct v as [|[q i2] v'].
           ++ left. cbn [at_v]. rewrite upd_same, flat_cons. cbn [app flat map concat]. split; [unfold c_end; f_equal|rewrite !app_nil_r; auto].
              rewrite (W_states _ _ _ _ Wm Hc), (W_states _ _ _ _ W1 Hc), EL, EL1. reflexivity.
           ++ right. apply good_cons in Hgv. destruct Hgv as (Hn2 & _). destruct i2 as [|z i2]; [congruence|].
              exists [(p, a)], q, [], z, i2, v'. rewrite upd_same. cbn [app]. rewrite app_nil_r. split; [reflexivity|]. split; [reflexivity|]. split; [cbn; rewrite !app_nil_r; reflexivity|]. reflexivity.
        -- right. exists [], p, a, y, (b ++ b1), v1. rewrite upd_same. split; [reflexivity|]. split; [reflexivity|]. split; [reflexivity|]. cbn [app]. rewrite <- app_assoc, Efl. reflexivity.
    + destruct (match b, v with [], (_, i2) :: _ => zl a + zl i2 <=? t_cap t | _, _ => false end) eqn:EM.
      * destruct (Kt eq_refl) as (R1 & _). rewrite R1. reflexivity.
      * destruct (Kf eq_refl) as (R1 & _). rewrite R1. exact IOK.
  - (* previous page [o] *)
    rewrite last_pgs. assert (ELo : L1 c = u' ++ (o, i0) :: (p, a ++ b ++ b1) :: v1) by (rewrite EL1, <- pair_app; reflexivity).
    destruct (page_bnd _ _ _ _ _ _ _ _ W1 Hc ELo) as (Bo & Bo'). destruct (Z.eqb_spec o page_nil); [lia|].
    destruct (merge_prev_W t m1 L1 c u' o i0 p (a ++ b ++ b1) v1 i W1 Hc ELo Hcap) as (m2 & r2 & E2 & ST2 & SZ2 & K2).
    apply good_app in Hgu. destruct Hgu as (Hgu' & Hgo). apply good_cons in Hgo. destruct Hgo as (Hno & Hlo & _).
    assert (EB : bad = match b, v with [], (_, i2) :: _ => zl a + zl i2 <=? t_cap t | _, _ => false end) by (unfold bad; destruct u'; reflexivity).
    rewrite E2. clear E2.
    assert (NP : forall q i2 v', v = (q, i2) :: v' -> q <> p /\ q <> o /\ ~ In q (pgs u') /\ ~ In q (pgs v')).
    { intros q i2 v' ->. rewrite EL, !pgs_app, <- app_assoc in NDL. cbn [pgs map fst app] in NDL.
      pose proof NDL as N1. apply nodup_split in N1. destruct N1 as (N1 & N1' & N2). apply nodup_split in N2. destruct N2 as (N2 & N2' & N3). apply nodup_split in N3. destruct N3 as (N3 & N3' & _).
      split; [intros ->; apply N2'; left; auto|]. split; [intros ->; apply N1'; right; left; auto|]. auto. }
    destruct (Z.leb_spec (zl i0 + zl (a ++ b ++ b1)) (t_cap t)) as [H|H].
    + destruct K2 as (W2 & R2). exists m2, r2, (u' ++ (o, i0 ++ a ++ b ++ b1) :: v1). split; [reflexivity|]. split; [eapply steady_trans; eauto|]. split; [lia|].
      apply upd_ext in W2. split; auto. split; [apply good_app; split; auto; apply good_cons; split; [destruct i0; [congruence|discriminate]|]; split; [rewrite zl_app; lia|auto]|].
      split; [rewrite !flat_app, !flat_cons; cbn [flat map concat]; rewrite <- Efl, <- !app_assoc; reflexivity|].
      rewrite EB.
      destruct (match b, v with [], (_, i2) :: _ => zl a + zl i2 <=? t_cap t | _, _ => false end) eqn:EM.
      * destruct (Kt eq_refl) as (R1 & -> & Hb1 & q & i2 & v' & -> & Ei & ->). split; [discriminate|].
        destruct (NP _ _ _ eq_refl) as (N1 & N2 & N3 & N4). rewrite R2, Ei. cbn [i_page]. destruct (Z.eqb_spec q p); [congruence|]. split; [intros _|reflexivity].
        cbn [i_page]. split; [rewrite EL, pgs_app; apply in_or_app; right; right; left; reflexivity|]. rewrite pgs_app. intro K. apply in_app_or in K. destruct K as [K|[K|K]]; [auto|cbn in K; congruence|auto].
      * destruct (Kf eq_refl) as (R1 & Hb). split; [intros _|split; [discriminate|]].
        -- rewrite R2, Hi. destruct b as [|y b].
           ++ destruct Hb as [Hb|(-> & ->)]; [congruence|]. destruct v as [|[q i2] v'].
              ** cbn [at_v c_end i_page i_item i_edge]. rewrite (W_states _ _ _ _ Wm Hc), EL. cbn [back]. rewrite last_pgs, !Z.eqb_refl. left.
                 rewrite upd_same, flat_app, flat_cons. cbn [flat map concat app]. rewrite !app_nil_r. split; [|split; [rewrite flat_app; cbn; rewrite <- !app_assoc, app_nil_r; reflexivity|reflexivity]].
                 unfold c_end. f_equal. rewrite (W_states _ _ _ _ W2 Hc). cbn [back]. rewrite upd_same, last_pgs. reflexivity.
              ** cbn [at_v i_page]. destruct (NP _ _ _ eq_refl) as (N1 & _). destruct (Z.eqb_spec q p); [congruence|].
                 right. apply good_cons in Hgv. destruct Hgv as (Hn2 & _). destruct i2 as [|z i2]; [congruence|].
                 exists (u' ++ [(o, i0 ++ a)]), q, [], z, i2, v'. rewrite upd_same. cbn [app]. rewrite app_nil_r, <- app_assoc. split; [reflexivity|]. split; [reflexivity|].
                 split; [rewrite !flat_app; cbn; rewrite !app_nil_r, <- app_assoc; reflexivity|]. reflexivity.
           ++ cbn [i_page i_item]. rewrite Z.eqb_refl. assert (Ha : zl a + zl i0 <= t_cap t). { rewrite zl_app in H. pose proof (zl_pos ((y :: b) ++ b1)). lia. }
              pose proof (zl_pos a). pose proof (zl_pos i0). rewrite (zl_ok a (t_cap t)) by lia. rewrite small_u16 by lia.
              right. exists u', o, (i0 ++ a), y, (b ++ b1), v1. rewrite upd_same. split; [rewrite <- app_assoc; reflexivity|]. split; [rewrite zl_app; f_equal; lia|].
              split; [rewrite flat_app; cbn; rewrite app_nil_r, <- app_assoc; reflexivity|]. cbn [app]. rewrite <- app_assoc, Efl. reflexivity.
        -- rewrite R2. destruct (i_page i =? p); [destruct (i_item i =? item_nil); reflexivity|exact IOK].
    + destruct K2 as (-> & R2). exists m1, r2, (u' ++ (o, i0) :: (p, a ++ b ++ b1) :: v1). split; [reflexivity|]. split; [auto|]. split; [lia|].
      split; [unfold L1 in W1; rewrite <- pair_app in W1; exact W1|].
      split; [apply good_app; split; auto; apply good_cons; split; auto; split; auto; apply good_cons; auto|].
      split; [rewrite !flat_app, !flat_cons; cbn [flat map concat]; rewrite <- Efl, <- !app_assoc; reflexivity|].
      rewrite EB.
      destruct (match b, v with [], (_, i2) :: _ => zl a + zl i2 <=? t_cap t | _, _ => false end) eqn:EM.
      * destruct (Kt eq_refl) as (R1 & -> & Hb1 & q & i2 & v' & -> & Ei & ->). split; [discriminate|].
        destruct (NP _ _ _ eq_refl) as (N1 & N2 & N3 & N4). rewrite R2, Ei. split; [intros _|reflexivity].
        cbn [i_page]. split; [rewrite EL, pgs_app; apply in_or_app; right; right; left; reflexivity|]. rewrite pgs_app. intro K. apply in_app_or in K. destruct K as [K|[K|[K|K]]]; [auto|cbn in K; congruence|cbn in K; congruence|auto].
      * destruct (Kf eq_refl) as (R1 & Hb). split; [intros _|split; [discriminate|]].
        -- rewrite R2, Hi. destruct b as [|y b].
           ++ destruct Hb as [Hb|(-> & ->)]; [congruence|]. destruct v as [|[q i2] v'].
              ** cbn [at_v]. left. rewrite upd_same, flat_app, !flat_cons. cbn [flat map concat app]. rewrite !app_nil_r. split; [|split; [rewrite flat_app; cbn; rewrite <- !app_assoc, app_nil_r; reflexivity|reflexivity]].
                 unfold c_end. f_equal. rewrite (W_states _ _ _ _ Wm Hc), (W_states _ _ _ _ W1 Hc), EL, EL1. reflexivity.
              ** cbn [at_v]. right. apply good_cons in Hgv. destruct Hgv as (Hn2 & _). destruct i2 as [|z i2]; [congruence|].
                 exists (u' ++ [(o, i0); (p, a)]), q, [], z, i2, v'. rewrite upd_same. cbn [app]. rewrite app_nil_r, <- app_assoc. split; [reflexivity|]. split; [reflexivity|].
                 split; [rewrite !flat_app; cbn; rewrite !app_nil_r, <- app_assoc; reflexivity|]. reflexivity.
           ++ right. exists (u' ++ [(o, i0)]), p, a, y, (b ++ b1), v1. rewrite upd_same. split; [rewrite <- app_assoc; reflexivity|]. split; [reflexivity|]. split; [reflexivity|]. cbn [app]. rewrite <- app_assoc, Efl. reflexivity.
        -- rewrite R2. exact IOK.
Qed.

Lemma ers_W {A} t (m : mem A) L c u p a x b v : W m L [] -> c <> 0 -> good (t_cap t) (L c) -> L c = u ++ (p, a ++ x :: b) :: v -> t_cap t <= 65534 ->
  let i := mkI true p (zl a) E_none in
  exists m' r' ps, c_erase t c m i = COk (m', r') /\ room m' = room m /\ m_zero m' = m_zero m /\ fsize m' = fsize m /\
    W m' (upd L c ps) [] /\ good (t_cap t) ps /\ flat ps = flat u ++ a ++ b ++ flat v /\ tots m' = upd (tots m) c (wrap_u64 (tots m c - 1)) /\
    (lost t m i = false -> between m' (upd L c ps) c (r_itr r') (flat u ++ a) (b ++ flat v)) /\
    (lost t m i = true -> In (i_page (r_itr r')) (pgs (L c)) /\ ~ In (i_page (r_itr r')) (pgs ps)).
Proof.
  intros Wm Hc Hg EL Hcap i.
  destruct (page_bnd _ _ _ _ _ _ _ _ Wm Hc EL) as (Bp & Bp').
  destruct (page_items _ _ _ _ _ _ _ _ Wm Hc EL) as (Ic & It). fold (zl (a ++ x :: b)) in Ic.
  destruct (page_links _ _ _ _ _ _ _ _ Wm Hc EL) as (Epv & Enx).
  pose proof Hg as Hg'. rewrite EL in Hg'. apply good_app in Hg'. destruct Hg' as (Hgu & Hgp). apply good_cons in Hgp. destruct Hgp as (Hne & Hle & Hgv).
  pose proof Hle as Hle2. rewrite zl_app, zl_cons in Hle2. pose proof (zl_pos a). pose proof (zl_pos b).
  assert (NDL : NoDup (pgs (L c))) by (apply (w_nd _ _ _ Wm); auto).
  unfold c_erase. assert (CD : can_deref i = true).
  { unfold can_deref, i. cbn [i_ok i_page i_item i_edge edge_eqb]. rewrite (zl_ok a (t_cap t)) by lia. destruct (Z.eqb_spec p page_nil); [lia|reflexivity]. }
  rewrite CD. cbn [negb].
  assert (K : forall m1 r1 ps, erase_nostate t c m i = COk (m1, r1) -> steady m m1 -> fsize m1 = fsize m -> W m1 (upd L c ps) [] -> good (t_cap t) ps ->
    flat ps = flat u ++ a ++ b ++ flat v -> i_ok (r_itr r1) = true ->
    (lost t m i = false -> between m1 (upd L c ps) c (r_itr r1) (flat u ++ a) (b ++ flat v)) ->
    (lost t m i = true -> In (i_page (r_itr r1)) (pgs (L c)) /\ ~ In (i_page (r_itr r1)) (pgs ps)) ->
    exists m' r' ps, cbind (erase_nostate t c m i) (fun '(m, r) => if i_ok (r_itr r) then COk (set_tot m c (wrap_u64 (tots m c - 1)), r)
      else COk (m, mkR (c_end c m) (no_lead m) (no_lead m))) = COk (m', r') /\ room m' = room m /\ m_zero m' = m_zero m /\ fsize m' = fsize m /\
      W m' (upd L c ps) [] /\ good (t_cap t) ps /\ flat ps = flat u ++ a ++ b ++ flat v /\ tots m' = upd (tots m) c (wrap_u64 (tots m c - 1)) /\
      (lost t m i = false -> between m' (upd L c ps) c (r_itr r') (flat u ++ a) (b ++ flat v)) /\
      (lost t m i = true -> In (i_page (r_itr r')) (pgs (L c)) /\ ~ In (i_page (r_itr r')) (pgs ps))).
  { intros m1 r1 ps E (T1 & R1 & Z1) SZ1 W1 G1 F1 O1 B1 B2. rewrite E. cbn [cbind]. rewrite O1. eexists _, r1, ps. split; [reflexivity|].
    split; [auto|]. split; [auto|]. split; [auto|]. split; [apply W_tot; auto|]. split; [auto|]. split; [auto|]. split; [cbn; rewrite T1; reflexivity|]. split; auto. }
  unfold erase_nostate in *. cbn [i_page i_item i] in *. rewrite Ic in *.
  destruct (Z.ltb_spec 1 (zl (a ++ x :: b))) as [Hm|H1].
  - (* other items on the page *)
    assert (Hab : a ++ b <> []). { intro E. apply app_eq_nil in E. destruct E; subst. unfold zl in Hm. cbn in Hm. lia. }
    destruct (efm_W t m L c u p a x b v Wm Hc EL Hab) as (m1 & r1 & E1 & W1 & S1 & ST1 & SZ1 & C1 & R1); [lia|].
    fold i in E1. rewrite E1 in *. cbn [cbind] in *. rewrite C1 in *.
    set (L1 := upd L c (u ++ (p, a ++ b) :: v)) in *.
    assert (EL1 : L1 c = u ++ (p, a ++ b) :: v) by (unfold L1; apply upd_same).
    assert (G1 : good (t_cap t) (L1 c)). { rewrite EL1. apply good_app. split; auto. apply good_cons. split; auto. split; auto. rewrite zl_app. lia. }
    assert (AV : at_v m1 c v = at_v m c v) by (destruct v as [|[? ?] ?]; [cbn; unfold c_end; rewrite S1|]; reflexivity).
    assert (LOST : lost t m i = match u, b, v with _ :: _, [], (_, i2) :: _ => flag_test (t_ers t) flag_inner && (2 * zl a <=? t_cap t) && (zl a + zl i2 <=? t_cap t) | _, _, _ => false end).
    { unfold lost. cbn [i_page i_item i]. rewrite Ic, Enx, Epv. destruct (Z.eqb_spec (zl (a ++ x :: b)) 1); [lia|]. cbn [andb orb].
      destruct (Z.ltb_spec 1 (zl (a ++ x :: b))); [|lia]. cbn [andb].
      destruct b as [|y b].
      - assert (E : zl (a ++ [x]) - 1 = zl a) by (rewrite zl_app; unfold zl at 2; cbn; lia). rewrite E, Z.eqb_refl. cbn [andb].
        destruct v as [|[q i2] v]; cbn [pgs map hd fst].
        + rewrite Z.eqb_refl. cbn [negb andb]. destruct u; reflexivity.
        + assert (ELq : L c = (u ++ [(p, a ++ [x])]) ++ (q, i2) :: v) by (rewrite <- pair_app; exact EL).
          destruct (page_bnd _ _ _ _ _ _ _ _ Wm Hc ELq) as (Bq & Bq'). destruct (Z.eqb_spec q page_nil); [lia|]. cbn [negb andb].
          destruct (page_items _ _ _ _ _ _ _ _ Wm Hc ELq) as (Jc & _). fold (zl i2) in Jc. rewrite Jc.
          destruct u as [|w u]; [cbn [pgs map last]; rewrite Z.eqb_refl; reflexivity|].
          assert (Hl : last (pgs (w :: u)) page_nil <> page_nil).
          { intro E'. assert (In page_nil (pgs (L c))) as HI. { rewrite EL, pgs_app. apply in_or_app. left. rewrite <- E' at 1. apply last_in. discriminate. }
            apply (pgs_bnd _ _ _ _ _ Wm Hc) in HI. lia. }
          destruct (Z.eqb_spec (last (pgs (w :: u)) page_nil) page_nil); [congruence|]. reflexivity.
      - destruct (Z.eqb_spec (zl a) (zl (a ++ x :: y :: b) - 1)) as [E|_]; [rewrite zl_app, !zl_cons in E; pose proof (zl_pos b); lia|]. cbn [andb]. destruct u; reflexivity. }
    destruct (should_balance_erase t m p (zl a) && (2 * zl (a ++ b) <=? t_cap t)) eqn:EBAL.
    + destruct (bm_W t m1 L1 c u p a b v (r_itr r1) W1 Hc EL1 G1 Hcap) as (m2 & r2 & ps & E2 & ST2 & SZ2 & W2 & G2 & F2 & B1 & B2 & O2).
      { rewrite R1. destruct b; auto. }
      rewrite E2 in *. cbn [cbind] in *. apply upd_ext in W2.
      assert (EBAD : lost t m i = match u, b, v with _ :: _, [], (_, i2) :: _ => zl a + zl i2 <=? t_cap t | _, _, _ => false end).
      { rewrite LOST. destruct u as [|w u]; auto. destruct b; auto. destruct v as [|[q i2] v]; auto.
        apply andb_true_iff in EBAL. destruct EBAL as (EB1 & EB2). rewrite app_nil_r in EB2. rewrite EB2, andb_true_r.
        unfold should_balance_erase in EB1. rewrite Epv, Enx in EB1. cbn [pgs map hd fst] in EB1.
        assert (ELq : L c = ((w :: u) ++ [(p, a ++ [x])]) ++ (q, i2) :: v) by (rewrite <- pair_app; exact EL).
        destruct (page_bnd _ _ _ _ _ _ _ _ Wm Hc ELq) as (Bq & Bq'). destruct (Z.eqb_spec q page_nil); [lia|]. cbn [andb] in EB1.
        assert (Za : zl a =? 0 = false). { apply Z.eqb_neq. rewrite app_nil_r in Hab. destruct a; [congruence|]. rewrite zl_cons. pose proof (zl_pos a0). lia. }
        rewrite Za, andb_false_r in EB1. rewrite EB1. reflexivity. }
      apply (K m2 (mkR (r_itr r2) (r_l0 r1) (r_l1 r2)) ps); auto.
      * eapply steady_trans; eauto.
      * lia.
      * rewrite EBAD. intro HB. specialize (B1 HB). destruct B1 as [B1|B1]; [left; rewrite upd_same in *; exact B1|right; rewrite upd_same in *; exact B1].
      * rewrite EBAD. intro HB. destruct (B2 HB) as (B3 & B4). split; auto. rewrite EL1, pgs_app in B3. rewrite EL, pgs_app. exact B3.
    + assert (LF : lost t m i = false).
      { rewrite LOST. destruct u as [|w u]; auto. destruct b; auto. destruct v as [|[q i2] v]; auto.
        rewrite app_nil_r in *. destruct (2 * zl a <=? t_cap t); [|rewrite andb_false_r; reflexivity]. rewrite !andb_true_r in EBAL. rewrite andb_true_r.
        unfold should_balance_erase in EBAL. rewrite Epv, Enx in EBAL. cbn [pgs map hd fst] in EBAL.
        assert (ELq : L c = ((w :: u) ++ [(p, a ++ [x])]) ++ (q, i2) :: v) by (rewrite <- pair_app; exact EL).
        destruct (page_bnd _ _ _ _ _ _ _ _ Wm Hc ELq) as (Bq & Bq'). destruct (Z.eqb_spec q page_nil); [lia|]. cbn [andb] in EBAL.
        assert (Za : zl a =? 0 = false). { apply Z.eqb_neq. destruct a; [congruence|]. rewrite zl_cons. pose proof (zl_pos a0). lia. }
        rewrite Za, andb_false_r in EBAL. rewrite EBAL. reflexivity. }
      apply (K m1 r1 (u ++ (p, a ++ b) :: v)); auto.
      * rewrite <- EL1. exact G1.
      * rewrite flat_app, flat_cons, <- app_assoc. reflexivity.
      * rewrite R1. destruct b; [destruct v as [|[? ?] ?]|]; reflexivity.
      * intros _. rewrite R1. destruct b as [|y b].
        -- rewrite <- AV. rewrite app_nil_r in *. destruct v as [|[q i2] v].
           ++ left. cbn [at_v]. split; [reflexivity|]. rewrite upd_same, flat_app, flat_cons. cbn. rewrite app_nil_r. auto.
           ++ right. apply good_cons in Hgv. destruct Hgv as (Hn2 & _). destruct i2 as [|z i2]; [congruence|].
              exists (u ++ [(p, a)]), q, [], z, i2, v. rewrite upd_same, <- app_assoc. split; [reflexivity|]. split; [reflexivity|]. split; [rewrite flat_app; cbn; rewrite !app_nil_r; reflexivity|reflexivity].
        -- right. exists u, p, a, y, b, v. rewrite upd_same. auto.
      * rewrite LF. discriminate.
  - (* the only item of the page *)
    assert (HZ : zl a = 0 /\ zl b = 0) by (rewrite zl_app, zl_cons in H1; lia). destruct HZ as (HZa & HZb).
    assert (Ea : a = []) by (destruct a; auto; rewrite zl_cons in HZa; pose proof (zl_pos a0); lia). subst a.
    assert (Eb : b = []) by (destruct b; auto; rewrite zl_cons in HZb; pose proof (zl_pos b); lia). subst b.
    destruct (erase_page_W m L c u p _ v Wm Hc EL) as (m1 & E1 & W1 & ST1 & SZ1).
    rewrite E1 in *. cbn [cbind] in *. rewrite (next_v _ _ _ _ _ _ _ _ Wm Hc EL) in *.
    eapply (K m1 _ (u ++ v) eq_refl); auto.
    + apply good_app; auto.
    + rewrite flat_app. reflexivity.
    + cbn [r_itr]. destruct v as [|[? ?] ?]; reflexivity.
    + cbn [r_itr]. unfold lost. cbn [i_page i_item i]. rewrite Ic, Enx. cbn [app]. destruct v as [|[q i2] v]; cbn [pgs map hd fst].
      * rewrite !Z.eqb_refl. discriminate.
      * intros _. right. apply good_cons in Hgv. destruct Hgv as (Hn2 & _). destruct i2 as [|z i2]; [congruence|].
        exists u, q, [], z, i2, v. rewrite upd_same. auto.
    + cbn [r_itr]. unfold lost. cbn [i_page i_item i]. rewrite Ic, Enx. cbn [app]. destruct v as [|[q i2] v]; cbn [pgs map hd fst].
      * intros _. cbn [at_v c_end i_page]. rewrite (W_states _ _ _ _ Wm Hc), EL. cbn [back]. rewrite last_pgs.
        rewrite EL, !pgs_app in *. split; [apply in_or_app; right; left; reflexivity|]. rewrite app_nil_r in *. apply nodup_split in NDL. apply NDL.
      * assert (ELq : L c = (u ++ [(p, [x])]) ++ (q, i2) :: v) by (rewrite <- pair_app; exact EL).
        destruct (page_bnd _ _ _ _ _ _ _ _ Wm Hc ELq) as (Bq & Bq'). destruct (Z.eqb_spec q page_nil); [lia|].
        assert (Z1 : zl [x] = 1) by reflexivity. rewrite Z1. cbn. discriminate.
Qed.
