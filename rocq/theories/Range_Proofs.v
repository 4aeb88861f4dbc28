(** Proofs about the calls with ranges. *)

From Coq Require Import ZArith List Bool Lia.
From Verif Require Import Base Cache_Model Linked_Model Linked_Proofs Cont_Model Cont_Spec Cont_Proofs Cont_Steps Cont_Erase Cont_Runs Map_Model Map_Spec Range_Model Range_Spec.
Import ListNotations.
Open Scope Z_scope.

(** An insertion into a page that has room, and where the items are afterwards. *)
Lemma roomy_insert {A} ts (m : mem A) L c u p a b v i x : Inv ts m L -> c <> 0 -> L c = u ++ (p, a ++ b) :: v ->
  zl (a ++ b) < t_cap (ts c) -> i_page i = p -> (i_item i = zl a \/ (i_item i = item_nil /\ i_edge i = E_end /\ b = [])) ->
  exists m' r, c_insert (ts c) c m i x = COk (m', r) /\ can_deref (r_itr r) = true /\ Inv ts m' (upd L c (u ++ (p, a ++ x :: b) :: v)) /\ sts m' = sts m /\ room m' = room m.
Proof.
  intros I Hc EL Hcap Ep Hi. pose proof I as [Wm G C T R]. pose proof (C c Hc) as HC.
  destruct (page_bnd _ _ _ _ _ _ _ _ Wm Hc EL) as (Bp & Bp'). destruct (page_items _ _ _ _ _ _ _ _ Wm Hc EL) as (Ic & _). fold (zl (a ++ b)) in Ic.
  assert (NL : L c <> []) by (rewrite EL; destruct u; discriminate). destruct (nonempty_ends _ _ _ _ Wm Hc NL) as (N1 & N2 & _).
  destruct (iwc_W (ts c) m L [] c u p a b v i x Wm Hc EL ltac:(lia) Ep ltac:(tauto)) as (m1 & E1 & W1 & S1 & (Y1 & Y2 & Y3) & F1).
  unfold c_insert. rewrite Ep. destruct (Z.eqb_spec p page_nil); [lia|]. cbn [andb].
  assert (EG : (i_item i =? item_nil) && (negb (p =? back (sts m c)) && negb (edge_eqb (i_edge i) E_end)) = false).
  { destruct Hi as [Hi|(Hi & He & _)]; rewrite Hi; [rewrite (zl_ok a (zl (a ++ b))); [reflexivity|rewrite zl_app; pose proof (zl_pos b); lia|lia]|rewrite He; cbn; rewrite !andb_false_r; reflexivity]. }
  rewrite EG. unfold insert_nostate. rewrite Ep. destruct (Z.eqb_spec p page_nil); [lia|]. unfold insert_nonempty. rewrite Ep, Ic. destruct (Z.eqb_spec (zl (a ++ b)) (t_cap (ts c))); [lia|].
  rewrite E1. cbn [cbind r_itr i_ok r_l0 no_lead ld_page]. rewrite S1. destruct (Z.eqb_spec (front (sts m c)) page_nil); [congruence|]. rewrite S1. destruct (Z.eqb_spec (back (sts m c)) page_nil); [congruence|].
  rewrite Z.eqb_refl. cbn [negb]. rewrite andb_false_r. eexists _, _. split; [reflexivity|]. cbn [r_itr]. split.
  { unfold can_deref. cbn [i_ok i_page i_item i_edge edge_eqb]. destruct (Z.eqb_spec p page_nil); [lia|]. rewrite (zl_ok a (zl (a ++ b))); [reflexivity|rewrite zl_app; pose proof (zl_pos b); lia|lia]. }
  assert (ET : tots m1 = tots m) by congruence.
  split; [|split; [exact S1|exact Y2]].
  eapply (Inv_upd ts m _ L c _ (tots m c + 1) I Hc).
  - apply W_tot. exact W1.
  - specialize (G c Hc). rewrite EL in G. apply good_app in G. destruct G as (G1 & G2). apply good_cons in G2. destruct G2 as (_ & _ & G3). apply good_app. split; [exact G1|]. apply good_cons. split; [destruct a; discriminate|]. split; [rewrite zl_app, zl_cons in *; lia|exact G3].
  - exact Y2.
  - unfold set_tot. cbn [tots]. rewrite ET. reflexivity.
  - rewrite (T c Hc), EL, !flat_app, !flat_cons, !zl_app, zl_cons. lia.
Qed.

(** The loop inside of a page. *)
Lemma insert_inside {A} ts c (xs : list A) : forall m L u p a y z b v, Inv ts m L -> c <> 0 -> L c = u ++ (p, a ++ y :: z :: b) :: v ->
  zl (a ++ y :: z :: b) + zl xs <= t_cap (ts c) ->
  exists m' L', insert_from (ts c) c m (mkI true p (zl a) E_none) xs = COk m' /\ Inv ts m' L' /\ L' c = u ++ (p, a ++ xs ++ y :: z :: b) :: v /\ (forall d, d <> c -> L' d = L d).
Proof.
  induction xs as [|x xs IH]; intros m L u p a y z b v I Hc EL Hcap; [exists m, L; cbn; auto|].
  pose proof I as [Wm G C T R]. pose proof (C c Hc) as HC. rewrite zl_cons in Hcap. pose proof (zl_pos xs).
  destruct (roomy_insert ts m L c u p a (y :: z :: b) v (mkI true p (zl a) E_none) x I Hc EL ltac:(lia) eq_refl (or_introl eq_refl)) as (m1 & r & E1 & D1 & I1 & _).
  cbn [insert_from]. rewrite E1. cbn [cbind]. rewrite D1. unfold step_itr. cbn [i_ok].
  rewrite (next_in m L [] c (t_cap (ts c)) Wm Hc (G c Hc) ltac:(lia) _ _ _ _ _ _ _ EL).
  assert (EL1 : upd L c (u ++ (p, a ++ x :: y :: z :: b) :: v) c = u ++ (p, (a ++ [x]) ++ y :: z :: b) :: v) by (rewrite upd_same, <- app_assoc; reflexivity).
  replace (zl (a ++ [y])) with (zl (a ++ [x])) by (rewrite !zl_app; reflexivity).
  destruct (IH m1 _ u p (a ++ [x]) y z b v I1 Hc EL1) as (m' & L' & E' & I' & EL' & O'). { rewrite !zl_app, !zl_cons in *. rewrite zl_nil. lia. }
  exists m', L'. split; [exact E'|]. split; [exact I'|]. split; [rewrite EL', <- app_assoc; reflexivity|]. intros d Hd. rewrite O' by auto. apply upd_other. auto.
Qed.
(** The loop at the end. *)
Lemma insert_behind {A} ts c (xs : list A) : forall m L u p a, Inv ts m L -> c <> 0 -> L c = u ++ [(p, a)] -> zl a + zl xs <= t_cap (ts c) ->
  exists m' L', insert_from (ts c) c m (c_end c m) xs = COk m' /\ Inv ts m' L' /\ L' c = u ++ [(p, a ++ xs)] /\ (forall d, d <> c -> L' d = L d) /\ c_end c m' = c_end c m.
Proof.
  induction xs as [|x xs IH]; intros m L u p a I Hc EL Hcap; [exists m, L; rewrite app_nil_r; cbn; auto|].
  pose proof I as [Wm G C T R]. pose proof (C c Hc) as HC. rewrite zl_cons in Hcap. pose proof (zl_pos xs).
  assert (EB : back (sts m c) = p). { rewrite (W_states _ _ _ _ Wm Hc), EL, last_pgs. reflexivity. }
  assert (EL0 : L c = u ++ (p, a ++ []) :: []) by (rewrite app_nil_r; exact EL).
  destruct (roomy_insert ts m L c u p a [] [] (c_end c m) x I Hc EL0) as (m1 & r & E1 & D1 & I1 & S1 & _); [rewrite app_nil_r; lia|exact EB|right; auto|].
  cbn [insert_from]. rewrite E1. cbn [cbind]. rewrite D1. unfold step_itr. cbn [c_end i_ok]. change (mkI true (back (sts m c)) item_nil E_end) with (c_end c m).
  rewrite (next_end m L [] c (t_cap (ts c)) Wm Hc (G c Hc) ltac:(lia)).
  assert (EE : c_end c m1 = c_end c m) by (unfold c_end; rewrite S1; reflexivity). rewrite <- EE.
  destruct (IH m1 _ u p (a ++ [x]) I1 Hc (upd_same _ _ _)) as (m' & L' & E' & I' & EL' & O' & EE'). { rewrite !zl_app, zl_cons, zl_nil. lia. }
  exists m', L'. split; [exact E'|]. split; [exact I'|]. split; [rewrite EL', <- app_assoc; reflexivity|]. split; [|exact EE']. intros d Hd. rewrite O' by auto. apply upd_other. auto.
Qed.

(** Erasing everything. *)
Lemma erase_stops {A} t c n (m : mem A) i stop : can_deref i = false -> erase_from t c n m i stop = Some (COk (m, i)).
Proof. intro H. destruct n; cbn [erase_from]; rewrite H; destruct (citr_eqb i stop); reflexivity. Qed.
Lemma erase_all {A} ts c stop n : forall (m : mem A) L, Inv ts m L -> c <> 0 -> i_edge stop = E_end -> (length (flat (L c)) <= n)%nat ->
  exists m' i' L', erase_from (ts c) c n m (c_begin c m) stop = Some (COk (m', i')) /\ Inv ts m' L' /\ L' c = [] /\ can_deref i' = false /\ (forall d, d <> c -> L' d = L d).
Proof.
  induction n as [|n IH]; intros m L I Hc Hl Hn.
  { pose proof I as [Wm G C T R]. pose proof (C c Hc) as HC. assert (EL : L c = []).
    { destruct (L c) as [|[p i] v] eqn:E; auto. exfalso. destruct (page_good L c (t_cap (ts c)) (G c Hc) [] p i v E) as (Hne & _). rewrite flat_cons, app_length in Hn. destruct i; [congruence|cbn in Hn; lia]. }
    exists m, (c_begin c m), L. cbn [erase_from]. rewrite (begin_empty m L [] c Wm Hc EL). unfold can_deref, c_end. cbn. rewrite !andb_false_r. cbn. rewrite <- EL. destruct (citr_eqb _ _); auto. }
  pose proof I as [Wm G C T R]. pose proof (C c Hc) as HC. cbn [erase_from].
  destruct (L c) as [|[p it] v] eqn:E.
  { exists m, (c_begin c m), L. rewrite (begin_empty m L [] c Wm Hc E). unfold can_deref, c_end. cbn. rewrite !andb_false_r. cbn. destruct (citr_eqb _ _); auto. }
  destruct (page_good L c (t_cap (ts c)) (G c Hc) [] p it v E) as (Hne & Hle). destruct it as [|x b]; [congruence|].
  rewrite (begin_at m L [] c Wm Hc p x b v E).
  destruct (page_bnd _ _ _ _ [] _ _ _ Wm Hc E) as (Bp & Bp').
  assert (NE : citr_eqb (mkI true p 0 E_none) stop = false). { unfold citr_eqb. rewrite Hl. cbn. rewrite !andb_false_r. reflexivity. }
  assert (CD : can_deref (mkI true p 0 E_none) = true). { unfold can_deref. cbn [i_ok i_page i_item i_edge edge_eqb]. destruct (Z.eqb_spec p page_nil); [lia|reflexivity]. }
  rewrite NE, CD. cbn [negb].
  assert (EB : mkI true p 0 E_none = itr_at m c 0). { symmetry. apply (begin_at m L [] c Wm Hc p x b v E). } rewrite EB.
  assert (Hk : (0 < length (flat (L c)))%nat) by (rewrite E, flat_cons; cbn; lia).
  destruct (ers_step ts m L c 0 I Hc Hk) as (m1 & r & L1 & E1 & I1 & _ & _ & O1 & F1 & K1 & K2).
  rewrite E1. assert (F1' : flat (L1 c) = b ++ flat v) by (rewrite F1, E, flat_cons; reflexivity).
  destruct (lost (ts c) m (itr_at m c 0)) eqn:Lo.
  - rewrite <- EB in Lo. unfold lost in Lo. cbn [i_page i_item] in Lo.
    destruct (page_items _ _ _ _ [] _ _ _ Wm Hc E) as (Ic & _). destruct (page_links _ _ _ _ [] _ _ _ Wm Hc E) as (Epv & Enx). cbn [pgs map last] in Epv.
    rewrite Epv in Lo. rewrite Z.eqb_refl in Lo. cbn [negb] in Lo. rewrite !andb_false_r in Lo. cbn [andb] in Lo. rewrite orb_false_r in Lo. apply andb_true_iff in Lo. destruct Lo as (Lo1 & Lo2).
    apply Z.eqb_eq in Lo1. rewrite Ic in Lo1. assert (b = []) by (destruct b; [auto|cbn in Lo1; lia]). subst b.
    assert (v = []). { destruct v as [|[q j] v]; auto. cbn [pgs map hd fst] in Enx. rewrite Enx in Lo2. apply Z.eqb_eq in Lo2. change ((p, [x]) :: (q, j) :: v) with ([(p, [x])] ++ (q, j) :: v) in E. destruct (page_bnd _ _ _ _ [(p, [x])] q j v Wm Hc E). lia. } subst v.
    assert (ER : r_itr r = c_end c m).
    { unfold c_erase in E1. rewrite <- EB in E1. rewrite CD in E1. cbn [negb] in E1. unfold erase_nostate in E1. cbn [i_page i_item] in E1. rewrite Ic in E1. cbn [length Z.of_nat] in E1. change (1 <? Z.pos 1) with false in E1. cbn iota in E1.
      rewrite Enx in E1. cbn [pgs map hd] in E1. rewrite Z.eqb_refl in E1. cbv zeta in E1. destruct (erase_page c m p) as [m2| | |]; cbn [cbind r_itr c_end i_ok] in E1; try discriminate. injection E1 as <- <-. reflexivity. }
    exists m1, (c_end c m), L1. split.
    { rewrite ER. apply erase_stops. apply deref_end. }
    split; [exact I1|]. split.
    { destruct (L1 c) as [|[q j] w] eqn:EL1; auto. exfalso. pose proof I1 as [_ G1 _ _ _]. destruct (page_good L1 c (t_cap (ts c)) (G1 c Hc) [] q j w EL1) as (Hj & _). rewrite flat_cons in F1'. destruct j; [congruence|discriminate]. }
    split; [apply deref_end|exact O1].
  - rewrite (K1 eq_refl). change (itr_at m1 c 0) with (c_begin c m1). destruct (IH m1 L1 I1 Hc Hl) as (m' & i' & L' & E' & I' & EL' & CD' & O').
    { rewrite F1'. rewrite flat_cons in Hn. cbn in Hn. lia. }
    exists m', i', L'. split; [exact E'|]. split; [exact I'|]. split; [exact EL'|]. split; [exact CD'|]. intros d Hd. rewrite O' by auto. auto.
Qed.

(** Erasing up to the end of a list on one page. *)
Lemma erase_rest {A} ts c n : forall (m : mem A) L p a b, Inv ts m L -> c <> 0 -> L c = [(p, a ++ b)] -> a <> [] -> (length b <= n)%nat ->
  exists m' L', erase_from (ts c) c n m (itr_at m c (length a)) (mkI true p item_nil E_end) = Some (COk (m', c_end c m')) /\ Inv ts m' L' /\ L' c = [(p, a)] /\ (forall d, d <> c -> L' d = L d).
Proof.
  induction n as [|n IH]; intros m L p a b I Hc EL Ha Hn; pose proof I as [Wm G C T R]; pose proof (C c Hc) as HC.
  all: assert (EB : c_end c m = mkI true p item_nil E_end) by (unfold c_end; rewrite (W_states _ _ _ _ Wm Hc), EL; reflexivity).
  all: assert (FL : flat (L c) = a ++ b) by (rewrite EL, flat_cons; cbn; apply app_nil_r).
  all: destruct b as [|x b].
  1,3: exists m, L; cbn [erase_from]; rewrite (itr_end m L [] c (t_cap (ts c)) Wm Hc (G c Hc) ltac:(lia)) by (rewrite FL, app_nil_r; lia); rewrite EB; unfold citr_eqb; cbn; rewrite !Z.eqb_refl; cbn; rewrite app_nil_r in EL; auto.
  1: cbn in Hn; lia.
  destruct (page_bnd _ _ _ _ [] _ _ _ Wm Hc EL) as (Bp & Bp'). destruct (page_items _ _ _ _ [] _ _ _ Wm Hc EL) as (Ic & _). fold (zl (a ++ x :: b)) in Ic.
  destruct (page_links _ _ _ _ [] _ _ _ Wm Hc EL) as (Epv & Enx). cbn [pgs map last hd] in Epv, Enx.
  destruct (page_good L c (t_cap (ts c)) (G c Hc) [] p (a ++ x :: b) [] EL) as (_ & Hle).
  assert (EI : itr_at m c (length a) = mkI true p (zl a) E_none). { apply (itr_loc m L [] c (t_cap (ts c)) Wm Hc (G c Hc) ltac:(lia) (length a) [] p a x b [] EL). reflexivity. }
  assert (Hk : (length a < length (flat (L c)))%nat) by (rewrite FL, app_length; cbn; lia).
  destruct (ers_step ts m L c (length a) I Hc Hk) as (m1 & r & L1 & E1 & I1 & _ & _ & O1 & F1 & K1 & _).
  assert (ZA : 1 <= zl a) by (unfold zl; destruct a; [congruence|cbn [length]; lia]). pose proof (zl_pos b) as ZB.
  assert (ZZ : zl (a ++ x :: b) = zl a + 1 + zl b) by (rewrite zl_app, zl_cons; lia).
  assert (Lo : lost (ts c) m (itr_at m c (length a)) = false).
  { rewrite EI. unfold lost. cbn [i_page i_item]. rewrite Ic, Enx, Z.eqb_refl, ZZ. destruct (Z.eqb_spec (zl a + 1 + zl b) 1); [lia|]. cbn [negb]. cbn. rewrite !andb_false_r. reflexivity. }
  assert (F1' : flat (L1 c) = a ++ b). { rewrite F1, FL. unfold erase_at. rewrite firstn_app, Nat.sub_diag, firstn_all. cbn [firstn]. rewrite app_nil_r. f_equal. replace (S (length a)) with (length (a ++ [x])) by (rewrite app_length; cbn; lia). replace (a ++ x :: b) with ((a ++ [x]) ++ b) by (rewrite <- app_assoc; reflexivity). rewrite skipn_app, skipn_all, Nat.sub_diag. reflexivity. }
  assert (CD : can_deref (mkI true p (zl a) E_none) = true). { unfold can_deref. cbn [i_ok i_page i_item i_edge edge_eqb]. destruct (Z.eqb_spec p page_nil); [lia|]. rewrite (zl_ok a (zl a)) by lia. reflexivity. }
  assert (S1 : sts m1 = sts m).
  { rewrite EI in E1. unfold c_erase in E1. rewrite CD in E1. cbn [negb] in E1. unfold erase_nostate in E1. cbn [i_page i_item] in E1. rewrite Ic in E1. destruct (Z.ltb_spec 1 (zl (a ++ x :: b))); [|lia]. cbv zeta in E1.
    assert (FM : exists m2 r2, erase_from_many (ts c) c m (mkI true p (zl a) E_none) = COk (m2, r2) /\ sts m2 = sts m /\ p_next (pages m2 p) = page_nil /\ p_prev (pages m2 p) = page_nil).
    { destruct (erase_from_many (ts c) c m (mkI true p (zl a) E_none)) as [[m2 r2]| | |] eqn:EF; [|discriminate E1|discriminate E1|discriminate E1].
      exists m2, r2. split; [reflexivity|]. unfold erase_from_many in EF. cbn [i_page i_item] in EF. rewrite Ic in EF. cbv zeta in EF.
      destruct (zl a <? zl (a ++ x :: b) - 1).
      - destruct (t_cap (ts c) <? _); [discriminate EF|]. cbn [cbind] in EF. injection EF as <- <-. split; [reflexivity|].
        destruct (links_set_cnt (set_arr m p (moved (p_arr (pages m p)) (zl a) (p_arr (pages m p)) (zl a + 1) (zl (a ++ x :: b) - zl a - 1))) p (wrap_u16 (zl (a ++ x :: b) - 1)) p) as (_ & A1 & A2).
        destruct (links_set_arr m p (moved (p_arr (pages m p)) (zl a) (p_arr (pages m p)) (zl a + 1) (zl (a ++ x :: b) - zl a - 1)) p) as (_ & B1 & B2). split; congruence.
      - cbn [cbind] in EF. injection EF as <- <-. split; [reflexivity|]. destruct (links_set_cnt m p (wrap_u16 (zl (a ++ x :: b) - 1)) p) as (_ & A1 & A2). split; congruence. }
    destruct FM as (m2 & r2 & EF & S2 & N2 & P2). rewrite EF in E1. cbn [cbind] in E1.
    destruct (should_balance_erase (ts c) m p (zl a) && (2 * p_cnt (pages m2 p) <=? t_cap (ts c))).
    - unfold balance_merge in E1. rewrite N2, Z.eqb_refl in E1. cbn [cbind] in E1. rewrite P2, Z.eqb_refl in E1. cbn [cbind r_itr] in E1. destruct (i_ok (r_itr r2)); injection E1 as <- <-; exact S2.
    - cbn [cbind] in E1. destruct (i_ok (r_itr r2)); injection E1 as <- <-; exact S2. }
  assert (EL1 : L1 c = [(p, a ++ b)]).
  { pose proof I1 as [W1 G1 _ _ _]. pose proof (W_states _ _ _ _ W1 Hc) as St. rewrite S1, (W_states _ _ _ _ Wm Hc), EL in St. cbn [pgs map fst hd last] in St. injection St as St1 St2.
    pose proof (w_nd _ _ _ W1 c Hc) as ND. destruct (L1 c) as [|[q j] w]; [cbn in F1'; destruct a; [congruence|discriminate]|]. cbn [pgs map fst hd] in St1. subst q.
    destruct w as [|e w _] using rev_ind; [rewrite flat_cons in F1'; cbn in F1'; rewrite app_nil_r in F1'; rewrite F1'; reflexivity|]. exfalso.
    change ((p, j) :: w ++ [e]) with (((p, j) :: w) ++ [e]) in *. destruct e as [q j']. rewrite last_pgs in St2. subst q. rewrite pgs_app in ND. apply NoDup_remove_2 in ND. apply ND. rewrite app_nil_r. left. reflexivity. }
  cbn [erase_from]. rewrite EI. assert (NE : citr_eqb (mkI true p (zl a) E_none) (mkI true p item_nil E_end) = false) by (unfold citr_eqb; cbn; rewrite !andb_false_r; reflexivity). rewrite NE, CD. cbn [negb].
  rewrite <- EI, E1, (K1 Lo). destruct (IH m1 L1 p a b I1 Hc EL1 Ha) as (m' & L' & E' & I' & EL' & O'). { cbn in Hn. lia. }
  exists m', L'. split; [exact E'|]. split; [exact I'|]. split; [exact EL'|]. intros d Hd. rewrite O' by auto. auto.
Qed.

(** Insertions of new keys into a map. *)
Lemma range_one_by_one {V} s junk (es : list (Z * V)) : forall m m', mcalls s junk m (one_by_one es) = Some (m', repeat (Inserted true) (length es)) -> m_insert_range s junk m es = COk m'.
Proof.
  induction es as [|[k v] es IH]; intros m m' E; [cbn in E; injection E as <-; reflexivity|].
  cbn [one_by_one map fst snd mcalls mcall m_insert_range length repeat] in *. destruct (m_insert s junk m k v) as [[m1 [i ok]]| | |]; try discriminate E. cbn [cbind].
  change (map (fun e : Z * V => MInsert (fst e) (snd e)) es) with (one_by_one es) in E.
  destruct (mcalls s junk m1 (one_by_one es)) as [[m2 outs]|] eqn:E2; [|discriminate E]. injection E as -> -> ->. apply IH. exact E2.
Qed.
Lemma mcalls_app {V} s junk (h1 h2 : list (mop V)) : forall m m1 o1 m2 o, mcalls s junk m h1 = Some (m1, o1) -> mcalls s junk m (h1 ++ h2) = Some (m2, o) ->
  exists o2, mcalls s junk m1 h2 = Some (m2, o2) /\ o = o1 ++ o2.
Proof.
  induction h1 as [|x h1 IH]; intros m m1 o1 m2 o E1 E2; cbn [mcalls app] in *; [injection E1 as <- <-; exists o; auto|].
  destruct (mcall s junk m x) as [[m3 out]|]; [|discriminate]. destruct (mcalls s junk m3 h1) as [[m4 o4]|] eqn:E4; [|discriminate]. injection E1 as <- <-.
  destruct (mcalls s junk m3 (h1 ++ h2)) as [[m5 o5]|] eqn:E5; [|discriminate]. injection E2 as <- <-. destruct (IH _ _ _ _ _ E4 E5) as (o2 & A1 & ->). exists o2. auto.
Qed.
Lemma ideal_app {V} (h1 h2 : list (mop V)) : forall l, ideal_map l (h1 ++ h2) = (fst (ideal_map (fst (ideal_map l h1)) h2), snd (ideal_map l h1) ++ snd (ideal_map (fst (ideal_map l h1)) h2)).
Proof.
  induction h1 as [|x h1 IH]; intro l; cbn [ideal_map app fst snd]; [destruct (ideal_map l h2); reflexivity|].
  destruct (ideal_op l x) as [l1 o1]. rewrite IH. destruct (ideal_map l1 h1) as [l2 o2]. cbn [fst snd]. reflexivity.
Qed.
Lemma get_none {V} k (l : list (Z * V)) : ~ In k (map fst l) -> get k l = None.
Proof. unfold get. induction l as [|[j w] l IH]; cbn; auto. intro H. destruct (Z.eqb_spec j k); [subst; tauto|]. apply IH. tauto. Qed.
Lemma put_in {V} k (v : V) l j : In j (map fst (put k v l)) -> j = k \/ In j (map fst l).
Proof. induction l as [|[i w] l IH]; cbn; [intuition|]. destruct (k <? i); cbn; [intuition|]. destruct (k =? i); cbn; [intuition|]. intuition. Qed.
Lemma new_all {V} (es : list (Z * V)) : forall l, new_keys (map fst l) es -> snd (ideal_map l (one_by_one es)) = repeat (Inserted true) (length es).
Proof.
  induction es as [|[k v] es IH]; intros l (ND & N); [reflexivity|]. cbn [map fst] in *. inversion ND as [|? ? Nk ND']; subst.
  cbn [one_by_one map fst snd ideal_map ideal_op length repeat]. rewrite (get_none k l) by (apply N; left; reflexivity).
  change (map (fun e : Z * V => MInsert (fst e) (snd e)) es) with (one_by_one es). pose proof (IH (put k v l)) as IH1. destruct (ideal_map (put k v l) (one_by_one es)) as [l' o']. cbn [snd] in *. rewrite IH1; [reflexivity|].
  split; [exact ND'|]. intros j Hj Hp. apply put_in in Hp. destruct Hp as [->|Hp]; [contradiction|]. apply (N j); [right; exact Hj|exact Hp].
Qed.

(** What a history leaves behind. *)
Lemma seen_unique {A} (m : mem A) c : forall l l' i, visits m c i l -> visits m c i l' -> l = l'.
Proof.
  induction l as [|x l IH]; intros [|y l'] i V V'; cbn in V, V'; auto; [destruct V'; congruence|destruct V; congruence|].
  destruct V as (_ & _ & D & V), V' as (_ & _ & D' & V'). f_equal; [congruence|eauto].
Qed.
Lemma history_inv {A} (zero : A) rm size h m outs : 2 <= rm <= 2 ^ 51 -> (forall c, 1 <= size c <= 2034) -> Forall (fun e => fst e <> 0) h ->
  calls (fun c => list_of (size c)) (cont_mem zero rm) h = Some (m, outs) ->
  exists L, Inv (fun c => list_of (size c)) m L /\ forall c l, c <> 0 -> shows m c l -> l = flat (L c).
Proof.
  intros Hr Hs Hh E. destruct (runs_start zero rm (fun c => list_of (size c)) size h Hr) as (m0 & outs0 & s & L & E0 & Ei & Hi & Ef & Er & N).
  { intro d. split; [left; auto|]. specialize (Hs d). lia. }
  { eapply Forall_impl; [|exact Hh]. intros [d o] Hd. split; [exact Hd|]. left. split; [reflexivity|apply Hs]. }
  rewrite E in E0. injection E0 as <- <-. exists L. split; [exact Hi|]. intros c l Hc Sh.
  destruct (Inv_shows _ _ _ _ Hi Hc) as (_ & _ & _ & _ & V & _). destruct Sh as (_ & _ & _ & _ & V' & _). eapply seen_unique; eauto.
Qed.
Lemma one_page {A} ts (m : mem A) L c : Inv ts m L -> c <> 0 -> front (sts m c) = back (sts m c) -> L c <> [] -> exists p i, L c = [(p, i)] /\ front (sts m c) = p.
Proof.
  intros I Hc EF N. pose proof I as [Wm _ _ _ _]. rewrite (W_states _ _ _ _ Wm Hc) in EF |- *. cbn [front back] in *. pose proof (w_nd _ _ _ Wm c Hc) as ND.
  destruct (L c) as [|[p i] w]; [congruence|]. exists p, i. split; [|reflexivity]. destruct w as [|[q j] w _] using rev_ind; [reflexivity|]. exfalso.
  change ((p, i) :: w ++ [(q, j)]) with (((p, i) :: w) ++ [(q, j)]) in *. rewrite last_pgs in EF. cbn [pgs map fst hd app] in EF. subst q. rewrite pgs_app in ND. apply NoDup_remove_2 in ND. apply ND. rewrite app_nil_r. left. reflexivity.
Qed.
(** Values inserted with new keys stay. *)
Lemma put_keeps {V} k (v : V) l e : In e l -> In e (put k v l).
Proof. induction l as [|[j w] l IH]; cbn [put]; [intros []|]. intros [<-|H]; destruct (k <? j); cbn; auto; destruct (k =? j); cbn; auto. Qed.
Lemma put_adds {V} k (v : V) l : ~ In k (map fst l) -> In (k, v) (put k v l).
Proof. induction l as [|[j w] l IH]; cbn [put map fst]; intro H; [left; reflexivity|]. destruct (k <? j); [left; reflexivity|]. destruct (Z.eqb_spec k j); [subst; exfalso; apply H; left; reflexivity|]. right. apply IH. intro Hk. apply H. right. exact Hk. Qed.
Lemma puts_keep {V} (es : list (Z * V)) : forall l e, In e l -> In e (fst (ideal_map l (one_by_one es))).
Proof.
  induction es as [|[k v] es IH]; intros l e H; [exact H|]. cbn [one_by_one map fst snd ideal_map ideal_op]. specialize (IH (put k v l) e (put_keeps k v l e H)). unfold one_by_one in IH.
  destruct (ideal_map (put k v l) _). exact IH.
Qed.
Lemma put_kept {V} (es : list (Z * V)) : forall l k v, new_keys (map fst l) es -> In (k, v) es -> In (k, v) (fst (ideal_map l (one_by_one es))).
Proof.
  induction es as [|[j w] es IH]; intros l k v (ND & N) H; [destruct H|]. cbn [map fst] in ND, N. inversion ND as [|? ? Nj ND']; subst.
  cbn [one_by_one map fst snd ideal_map ideal_op]. change (map (fun e : Z * V => MInsert (fst e) (snd e)) es) with (one_by_one es).
  assert (G : In (k, v) (fst (ideal_map (put j w l) (one_by_one es)))); [|destruct (ideal_map (put j w l) (one_by_one es)); exact G].
  destruct H as [E|H]; [injection E as <- <-; apply puts_keep, put_adds, N; left; reflexivity|]. apply IH; auto. split; [exact ND'|]. intros i Hi Hp. apply put_in in Hp. destruct Hp as [->|Hp]; [contradiction|]. apply (N i); [right; exact Hi|exact Hp].
Qed.
