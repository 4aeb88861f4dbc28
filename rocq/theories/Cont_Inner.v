(** Proofs about containers: inserting at a place of a page, with the leads returned and the slots left behind. *)

From Coq Require Import ZArith List Bool Lia.
From Verif Require Import Base Cache_Model Linked_Model Linked_Proofs Cont_Model Cont_Proofs Cont_Steps.
Import ListNotations.
Open Scope Z_scope.
Local Opaque page_nil.

Lemma links_trans {A} (P Q R : Z -> page A) x : same_links P Q x -> same_links Q R x -> same_links P R x.
Proof. intros (A1 & A2 & A3) (B1 & B2 & B3). repeat split; congruence. Qed.
Lemma iwc_slots {A} t (m : mem A) i x m' r : insert_with_capacity t m i x = COk (m', r) ->
  (forall z, same_links (pages m) (pages m') z) /\ (forall z, z <> i_page i -> pages m' z = pages m z) /\
  (forall k, p_arr (pages m' (i_page i)) k = x \/ exists k', p_arr (pages m' (i_page i)) k = p_arr (pages m (i_page i)) k') /\
  (forall k, p_cnt (pages m (i_page i)) < k -> p_arr (pages m' (i_page i)) k = p_arr (pages m (i_page i)) k).
Proof.
  unfold insert_with_capacity. set (p := pages m (i_page i)). set (pos := if _ =? item_nil then _ else _).
  destruct (Z.ltb_spec (p_cnt p - pos) 0) as [|Hn]; cbn [orb]; [discriminate|].
  destruct (_ && _); [discriminate|]. destruct (t_cap t <=? pos); [discriminate|]. 
  set (f := moved _ _ _ _ _). set (m1 := set_arr m (i_page i) f). set (m2 := set_cnt m1 _ _). set (m3 := set_arr m2 _ _). intro E. assert (EM : m3 = m') by congruence. rewrite <- EM. clear E EM. unfold m3.
  split; [|split; [|split]].
  - intro z. eapply links_trans; [apply (links_set_arr m (i_page i) f)|]. eapply links_trans; [apply (links_set_cnt m1)|]. apply (links_set_arr m2).
  - intros z Hz. rewrite other_set_arr by auto. unfold m2. rewrite other_set_cnt by auto. apply other_set_arr; auto.
  - intro k. rewrite arr_set_arr, Z.eqb_refl, upd_eq. destruct (k =? pos); [left; auto|right]. unfold m2. rewrite arr_set_cnt. unfold m1. rewrite arr_set_arr, Z.eqb_refl. unfold f, moved.
    destruct (_ && _); eauto.
  - intros k Hk. rewrite arr_set_arr, Z.eqb_refl, upd_eq. destruct (Z.eqb_spec k pos); [lia|]. unfold m2. rewrite arr_set_cnt. unfold m1. rewrite arr_set_arr, Z.eqb_refl. apply moved_out. lia.
Qed.
Lemma split_slots {A} t (m : mem A) p q : p <> q -> let m' := balance_split t m p q in
  (forall z, same_links (pages m) (pages m') z) /\ (forall z, z <> p -> z <> q -> pages m' z = pages m z) /\
  p_arr (pages m' p) = p_arr (pages m p) /\
  (forall k, p_arr (pages m' q) k = if (0 <=? k) && (k <? t_cap t / 2) then p_arr (pages m p) (k + (t_cap t - t_cap t / 2)) else p_arr (pages m q) k).
Proof.
  intros Hpq m'. unfold m', balance_split. set (f := moved _ _ _ _ _). set (m1 := set_arr m q f). set (m2 := set_cnt m1 q _). set (m3 := set_cnt m2 p _).
  split; [|split; [|split]].
  - intro z. eapply links_trans; [apply (links_set_arr m q f)|]. eapply links_trans; [apply (links_set_cnt m1)|]. apply (links_set_cnt m2).
  - intros z Hp Hq. unfold m3. rewrite other_set_cnt by auto. unfold m2. rewrite other_set_cnt by auto. apply other_set_arr; auto.
  - unfold m3. rewrite arr_set_cnt. unfold m2. rewrite arr_set_cnt. unfold m1. rewrite arr_set_arr. destruct (Z.eqb_spec p q); [congruence|reflexivity].
  - intro k. unfold m3. rewrite arr_set_cnt. unfold m2. rewrite arr_set_cnt. unfold m1. rewrite arr_set_arr, Z.eqb_refl. unfold f, moved.
    rewrite Z.add_0_l, Z.sub_0_r. reflexivity.
Qed.

(** Where slots come from: pages outside [S] keep their slots or have them cleared; slots of pages in [S] hold [x], are
    clear, or hold what some slot of a page in [S] held. *)
Definition touch {A} (m m' : mem A) (S : Z -> Prop) (x : A) : Prop :=
  (forall z k, ~ S z -> p_arr (pages m' z) k = p_arr (pages m z) k \/ p_arr (pages m' z) k = m_zero m) /\
  (forall z k, S z -> p_arr (pages m' z) k = m_zero m \/ p_arr (pages m' z) k = x \/ exists z' k', S z' /\ p_arr (pages m' z) k = p_arr (pages m z') k').
Lemma touch_kept {A} (m m' : mem A) S x : slots_kept m m' -> touch m m' S x.
Proof. intro H. split; intros z k Hz; destruct (H z k) as [E|E]; rewrite E; auto. right; right; eauto. Qed.
Lemma touch_trans {A} (m m' m'' : mem A) S x : touch m m' S x -> touch m' m'' S x -> m_zero m' = m_zero m -> touch m m'' S x.
Proof.
  intros (A1 & A2) (B1 & B2) Z. rewrite Z in *. split; intros z k Hz.
  - destruct (B1 z k Hz) as [E|E]; rewrite E; auto.
  - destruct (B2 z k Hz) as [E|[E|(z' & k' & Hz' & E)]]; rewrite E; auto.
Qed.
Lemma touch_iwc {A} t (m : mem A) i x m' r (S : Z -> Prop) : insert_with_capacity t m i x = COk (m', r) -> S (i_page i) -> touch m m' S x.
Proof.
  intros E Hs. destruct (iwc_slots _ _ _ _ _ _ E) as (_ & A2 & A3 & _). split; intros z k Hz.
  - rewrite A2; auto. intros ->; auto.
  - destruct (Z.eq_dec z (i_page i)) as [->|N]; [|rewrite A2 by auto; eauto 6]. destruct (A3 k) as [F|(k' & F)]; rewrite F; eauto 6.
Qed.
Lemma touch_split {A} t (m : mem A) p q (S : Z -> Prop) x : p <> q -> S p -> S q -> touch m (balance_split t m p q) S x.
Proof.
  intros N Hp Hq. destruct (split_slots t m p q N) as (_ & A2 & A3 & A4). split; intros z k Hz.
  - rewrite A2; auto; intros ->; auto.
  - right; right. destruct (Z.eq_dec z q) as [->|Nq]; [rewrite A4; destruct (_ && _); eauto|]. destruct (Z.eq_dec z p) as [->|Np]; [rewrite A3; eauto|]. rewrite A2 by auto. eauto.
Qed.
Lemma proper_links {A} (m m' : mem A) (u u' : Z -> Prop) : proper m u -> (forall z, same_links (pages m) (pages m') z) -> sts m' = sts m -> fsize m' = fsize m -> (forall x, u' x -> u x) -> proper m' u'.
Proof. intros P HL ES EF HU. eapply proper_keep; eauto; [rewrite ES; auto|lia]. Qed.
Lemma used_same {A} (L L' : layout A) X x : (forall c, c <> 0 -> pgs (L' c) = pgs (L c)) -> used L' X x -> used L X x.
Proof. intros E [H|(c & Hc & H)]; [left; auto|right; exists c; rewrite <- E; auto]. Qed.

(** What an insertion at the place between [a] and [b] on page [p] does to the pages [u], [p] and [v] of the container:
    [one] page changes, or it is split in [two] and the leads tell. *)
Definition in_one {A} cap (m m' : mem A) (ps : list (Z * list A)) (u : list (Z * list A)) (p : Z) (a b : list A) v x (r : result2 A) : Prop :=
  ps = u ++ (p, a ++ x :: b) :: v /\ zl (a ++ b) < cap /\ r_l0 r = no_lead m /\ r_l1 r = no_lead m /\ fsize m' = fsize m /\
  (forall z k, z <> p \/ zl (a ++ b) < k -> p_arr (pages m' z) k = p_arr (pages m z) k).
Definition in_two {A} (L : layout A) cap (m m' : mem A) (ps : list (Z * list A)) (u : list (Z * list A)) (p : Z) (a b : list A) v x (r : result2 A) : Prop :=
  exists q a1 a2, ps = u ++ (p, a1) :: (q, a2) :: v /\ a1 ++ a2 = a ++ x :: b /\ a1 <> [] /\ a2 <> [] /\ (a = [] -> hd x a1 = x) /\ ~ used L [] q /\ q <> page_nil /\
    r_l0 r = mkLead Linsert q (hd x a2) (m_zero m) /\ r_l1 r = mkLead Loriginal p (hd x a1) (m_zero m) /\
    (forall z k, z <> p -> z <> q -> p_arr (pages m' z) k = p_arr (pages m z) k \/ p_arr (pages m' z) k = m_zero m) /\
    (forall k, zl a1 <= k < cap -> In (p_arr (pages m' p) k) a2) /\
    (forall k, zl a2 <= k -> p_arr (pages m' q) k = p_arr (pages m q) k \/ p_arr (pages m' q) k = m_zero m).

Lemma tab_in {A} (f : Z -> A) l k : tab f (length l) = l -> 0 <= k < zl l -> In (f k) l.
Proof.
  intros H Hk. unfold zl in Hk. rewrite <- H. unfold tab. apply in_map_iff. exists (Z.to_nat k). split; [f_equal; lia|apply in_seq; lia].
Qed.
Lemma holds_hd {A} (p : page A) l x : holds p l -> l <> [] -> p_arr p 0 = hd x l.
Proof. intros (_ & H) N. destruct l as [|y l]; [congruence|]. cbn [length] in H. pose proof (tab_nth (p_arr p) [] y l H) as E. exact E. Qed.

Lemma firstn_all_split {B} (a b c d : list B) : a ++ b = c ++ d -> (length a <= length c)%nat -> exists e, c = a ++ e /\ e ++ d = b.
Proof.
  revert c. induction a as [|x a IH]; intros c E H; [exists c; cbn in *; auto|]. destruct c as [|y c]; [cbn in H; lia|].
  cbn in E. injection E as -> E. destruct (IH c E) as (e & -> & Ee); [cbn in H; lia|]. exists e. auto.
Qed.

Section At.
Context {A : Type}.
Variables (t : ctype) (m : mem A) (L : layout A) (c : Z) (u : list (Z * list A)) (p : Z) (a b : list A) (v : list (Z * list A)) (x : A).
Hypothesis Wm : W m L [].
Hypothesis Hc : c <> 0.
Hypothesis EL : L c = u ++ (p, a ++ b) :: v.
Hypothesis Hg : good (t_cap t) (L c).
Hypothesis Hcap : t_cap t <= 65534.
Hypothesis Hfl : flags_ok t.
Hypothesis Hroom : fsize m < room m.
Let i := mkI true p (zl a) E_none.

Lemma ovf_at : zl (a ++ b) = t_cap t ->
  exists m' r ps, insert_with_overflow t c m i x = COk (m', r) /\ steady m m' /\ fsize m <= fsize m' <= fsize m + 1 /\ i_ok (r_itr r) = true /\
    W m' (upd L c ps) [] /\ good (t_cap t) ps /\ (proper m (used L []) -> proper m' (used (upd L c ps) [])) /\
    touch m m' (fun z => In z (pgs ps)) x /\ in_two L (t_cap t) m m' ps u p a b v x r.
Proof.
  intro Hfull. pose proof Hfl as (Hc2 & Hfb & Hfi). unfold insert_with_overflow. unfold i. cbn [i_page i_item i_edge].
  destruct (page_bnd _ _ _ _ _ _ _ _ Wm Hc EL) as (Bp & Bp').
  assert (ELa : L c = (u ++ [(p, a ++ b)]) ++ v) by (rewrite <- app_assoc; exact EL).
  destruct (insert_page_W m L c _ _ Wm Hc ELa) as (m1 & q & E1 & ST1 & SZ1 & K1 & SK1 & Q1 & Q2). { intro E. destruct u; discriminate. }
  rewrite last_pgs in E1. rewrite E1. cbn [cbind].
  destruct K1 as [(-> & W1 & Z1)|(Nq & W1)]; [exfalso; specialize (Q1 eq_refl); lia|].
  destruct (Z.eqb_spec q page_nil); [congruence|]. clear n. destruct (Q2 Nq) as (Uq & PR1). clear Q1 Q2.
  rewrite <- app_assoc in W1, PR1. cbn [app] in W1, PR1.
  set (L1 := upd L c (u ++ (p, a ++ b) :: (q, []) :: v)) in *.
  assert (EL1 : L1 c = u ++ (p, a ++ b) :: (q, []) :: v) by (unfold L1; apply upd_same).
  assert (Npq : p <> q).
  { intros ->. apply Uq. right. exists c. split; auto. rewrite EL, pgs_app. apply in_or_app; right; left; reflexivity. }
  pose proof Hg as Hg'. rewrite EL in Hg'. apply good_app in Hg'. destruct Hg' as (Hgu & Hg'). apply good_cons in Hg'. destruct Hg' as (_ & _ & Hgv).
  assert (EB : should_balance_insert t m (mkI true p (zl a) E_none) = true).
  { unfold should_balance_insert. cbn [i_page i_item i_edge edge_eqb]. rewrite !andb_false_r. destruct (_ && _); auto. }
  rewrite EB. clear EB.
  pose (s := (length (a ++ b) - Z.to_nat (t_cap t / 2))%nat). set (a1 := firstn s (a ++ b)). set (a2 := skipn s (a ++ b)).
  assert (E12 : a1 ++ a2 = a ++ b) by apply firstn_skipn.
  assert (Hdiv : 1 <= t_cap t / 2 <= t_cap t - t_cap t / 2).
  { pose proof (Z.div_mod (t_cap t) 2). pose proof (Z.mod_pos_bound (t_cap t) 2). assert (1 <= t_cap t / 2) by (apply Z.div_le_lower_bound; lia). lia. }
  assert (Hz2 : zl a2 = t_cap t / 2). { unfold a2, s, zl in *. rewrite skipn_length. lia. }
  assert (Hz1 : zl a1 = t_cap t - t_cap t / 2). { rewrite <- Hz2, <- Hfull, <- E12, zl_app. lia. }
  clearbody a1 a2. clear s.
  rewrite <- E12 in EL1.
  destruct (split_W t m1 L1 [] c u p a1 a2 q v W1 Hc EL1) as (W2 & S2 & ST2 & SZ2 & Cp & Cq); auto; [rewrite E12; auto|lia|].
  destruct (split_slots t m1 p q Npq) as (LK2 & O2 & Ap2 & Aq2). pose proof (fun S => touch_split t m1 p q S x Npq) as TS.
  destruct (page_items _ _ _ _ _ _ _ _ W1 Hc EL1) as (_ & Ita).
  set (m2 := balance_split t m1 p q) in *. clearbody m2.
  set (L2 := upd L1 c (u ++ (p, a1) :: (q, a2) :: v)) in *.
  assert (EL2 : L2 c = u ++ (p, a1) :: (q, a2) :: v) by (unfold L2; apply upd_same).
  assert (PG2 : forall d, d <> 0 -> pgs (L2 d) = pgs (L1 d)).
  { intros d Hd. unfold L2. rewrite upd_eq. destruct (Z.eqb_spec d c); [subst d|auto]. rewrite EL1, !pgs_app. reflexivity. }
  assert (PR2 : proper m (used L []) -> proper m2 (used L2 [])).
  { intro P. eapply (proper_links m1); [apply PR1; exact P|exact LK2|exact S2|lia|]. intros z Hz. eapply used_same; [|exact Hz]. auto. }
  (* slots of the first page behind its items hold what is now on the second *)
  assert (Stale : forall k, zl a1 <= k < t_cap t -> In (p_arr (pages m2 p) k) a2).
  { intros k Hk. rewrite Ap2. destruct (tab_split _ _ _ Ita) as (_ & It2). replace k with (k - zl a1 + Z.of_nat (length a1)) by (unfold zl; lia).
    apply (tab_in (fun k => p_arr (pages m1 p) (k + Z.of_nat (length a1)))); [exact It2|]. pose proof (zl_pos a1). lia. }
  assert (Staleq : forall k, zl a2 <= k -> p_arr (pages m2 q) k = p_arr (pages m q) k \/ p_arr (pages m2 q) k = m_zero m).
  { intros k Hk. rewrite Aq2. rewrite <- Hz2. destruct (Z.ltb_spec k (zl a2)); [lia|]. rewrite andb_false_r. apply SK1. }
  assert (Oth : forall z k, z <> p -> z <> q -> p_arr (pages m2 z) k = p_arr (pages m z) k \/ p_arr (pages m2 z) k = m_zero m).
  { intros z k Hp Hq. rewrite O2 by auto. apply SK1. }
  assert (Z2 : m_zero m2 = m_zero m). { destruct ST1 as (_ & _ & Z1). destruct ST2 as (_ & _ & Z2). congruence. }
  rewrite Cp.
  assert (Ha : zl a <= t_cap t). { rewrite <- Hfull, zl_app. pose proof (zl_pos b). lia. }
  pose proof (zl_pos a).
  destruct (Z.eqb_spec (zl a) item_nil) as [E|_]; [unfold item_nil in E; lia|]. cbn [negb andb].
  assert (FIN : forall ps m3 j, insert_with_capacity t m2 j x = COk (m3, mkR (mkI true (i_page j) (i_item j) E_none) (no_lead m2) (no_lead m2)) ->
     W m3 (upd L2 c ps) [] -> sts m3 = sts m2 -> steady m2 m3 -> fsize m3 = fsize m2 -> pgs ps = pgs (L2 c) -> In (i_page j) (pgs ps) ->
     forall b1 b2, ps = u ++ (p, b1) :: (q, b2) :: v -> b1 ++ b2 = a ++ x :: b -> b1 <> [] -> b2 <> [] -> (a = [] -> hd x b1 = x) -> zl b1 <= t_cap t -> zl b2 <= t_cap t ->
     (forall k, zl b1 <= k < t_cap t -> In (p_arr (pages m3 p) k) b2) ->
     (forall k, zl b2 <= k -> p_arr (pages m3 q) k = p_arr (pages m q) k \/ p_arr (pages m3 q) k = m_zero m) -> (i_page j = p \/ i_page j = q) ->
     exists m' r ps, (cbind (COk (m3, mkR (mkI true (i_page j) (i_item j) E_none) (no_lead m2) (no_lead m2))) (fun '(m, r) =>
          COk (m, mkR (r_itr r) (mkLead Linsert q (p_arr (pages m q) 0) (m_zero m)) (mkLead Loriginal p (p_arr (pages m p) 0) (m_zero m))))) = COk (m', r) /\ steady m m' /\ fsize m <= fsize m' <= fsize m + 1 /\ i_ok (r_itr r) = true /\
    W m' (upd L c ps) [] /\ good (t_cap t) ps /\ (proper m (used L []) -> proper m' (used (upd L c ps) [])) /\
    touch m m' (fun z => In z (pgs ps)) x /\ in_two L (t_cap t) m m' ps u p a b v x r).
  { intros ps m3 j E3 W3 S3 ST3 SZ3 PG3 Ij b1 b2 Eps Eb N1 N2 Hh G1 G2 St1 St2 Hj. cbn [cbind]. eexists m3, _, ps. split; [reflexivity|].
    assert (ST : steady m m3) by (eapply steady_trans; [exact ST1|eapply steady_trans; eauto]). split; [exact ST|]. split; [lia|]. split; [reflexivity|].
    assert (W3' : W m3 (upd L c ps) []) by (apply upd_ext in W3; apply upd_ext in W3; exact W3). split; [exact W3'|].
    split; [rewrite Eps; apply good_app; split; auto; apply good_cons; split; [auto|]; split; [auto|]; apply good_cons; auto|].
    assert (Ip : In p (pgs ps) /\ In q (pgs ps)). { rewrite PG3, EL2, pgs_app. split; apply in_or_app; right; [left|right; left]; reflexivity. } destruct Ip as (Ip & Iq).
    split; [|split].
    - intro P. destruct (iwc_slots _ _ _ _ _ _ E3) as (LK3 & _). eapply (proper_links m2); [apply PR2; exact P|exact LK3|exact S3|lia|].
      intros z Hz. eapply used_same; [|exact Hz]. intros d Hd. unfold L2, L1. rewrite !upd_eq. destruct (Z.eqb_spec d c); [subst d|auto]. rewrite PG3, EL2, !pgs_app. reflexivity.
    - eapply (touch_trans m m1); [apply touch_kept; exact SK1| |apply ST1]. eapply (touch_trans m1 m2); [apply TS; auto| |apply ST2]. eapply touch_iwc; eauto.
    - pose proof (holds_hd (pages m3 q) b2 x) as H2. pose proof (holds_hd (pages m3 p) b1 x) as H1.
      assert (ELp : upd L c ps c = u ++ (p, b1) :: (q, b2) :: v) by (rewrite upd_same; exact Eps).
      assert (ELq : upd L c ps c = (u ++ [(p, b1)]) ++ (q, b2) :: v) by (rewrite ELp, <- app_assoc; reflexivity).
      rewrite (H1 (page_items _ _ _ _ _ _ _ _ W3' Hc ELp) N1), (H2 (page_items _ _ _ _ _ _ _ _ W3' Hc ELq) N2).
      destruct ST as (_ & _ & ->). exists q, b1, b2. split; [exact Eps|]. split; [exact Eb|]. split; [exact N1|]. split; [exact N2|]. split; [exact Hh|]. split; [exact Uq|]. split; [exact Nq|]. split; [reflexivity|]. split; [reflexivity|].
      split; [|split; [exact St1|exact St2]].
      intros z k Hp Hq. destruct (iwc_slots _ _ _ _ _ _ E3) as (_ & O3 & _). rewrite O3; [auto|]. intros ->. destruct Hj; auto. }
  destruct (Z.leb_spec (zl a) (zl a1)) as [Hle|Hgt].
  - destruct (firstn_all_split a b a1 a2) as (b1 & Eb1 & Eb); [auto|unfold zl in Hle; lia|].
    assert (EL2' : L2 c = u ++ (p, a ++ b1) :: (q, a2) :: v) by (rewrite EL2, Eb1; reflexivity).
    destruct (iwc_W t m2 L2 [] c u p a b1 _ (mkI true p (zl a) E_none) x W2 Hc EL2') as (m3 & E3 & W3 & S3 & ST3 & SZ3); auto. { rewrite <- Eb1. lia. }
    rewrite E3. pose proof (iwc_slots _ _ _ _ _ _ E3) as (_ & O3 & _ & P3). cbn [i_page] in O3, P3. rewrite Cp in P3.
    assert (Zb : zl (a ++ x :: b1) = zl a1 + 1) by (rewrite Eb1, !zl_app, zl_cons; lia).
    apply (FIN (u ++ (p, a ++ x :: b1) :: (q, a2) :: v) m3 (mkI true p (zl a) E_none) E3 W3 S3 ST3 SZ3) with (b1 := a ++ x :: b1) (b2 := a2).
    + rewrite EL2, !pgs_app. reflexivity.
    + cbn [i_page]. rewrite pgs_app. apply in_or_app; right; left; reflexivity.
    + reflexivity.
    + rewrite <- app_assoc. cbn [app]. rewrite Eb. reflexivity.
    + destruct a; discriminate.
    + intros ->. rewrite zl_nil in Hz2. lia.
    + intros ->. reflexivity.
    + lia.
    + lia.
    + intros k Hk. rewrite P3 by lia. apply Stale. lia.
    + intros k Hk. rewrite O3 by congruence. apply Staleq. exact Hk.
    + left; reflexivity.
  - destruct (firstn_all_split a1 a2 a b) as (a' & Ea & Ea'); [auto|unfold zl in Hgt; lia|].
    assert (EL2' : L2 c = (u ++ [(p, a1)]) ++ (q, a' ++ b) :: v) by (rewrite EL2, <- app_assoc, Ea'; reflexivity).
    rewrite small_u16 by lia.
    destruct (iwc_W t m2 L2 [] c (u ++ [(p, a1)]) q a' b v (mkI true q (zl a - zl a1) E_none) x W2 Hc EL2') as (m3 & E3 & W3 & S3 & ST3 & SZ3); auto.
    { rewrite Ea'. lia. } { left. cbn. rewrite Ea, zl_app. lia. }
    assert (Za : zl a' = zl a - zl a1) by (rewrite Ea, zl_app; lia). rewrite Za in E3.
    rewrite E3. pose proof (iwc_slots _ _ _ _ _ _ E3) as (_ & O3 & _ & P3). cbn [i_page] in O3, P3. rewrite Cq in P3.
    assert (Zb : zl (a' ++ x :: b) = zl a2 + 1) by (rewrite <- Ea', !zl_app, zl_cons; lia).
    assert (N1 : a1 <> []) by (intros E; rewrite E, zl_nil in Hz1; lia).
    rewrite <- app_assoc in W3. cbn [app] in W3.
    apply (FIN (u ++ (p, a1) :: (q, a' ++ x :: b) :: v) m3 (mkI true q (zl a - zl a1) E_none) E3 W3 S3 ST3 SZ3) with (b1 := a1) (b2 := a' ++ x :: b).
    + rewrite EL2, !pgs_app. reflexivity.
    + cbn [i_page]. rewrite pgs_app. apply in_or_app; right; right; left; reflexivity.
    + reflexivity.
    + rewrite Ea, <- app_assoc. reflexivity.
    + exact N1.
    + destruct a'; discriminate.
    + intro E. exfalso. rewrite E, zl_nil in Hgt. pose proof (zl_pos a1). lia.
    + lia.
    + lia.
    + intros k Hk. rewrite O3 by auto. specialize (Stale k Hk). rewrite <- Ea' in Stale. apply in_app_or in Stale. apply in_or_app. destruct Stale; [left; auto|right; right; auto].
    + intros k Hk. rewrite P3 by lia. apply Staleq. lia.
    + right; reflexivity.
Qed.

Lemma ins_at :
  exists m' r ps, c_insert t c m i x = COk (m', r) /\ room m' = room m /\ m_zero m' = m_zero m /\ fsize m <= fsize m' <= fsize m + 1 /\
    tots m' = upd (tots m) c (wrap_u64 (tots m c + 1)) /\ i_ok (r_itr r) = true /\
    W m' (upd L c ps) [] /\ good (t_cap t) ps /\ (proper m (used L []) -> proper m' (used (upd L c ps) [])) /\
    touch m m' (fun z => In z (pgs ps)) x /\ (in_one (t_cap t) m m' ps u p a b v x r \/ in_two L (t_cap t) m m' ps u p a b v x r).
Proof.
  pose proof Hfl as (Hc2 & _ & _). unfold c_insert. unfold i. cbn [i_page i_item i_edge].
  destruct (page_bnd _ _ _ _ _ _ _ _ Wm Hc EL) as (Bp & Bp'). destruct (Z.eqb_spec p page_nil); [lia|]. cbn [andb].
  pose proof Hg as Hg'. rewrite EL in Hg'. apply good_app in Hg'. destruct Hg' as (Hgu & Hgp). apply good_cons in Hgp. destruct Hgp as (Hn & Hle & Hgv).
  pose proof Hle as Hle2. rewrite zl_app in Hle2. pose proof (zl_pos a). pose proof (zl_pos b).
  rewrite (zl_ok a (t_cap t)) by lia. cbn [andb].
  destruct (page_items _ _ _ _ _ _ _ _ Wm Hc EL) as (Ic & It). fold (zl (a ++ b)) in Ic.
  unfold insert_nostate. cbn [i_page]. destruct (Z.eqb_spec p page_nil); [lia|]. unfold insert_nonempty. cbn [i_page]. rewrite Ic.
  assert (K : forall m1 r1 ps, steady m m1 -> fsize m <= fsize m1 <= fsize m + 1 -> i_ok (r_itr r1) = true ->
    W m1 (upd L c ps) [] -> good (t_cap t) ps -> (proper m (used L []) -> proper m1 (used (upd L c ps) [])) ->
    touch m m1 (fun z => In z (pgs ps)) x -> ps <> [] -> (last (pgs ps) page_nil = p -> ld_page (r_l0 r1) = page_nil) ->
    (in_one (t_cap t) m m1 ps u p a b v x r1 \/ in_two L (t_cap t) m m1 ps u p a b v x r1) ->
    exists m' r ps, cbind (COk (m1, r1)) (fun '(m, r) =>
       if i_ok (r_itr r) then
        let m := if front (sts m c) =? page_nil then set_front m c (i_page (r_itr r)) else m in
        let m := if back (sts m c) =? page_nil then set_back m c (i_page (r_itr r))
                 else if (back (sts m c) =? p) && negb (ld_page (r_l0 r) =? page_nil) then set_back m c (ld_page (r_l0 r))
                 else m in
        COk (set_tot m c (wrap_u64 (tots m c + 1)), r)
       else COk (m, mkR (c_end c m) (no_lead m) (no_lead m))) = COk (m', r) /\ room m' = room m /\ m_zero m' = m_zero m /\ fsize m <= fsize m' <= fsize m + 1 /\
    tots m' = upd (tots m) c (wrap_u64 (tots m c + 1)) /\ i_ok (r_itr r) = true /\
    W m' (upd L c ps) [] /\ good (t_cap t) ps /\ (proper m (used L []) -> proper m' (used (upd L c ps) [])) /\
    touch m m' (fun z => In z (pgs ps)) x /\ (in_one (t_cap t) m m' ps u p a b v x r \/ in_two L (t_cap t) m m' ps u p a b v x r)).
  { intros m1 r1 ps (T1 & R1 & Z1) SZ Ho W1 G1 P1 TT Nps Hl HI. cbn [cbind]. rewrite Ho.
    assert (Nps' : upd L c ps c <> []) by (rewrite upd_same; auto).
    destruct (nonempty_ends _ _ _ _ W1 Hc Nps') as (N1 & N2 & N3). rewrite upd_same in N3.
    destruct (Z.eqb_spec (front (sts m1 c)) page_nil); [congruence|]. cbn zeta.
    destruct (Z.eqb_spec (back (sts m1 c)) page_nil); [congruence|].
    assert (EX : (back (sts m1 c) =? p) && negb (ld_page (r_l0 r1) =? page_nil) = false).
    { rewrite N3. destruct (Z.eqb_spec (last (pgs ps) page_nil) p) as [E|]; [|reflexivity]. rewrite (Hl E), Z.eqb_refl. reflexivity. }
    rewrite EX. eexists (set_tot m1 c _), r1, ps. split; [reflexivity|]. split; [auto|]. split; [auto|]. split; [auto|].
    split; [cbn; rewrite T1; reflexivity|]. split; [auto|]. split; [apply W_tot; auto|]. split; [auto|]. split; [exact P1|]. split; [exact TT|exact HI]. }
  destruct (Z.eqb_spec (zl (a ++ b)) (t_cap t)) as [E|N].
  - destruct (ovf_at E) as (m1 & r1 & ps & E1 & ST1 & SZ1 & Ho & W1 & G1 & P1 & TT & HI). unfold i in E1. rewrite E1. apply (K m1 r1 ps); auto.
    + destruct HI as (q & a1 & a2 & -> & _). destruct u; discriminate.
    + intro EL'. exfalso. destruct HI as (q & a1 & a2 & Eps & _).
      pose proof (w_nd _ _ _ W1 c Hc) as ND. rewrite upd_same, Eps, pgs_app in ND. rewrite Eps, pgs_app, last_app in EL'. apply nodup_split in ND.
      change (pgs ((p, a1) :: (q, a2) :: v)) with (p :: q :: pgs v) in *. rewrite last_cons in EL'. apply (proj1 (proj2 ND)). rewrite <- EL' at 1. apply last_in. discriminate.
  - destruct (iwc_W t m L [] c u p a b v (mkI true p (zl a) E_none) x Wm Hc EL) as (m1 & E1 & W1 & S1 & ST1 & SZ1); auto; [lia|].
    rewrite E1. pose proof (iwc_slots _ _ _ _ _ _ E1) as (LK1 & O1 & _ & P1). cbn [i_page] in O1, P1. rewrite Ic in P1.
    eapply (K m1 _ (u ++ (p, a ++ x :: b) :: v)); auto; [lia|..].
    + apply good_app. split; auto. apply good_cons. split; [destruct a; discriminate|]. split; [rewrite zl_app, zl_cons; rewrite zl_app in N; lia|auto].
    + intro P. eapply (proper_links m); [exact P|exact LK1|exact S1|lia|]. intros z Hz. eapply used_same; [|exact Hz]. intros d Hd. rewrite upd_eq. destruct (Z.eqb_spec d c); [subst d|auto]. rewrite EL, !pgs_app. reflexivity.
    + eapply touch_iwc; eauto. cbn [i_page]. rewrite pgs_app. apply in_or_app; right; left; reflexivity.
    + destruct u; discriminate.
    + left. split; [reflexivity|]. split; [lia|]. split; [reflexivity|]. split; [reflexivity|]. split; [exact SZ1|].
      intros z k Hz. destruct (Z.eq_dec z p) as [->|Nz]; [apply P1; destruct Hz; [congruence|auto]|rewrite O1; auto].
Qed.
End At.

Section Push.
Context {A : Type}.
Variables (t : ctype) (m : mem A) (L : layout A) (c : Z) (x : A).
Hypothesis Wm : W m L [].
Hypothesis Hc : c <> 0.
Hypothesis Hg : good (t_cap t) (L c).
Hypothesis Hcap : 1 <= t_cap t <= 65534.
Hypothesis Hroom : fsize m < room m.
Hypothesis Hfl : flag_test (t_ins t) flag_end = false \/ zl (flat (L c)) < t_cap t.

Definition pushed (m' : mem A) (ps : list (Z * list A)) (r : result2 A) : Prop :=
  i_ok (r_itr r) = true /\
  ((exists q, ps = L c ++ [(q, [x])] /\ ~ used L [] q /\ (L c = [] \/ t_cap t <= zl (flat (L c))) /\ (L c = [] -> ld_op (r_l0 r) = Lnone /\ ld_op (r_l1 r) = Lnone) /\
     (forall z k, z <> q \/ 0 < k -> p_arr (pages m' z) k = p_arr (pages m z) k \/ p_arr (pages m' z) k = m_zero m)) \/
   (exists u p i, L c = u ++ [(p, i)] /\ ps = u ++ [(p, i ++ [x])] /\ zl i < t_cap t)).
Lemma push_W :
  exists m' r ps, c_push_back t c m x = COk (m', r) /\ room m' = room m /\ m_zero m' = m_zero m /\ fsize m <= fsize m' <= fsize m + 1 /\
    tots m' = upd (tots m) c (wrap_u64 (tots m c + 1)) /\
    W m' (upd L c ps) [] /\ good (t_cap t) ps /\ (proper m (used L []) -> proper m' (used (upd L c ps) [])) /\
    touch m m' (fun z => In z (pgs ps)) x /\
    pushed m' ps r.
Proof.
  unfold c_push_back, c_insert, c_end. cbn [i_page i_item i_edge].
  rewrite Z.eqb_refl. cbn [negb orb edge_eqb andb]. rewrite andb_false_r.
  assert (K : forall m1 r1 ps pb, steady m m1 -> fsize m <= fsize m1 <= fsize m + 1 -> i_ok (r_itr r1) = true ->
    W m1 (upd L c ps) [] -> good (t_cap t) ps -> (proper m (used L []) -> proper m1 (used (upd L c ps) [])) ->
    touch m m1 (fun z => In z (pgs ps)) x -> (last (pgs ps) page_nil = pb -> ld_page (r_l0 r1) = page_nil) ->
    pushed m1 ps r1 ->
    exists m' r ps, cbind (COk (m1, r1)) (fun '(m, r) =>
       if i_ok (r_itr r) then
        let m := if front (sts m c) =? page_nil then set_front m c (i_page (r_itr r)) else m in
        let m := if back (sts m c) =? page_nil then set_back m c (i_page (r_itr r))
                 else if (back (sts m c) =? pb) && negb (ld_page (r_l0 r) =? page_nil) then set_back m c (ld_page (r_l0 r))
                 else m in
        COk (set_tot m c (wrap_u64 (tots m c + 1)), r)
       else COk (m, mkR (mkI true (back (sts m c)) item_nil E_end) (no_lead m) (no_lead m))) = COk (m', r) /\ room m' = room m /\ m_zero m' = m_zero m /\ fsize m <= fsize m' <= fsize m + 1 /\
    tots m' = upd (tots m) c (wrap_u64 (tots m c + 1)) /\
    W m' (upd L c ps) [] /\ good (t_cap t) ps /\ (proper m (used L []) -> proper m' (used (upd L c ps) [])) /\
    touch m m' (fun z => In z (pgs ps)) x /\
    pushed m' ps r).
  { intros m1 r1 ps pb (T1 & R1 & Z1) SZ Ho W1 G1 P1 TT Hl HI. cbn [cbind]. rewrite Ho.
    assert (Nps' : upd L c ps c <> []). { rewrite upd_same. destruct HI as (_ & [(q & -> & _)|(u & p & i & _ & -> & _)]); [destruct (L c)|destruct u]; discriminate. }
    destruct (nonempty_ends _ _ _ _ W1 Hc Nps') as (N1 & N2 & N3). rewrite upd_same in N3.
    destruct (Z.eqb_spec (front (sts m1 c)) page_nil); [congruence|]. cbn zeta.
    destruct (Z.eqb_spec (back (sts m1 c)) page_nil); [congruence|].
    assert (EX : (back (sts m1 c) =? pb) && negb (ld_page (r_l0 r1) =? page_nil) = false).
    { rewrite N3. destruct (Z.eqb_spec (last (pgs ps) page_nil) pb) as [E|]; [|reflexivity]. rewrite (Hl E), Z.eqb_refl. reflexivity. }
    rewrite EX. eexists (set_tot m1 c _), r1, ps. split; [reflexivity|]. split; [auto|]. split; [auto|]. split; [auto|].
    split; [cbn; rewrite T1; reflexivity|]. split; [apply W_tot; auto|]. split; [auto|]. split; [exact P1|]. split; [exact TT|exact HI]. }
  pose proof (W_states _ _ _ _ Wm Hc) as ES.
  assert (NEW : forall u, L c = u -> exists m1 q, insert_page_after c m (last (pgs u) page_nil) = COk (m1, q) /\ (q =? page_nil) = false /\ fsize m <= fsize m1 <= fsize m + 1 /\
     ~ used L [] q /\ p_cnt (pages m1 q) = 0 /\ q <> page_nil /\
     (exists m2, insert_with_capacity t m1 (mkI true q 0 E_none) x = COk (m2, mkR (mkI true q 0 E_none) (no_lead m1) (no_lead m1)) /\
       steady m m2 /\ fsize m2 = fsize m1 /\ W m2 (upd L c (u ++ [(q, [x])])) [] /\ (proper m (used L []) -> proper m2 (used (upd L c (u ++ [(q, [x])])) [])) /\
       touch m m2 (fun z => In z (pgs (u ++ [(q, [x])]))) x /\
       (forall z k, z <> q \/ 0 < k -> p_arr (pages m2 z) k = p_arr (pages m z) k \/ p_arr (pages m2 z) k = m_zero m))).
  { intros u EL. assert (ELa : L c = u ++ []) by (rewrite app_nil_r; exact EL).
    destruct (insert_page_W m L c _ _ Wm Hc ELa) as (m1 & q & E1 & ST1 & SZ1 & K1 & SK1 & Q1 & Q2); [auto|]. rewrite E1.
    destruct K1 as [(-> & W1 & Z1)|(Nq & W1)]; [exfalso; specialize (Q1 eq_refl); lia|]. destruct (Q2 Nq) as (Uq & PR1).
    exists m1, q. split; [reflexivity|]. split; [apply Z.eqb_neq; auto|]. split; [lia|]. split; [exact Uq|].
    assert (EL1 : upd L c (u ++ [(q, [])]) c = u ++ (q, [] ++ []) :: []) by apply upd_same.
    split; [apply (page_items _ _ _ _ _ _ _ _ W1 Hc EL1)|]. split; [exact Nq|].
    destruct (iwc_W t m1 _ [] c u q [] [] [] (mkI true q 0 E_none) x W1 Hc EL1) as (m2 & E2 & W2 & S2 & ST2 & SZ2); auto. { cbn. lia. }
    exists m2. split; [exact E2|]. split; [eapply steady_trans; eauto|]. split; [exact SZ2|]. split; [apply upd_ext in W2; exact W2|].
    destruct (iwc_slots _ _ _ _ _ _ E2) as (LK & O2 & _ & P2). cbn [i_page] in O2, P2.
    split; [|split].
    - intro P. eapply (proper_links m1); [apply PR1; exact P|exact LK|exact S2|lia|]. intros z Hz. eapply used_same; [|exact Hz]. intros d Hd. rewrite !upd_eq. destruct (Z.eqb_spec d c); [subst d|auto]. rewrite !pgs_app. reflexivity.
    - eapply (touch_trans m m1); [apply touch_kept; exact SK1| |apply ST1]. eapply touch_iwc; [exact E2|]. cbn [i_page]. rewrite pgs_app. apply in_or_app; right; left; reflexivity.
    - intros z k Hz. destruct (page_items _ _ _ _ _ _ _ _ W1 Hc EL1) as (C1 & _). cbn in C1. destruct (Z.eq_dec z q) as [->|Nz]; [rewrite P2 by lia|rewrite O2 by auto]; apply SK1. }
  destruct (L c) as [|w u _] eqn:EL using rev_ind.
  - assert (ES2 : sts m c = mkState page_nil page_nil) by exact ES. unfold c_empty, l_empty. rewrite ES2. cbn [front back]. rewrite Z.eqb_refl. cbn [orb negb andb].
    unfold insert_nostate. cbn [i_page]. rewrite Z.eqb_refl. unfold insert_empty.
    destruct (NEW [] eq_refl) as (m1 & q & E1 & Nq & SZ1 & Uq & C1 & Nq' & m2 & E2 & ST2 & SZ2 & W2 & P2 & T2 & Y2). cbn [pgs map last] in E1. rewrite E1. cbn [cbind]. rewrite Nq, E2.
    apply (K m2 _ [(q, [x])] page_nil); auto; [lia| |split; [reflexivity|]; rewrite EL; left; exists q; auto 8].
    apply good_cons. split; [discriminate|]. split; [unfold zl; cbn; lia|constructor].
  - destruct w as [p its]. pose proof ES as ES2. rewrite last_pgs in ES2. rewrite ES2 in *. cbn [back] in *.
    destruct (page_bnd _ _ _ _ _ _ _ _ Wm Hc EL) as (Bp & Bp'). destruct (Z.eqb_spec p page_nil); [lia|]. cbn [andb].
    pose proof Hg as Hg'. apply good_app in Hg'. destruct Hg' as (Hgu & Hgp). apply good_cons in Hgp. destruct Hgp as (Hn & Hle & _).
    destruct (page_items _ _ _ _ _ _ _ _ Wm Hc EL) as (Ic & It).
    assert (EL' : L c = u ++ (p, its ++ []) :: []) by (rewrite app_nil_r; exact EL).
    unfold insert_nostate. cbn [i_page]. destruct (Z.eqb_spec p page_nil); [lia|]. unfold insert_nonempty. cbn [i_page]. fold (zl its) in Ic. rewrite Ic.
    destruct (Z.eqb_spec (zl its) (t_cap t)) as [E|N].
    + assert (Hfe : flag_test (t_ins t) flag_end = false).
      { destruct Hfl as [|Hfl']; auto. exfalso. rewrite flat_app in Hfl'. cbn [flat map concat snd] in Hfl'. rewrite zl_app in Hfl'. rewrite app_nil_r in Hfl'. pose proof (zl_pos (flat u)). unfold flat in *. lia. }
      unfold insert_with_overflow. cbn [i_page i_item i_edge].
      assert (EB : should_balance_insert t m (mkI true p item_nil E_end) = false).
      { unfold should_balance_insert. cbn [i_page i_item i_edge edge_eqb]. pose proof (page_links _ _ _ _ _ _ _ _ Wm Hc EL) as (_ & En). rewrite En. cbn [pgs map hd]. rewrite !Z.eqb_refl. cbn [andb]. rewrite andb_false_r. exact Hfe. }
      rewrite EB.
      destruct (NEW (u ++ [(p, its)]) eq_refl) as (m1 & q & E1 & Nq & SZ1 & Uq & C1 & Nq' & m2 & E2 & ST2 & SZ2 & W2 & P2 & T2 & Y2). rewrite last_pgs in E1. rewrite E1. cbn [cbind]. rewrite Nq.
      change (item_nil =? item_nil) with true. cbn [negb andb]. rewrite C1, E2. cbn [cbind].
      apply (K m2 _ ((u ++ [(p, its)]) ++ [(q, [x])]) p); auto; [lia| | |split; [reflexivity|]; rewrite EL; left; exists q; split; [reflexivity|]; split; [exact Uq|]; split; [right; rewrite flat_app, flat_cons, zl_app, app_nil_r, E; pose proof (zl_pos (flat u)); lia|]; split; [intro E'; destruct u; discriminate|exact Y2]].
      * apply good_app. split; auto. apply good_cons. split; [discriminate|]. split; [unfold zl; cbn; lia|constructor].
      * rewrite last_pgs. intro E'. exfalso. apply Uq. right. exists c. split; auto. rewrite E', EL, pgs_app. apply in_or_app; right; left; reflexivity.
    + destruct (iwc_W t m L [] c u p its [] [] (mkI true p item_nil E_end) x Wm Hc EL') as (m1 & E1 & W1 & S1 & ST1 & SZ1); auto.
      { rewrite app_nil_r. lia. }
      rewrite E1. destruct (iwc_slots _ _ _ _ _ _ E1) as (LK & _).
      apply (K m1 _ (u ++ [(p, its ++ [x])]) p); auto; [lia| | | |split; [reflexivity|]; right; exists u, p, its; split; [auto|split; [auto|lia]]].
      * apply good_app; split; auto; apply good_cons; split; [destruct its; discriminate|]; split; [rewrite zl_app; unfold zl at 2; cbn; lia|constructor].
      * intro P. eapply (proper_links m); [exact P|exact LK|exact S1|lia|]. intros z Hz. eapply used_same; [|exact Hz]. intros d Hd. rewrite upd_eq. destruct (Z.eqb_spec d c); [subst d|auto]. rewrite EL, !pgs_app. reflexivity.
      * eapply touch_iwc; [exact E1|]. cbn [i_page]. rewrite pgs_app. apply in_or_app; right; left; reflexivity.
Qed.
End Push.

(** clear(): the pages go to the free list; the state of the container may still name them. *)
Lemma clear_W {A} (m : mem A) L c : W m L [] -> c <> 0 -> proper m (used L []) ->
  exists m', c_clear c m = COk m' /\ steady m m' /\ fsize m' = fsize m /\ (forall d, d <> 0 -> d <> c -> sts m' d = sts m d) /\
    (forall z, p_arr (pages m' z) = p_arr (pages m z)) /\
    W (set_st m' c (mkState page_nil page_nil)) (upd L c []) [] /\ proper (set_st m' c (mkState page_nil page_nil)) (used (upd L c []) []).
Proof.
  intros Wm Hc Pm. unfold c_clear, l_clear.
  destruct (init_W m L [] c Wm Hc) as (W0 & R0 & F0 & S0).
  assert (P0 : proper (l_init m c) (used L [])).
  { eapply proper_keep; [exact Pm|apply S0; auto|destruct F0 as (F0 & _); lia| |auto]. intros x _ _. destruct F0 as (_ & _ & _ & _ & F0 & _). unfold same_links. rewrite F0 by (intros []). auto. }
  set (m0 := l_init m c) in *. destruct P0 as (F & RF & NF & BF).
  destruct (init_rep m0 0 F) as (R1 & F1 & S1); [left; auto|intros y Hy; destruct (BF y Hy); pose proof (w_sz _ _ _ W0); lia|].
  assert (EQ0 : sts (l_init m0 0) 0 = sts m0 0) by (destruct R1 as (-> & _); destruct RF as (-> & _); reflexivity).
  assert (RC : rep (l_init m0 0) c (pgs (L c))).
  { eapply rep_same; [apply S1; auto| |exact R0]. intros x _. destruct F1 as (_ & _ & _ & _ & F1 & _). unfold same_links. rewrite F1 by (intros []). auto. }
  assert (F01 : frame m (l_init m0 0) []) by (eapply frame_trans1; eauto).
  assert (S01 : forall d, d <> 0 -> d <> c -> sts (l_init m0 0) d = sts m d) by (intros; rewrite S1, S0; auto).
  assert (FZ0 : fsize m0 = fsize m) by (destruct F0 as (F0 & _); exact F0).
  assert (Bc : forall y, In y (pgs (L c)) -> 2 <= y < fsize m /\ 0 < y < page_nil) by (intros; eapply pgs_bnd; eauto).
  set (m1 := l_init m0 0) in *. clearbody m1. clear RF F0 F1 R0 S1 S0 EQ0 W0. clearbody m0.
  assert (DIS : forall y, In y F -> In y (pgs (L c)) -> False) by (intros y Hy Hy'; apply (proj2 (BF y Hy)); right; eauto).
  assert (ND : NoDup (F ++ pgs (L c))) by (apply nodup_app_intro; auto; apply (w_nd _ _ _ Wm); auto).
  pose proof (w_sz _ _ _ Wm) as Sz.
  assert (K : exists m', l_splice m1 0 c = Ok m' /\ frame m1 m' (F ++ pgs (L c)) /\ (forall d, d <> 0 -> d <> c -> sts m' d = sts m1 d) /\ rep m' 0 (F ++ pgs (L c))).
  { destruct F as [|f F].
    - unfold l_splice. destruct (Z.eqb_spec 0 c); [lia|]. rewrite (l_empty_rep m1 c _ (fun y Hy => proj2 (Bc y Hy)) RC), (l_empty_rep m1 0 [] (fun y (Hy : In y []) => match Hy with end) R1).
      destruct (pgs (L c)) as [|y l] eqn:EP.
      + exists m1. split; [reflexivity|]. split; [apply frame_refl|]. split; auto.
      + eexists. split; [reflexivity|]. split; [apply frame_set_st|]. split; [intros d Hd _; rewrite sts_set_st; destruct (Z.eqb_spec d 0); [lia|auto]|].
        destruct RC as (RC1 & RC2). split; [rewrite sts_set_st; cbn [Z.eqb]; exact RC1|exact RC2].
    - destruct (splice_rep m1 0 c (f :: F) (pgs (L c)) R1 RC) as (m' & E & Ra & _ & Fr & So); auto; [discriminate| |].
      { intros y Hy. apply in_app_or in Hy. destruct Hy as [Hy|Hy]; [destruct (BF y Hy); lia|apply Bc; auto]. }
      exists m'. auto. }
  destruct K as (m' & E & Fr & So & Ra). rewrite E. exists m'. split; [reflexivity|].
  assert (FR : frame m m' (F ++ pgs (L c))) by (eapply frame_trans1; [eapply frame_mono; [|exact F01]; intros ? []|exact Fr]).
  destruct FR as (G1 & G2 & G3 & G4 & G5 & G6) eqn:EFR. clear EFR.
  split; [repeat split; congruence|]. split; [auto|]. split; [intros; rewrite So, S01; auto|].
  split; [intro z; apply (G6 z)|].
  assert (PR : proper (set_st m' c (mkState page_nil page_nil)) (used (upd L c []) [])).
  { exists (F ++ pgs (L c)). split; [|split; [exact ND|]].
    - destruct Ra as (Ra1 & Ra2). split; [rewrite sts_set_st; destruct (Z.eqb_spec 0 c); [lia|exact Ra1]|exact Ra2].
    - intros y Hy. cbn [fsize set_st]. split.
      + apply in_app_or in Hy. destruct Hy as [Hy|Hy]; [destruct (BF y Hy); lia|destruct (Bc y Hy); lia].
      + intros [[]|(d & Hd & Hi)]. rewrite upd_eq in Hi. destruct (Z.eqb_spec d c); [destruct Hi|].
        apply in_app_or in Hy. destruct Hy as [Hy|Hy]; [apply (proj2 (BF y Hy)); right; eauto|eapply (w_dis _ _ _ Wm c d y); eauto]. }
  split; [|exact PR].
  apply (W_chain m _ L [] c []); auto.
  - intros d q Hd Hdc Hq. cbn [pages set_st]. apply G5. intro Hin. apply in_app_or in Hin. destruct Hin as [Hi|Hi]; [apply (proj2 (BF q Hi)); right; eauto|eapply (w_dis _ _ _ Wm c d q); eauto].
  - split; [rewrite sts_set_st, Z.eqb_refl; reflexivity|exact Logic.I].
  - constructor.
  - intros q i [].
  - intros d Hd Hdc. rewrite sts_set_st. destruct (Z.eqb_spec d c); [congruence|]. rewrite So, S01; auto.
  - right; left. exact PR.
Qed.
