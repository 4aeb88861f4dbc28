(** Proofs about maps whose keys fit on one page: insertions in any order, and erasures of keys that are not the greatest. *)

From Coq Require Import ZArith List Bool Lia Sorting.Sorted.
From Verif Require Import Base Cache_Model Linked_Model Linked_Proofs Cont_Model Cont_Spec Cont_Proofs Cont_Steps Cont_Erase Cont_Runs Cont_Inner Map_Model Map_Spec Map_Proofs.
Import ListNotations.
Open Scope Z_scope.
Local Opaque page_nil.

(** * One page of a container *)
Lemma ins_one {A} t (m : mem A) L c p a b x : W m L [] -> c <> 0 -> L c = [(p, a ++ b)] -> good (t_cap t) (L c) -> zl (a ++ b) < t_cap t <= 65534 ->
  exists m' r, c_insert t c m (mkI true p (zl a) E_none) x = COk (m', r) /\ room m' = room m /\ m_zero m' = m_zero m /\ fsize m' = fsize m /\
    tots m' = upd (tots m) c (wrap_u64 (tots m c + 1)) /\ i_ok (r_itr r) = true /\ r_l0 r = no_lead m /\ r_l1 r = no_lead m /\
    W m' (upd L c [(p, a ++ x :: b)]) [] /\ (proper m (used L []) -> proper m' (used (upd L c [(p, a ++ x :: b)]) [])) /\
    (forall k, zl (a ++ b) < k -> p_arr (pages m' p) k = p_arr (pages m p) k).
Proof.
  intros Wm Hc EL Hg Hcap. change ([(p, a ++ b)]) with ([] ++ (p, a ++ b) :: []) in EL.
  unfold c_insert. cbn [i_page i_item i_edge].
  destruct (page_bnd _ _ _ _ _ _ _ _ Wm Hc EL) as (Bp & Bp'). destruct (Z.eqb_spec p page_nil); [lia|]. cbn [andb].
  pose proof (zl_pos a). pose proof (zl_pos b). pose proof (zl_app a b) as Zab.
  rewrite (zl_ok a (t_cap t)) by lia. cbn [andb].
  destruct (page_items _ _ _ _ _ _ _ _ Wm Hc EL) as (Ic & It). fold (zl (a ++ b)) in Ic.
  unfold insert_nostate. cbn [i_page]. destruct (Z.eqb_spec p page_nil); [lia|]. unfold insert_nonempty. cbn [i_page]. rewrite Ic.
  destruct (Z.eqb_spec (zl (a ++ b)) (t_cap t)) as [E|N]; [lia|].
  destruct (iwc_W t m L [] c [] p a b [] (mkI true p (zl a) E_none) x Wm Hc EL) as (m1 & E1 & W1 & S1 & (T1 & R1 & Z1) & SZ1); auto.
  rewrite E1. pose proof (iwc_slots _ _ _ _ _ _ E1) as (LK1 & O1 & _ & P1). cbn [i_page] in O1, P1. rewrite Ic in P1.
  cbn [cbind r_itr i_ok]. 
  assert (Nps' : upd L c ([] ++ (p, a ++ x :: b) :: []) c <> []) by (rewrite upd_same; discriminate).
  destruct (nonempty_ends _ _ _ _ W1 Hc Nps') as (N1 & N2 & N3).
  destruct (Z.eqb_spec (front (sts m1 c)) page_nil); [congruence|]. cbn zeta.
  destruct (Z.eqb_spec (back (sts m1 c)) page_nil); [congruence|]. cbn [r_l0 no_lead ld_page]. rewrite Z.eqb_refl. cbn [negb]. rewrite andb_false_r.
  eexists _, _. split; [reflexivity|]. split; [auto|]. split; [auto|]. split; [auto|]. split; [cbn; rewrite T1; reflexivity|]. split; [reflexivity|]. split; [reflexivity|]. split; [reflexivity|].
  split; [apply W_tot; exact W1|]. split; [|exact P1].
  intro P. eapply (proper_links m); [exact P|exact LK1|exact S1|exact SZ1|]. intros z Hz. eapply used_same; [|exact Hz]. intros d Hd. rewrite upd_eq. destruct (Z.eqb_spec d c); [subst d|auto]. rewrite EL. reflexivity.
Qed.

Lemma ers_one {A} t (m : mem A) L c p a x b : W m L [] -> c <> 0 -> L c = [(p, a ++ x :: b)] -> b <> [] -> zl (a ++ x :: b) <= t_cap t <= 65534 ->
  exists m' r, c_erase t c m (mkI true p (zl a) E_none) = COk (m', r) /\ room m' = room m /\ m_zero m' = m_zero m /\ fsize m' = fsize m /\
    tots m' = upd (tots m) c (wrap_u64 (tots m c - 1)) /\ i_ok (r_itr r) = true /\ ld_op (r_l1 r) = Lnone /\
    W m' (upd L c [(p, a ++ b)]) [] /\ (proper m (used L []) -> proper m' (used (upd L c [(p, a ++ b)]) [])) /\
    (forall k, zl (a ++ b) <= k -> p_arr (pages m' p) k = p_arr (pages m p) k).
Proof.
  intros Wm Hc EL Nb Hcap. pose proof EL as EL0. change ([(p, a ++ x :: b)]) with ([] ++ (p, a ++ x :: b) :: []) in EL.
  destruct (page_bnd _ _ _ _ _ _ _ _ Wm Hc EL) as (Bp & Bp'). pose proof (zl_pos a). pose proof (zl_pos b).
  assert (Hab : a ++ b <> []) by (destruct a; [exact Nb|discriminate]).
  pose proof (zl_app a (x :: b)) as Z1. rewrite zl_cons in Z1. pose proof (zl_app a b) as Z2.
  assert (Hb : 1 <= zl b) by (destruct b; [congruence|rewrite zl_cons; pose proof (zl_pos b); lia]).
  destruct (page_items _ _ _ _ _ _ _ _ Wm Hc EL) as (Ic & It). fold (zl (a ++ x :: b)) in Ic.
  destruct (page_links _ _ _ _ _ _ _ _ Wm Hc EL) as (Epv & Enx). cbn [pgs map last hd] in Epv, Enx.
  destruct (efm_W t m L c [] p a x b [] Wm Hc EL Hab ltac:(lia)) as (m1 & r1 & E1 & W1 & S1 & (T1 & R1 & ZZ1) & SZ1 & C1 & I1).
  unfold c_erase. assert (CD : can_deref (mkI true p (zl a) E_none) = true).
  { unfold can_deref. cbn [i_ok i_page i_item i_edge edge_eqb]. rewrite (zl_ok a (t_cap t)) by lia. destruct (Z.eqb_spec p page_nil); [lia|reflexivity]. }
  rewrite CD. cbn [negb]. unfold erase_nostate. cbn [i_page i_item]. rewrite Ic. destruct (Z.ltb_spec 1 (zl (a ++ x :: b))); [|lia].
  rewrite E1. cbn [cbind].
  assert (EX : (forall z, same_links (pages m) (pages m1) z) /\ (forall k, zl (a ++ b) <= k -> p_arr (pages m1 p) k = p_arr (pages m p) k) /\ ld_op (r_l1 r1) = Lnone /\ i_ok (r_itr r1) = true).
  { unfold erase_from_many in E1. cbn [i_page i_item] in E1. rewrite Ic in E1.
    destruct (Z.ltb_spec (zl a) (zl (a ++ x :: b) - 1)); [|lia].
    destruct (t_cap t <? _); [discriminate|]. cbn [cbind] in E1. set (f := moved _ _ _ _ _) in E1. set (l0 := if zl a =? 0 then _ else _) in E1.
    assert (EM : set_cnt (set_arr m p f) p (wrap_u16 (zl (a ++ x :: b) - 1)) = m1) by congruence.
    assert (ER : mkR (mkI true p (zl a) E_none) l0 (no_lead m) = r1) by congruence. rewrite <- EM, <- ER. clear EM ER E1. cbn [r_l1 r_itr i_ok no_lead ld_op].
    split; [|split; [|auto]].
    - intro z. destruct (links_set_arr m p f z) as (A1 & A2 & A3). destruct (links_set_cnt (set_arr m p f) p (wrap_u16 (zl (a ++ x :: b) - 1)) z) as (B1 & B2 & B3). repeat split; congruence.
    - intros k Hk. rewrite arr_set_cnt, arr_set_arr, Z.eqb_refl. unfold f. apply moved_out. lia. }
  destruct EX as (LK & SL & L1 & O1).
  assert (BM : balance_merge t c m1 (r_itr r1) p = COk (m1, mkR (r_itr r1) (no_lead m1) (no_lead m1))).
  { unfold balance_merge. destruct (LK p) as (K1 & K2 & K3). 
    assert (p_next (pages m1 p) = page_nil) as -> by congruence. rewrite Z.eqb_refl. cbn [cbind]. assert (p_prev (pages m1 p) = page_nil) as -> by congruence. rewrite Z.eqb_refl. reflexivity. }
  rewrite BM. cbn [cbind r_itr r_l1].
  assert (D : forall l0 l1, ld_op l1 = Lnone -> exists m' r, (if i_ok (r_itr (mkR (r_itr r1) l0 l1)) then COk (set_tot m1 c (wrap_u64 (tots m1 c - 1)), mkR (r_itr r1) l0 l1)
      else COk (m1, mkR (c_end c m1) (no_lead m1) (no_lead m1))) = COk (m', r) /\ room m' = room m /\ m_zero m' = m_zero m /\ fsize m' = fsize m /\
    tots m' = upd (tots m) c (wrap_u64 (tots m c - 1)) /\ i_ok (r_itr r) = true /\ ld_op (r_l1 r) = Lnone /\
    W m' (upd L c [(p, a ++ b)]) [] /\ (proper m (used L []) -> proper m' (used (upd L c [(p, a ++ b)]) [])) /\
    (forall k, zl (a ++ b) <= k -> p_arr (pages m' p) k = p_arr (pages m p) k)).
  { intros l0 l1 HL. cbn [r_itr]. rewrite O1. eexists _, _. split; [reflexivity|]. cbn [r_itr r_l1]. split; [auto|]. split; [auto|]. split; [auto|]. split; [cbn; rewrite T1; reflexivity|]. split; [auto|]. split; [auto|].
    split; [apply W_tot; exact W1|]. split; [|exact SL].
    intro P. eapply (proper_links m); [exact P|exact LK|exact S1|exact SZ1|]. intros z Hz. eapply used_same; [|exact Hz]. intros d Hd. rewrite upd_eq. destruct (Z.eqb_spec d c); [subst d|auto]. rewrite EL. reflexivity. }
  destruct (should_balance_erase t m p (zl a) && (2 * p_cnt (pages m1 p) <=? t_cap t)); cbn [cbind].
  - apply D. reflexivity.
  - destruct r1 as [ri l0 l1]. apply D. exact L1.
Qed.

(** * Maps on one page *)
Section Page.
Context {V : Type}.
Variable s : msizes.
Variable junk : mem (mitem V) -> Z -> Z -> Z.
Notation item := (mitem V).
Notation capV := (t_cap (t_vals s)).
Notation capK := (t_cap (t_keys s)).
Hypothesis Hv : 2 <= capV <= 4069.
Hypothesis Hk : 2 <= capK <= 4069.
Notation ts := (ts s).

Record One (m : mem item) (L : layout item) (l : list (Z * V)) : Prop := mkOne {
  o_inv : Inv ts m L;
  o_free : proper m (used L []);
  o_zero : m_zero m = IBlank;
  o_room : room m <= 65535;
  o_keys : L c_keys = [];
  o_path : L c_path = [];
  o_vals : (l = [] /\ L c_vals = [] /\ forall z x k v, p_arr (pages m z) x <> IVal k v) \/
           (l <> [] /\ exists p, L c_vals = [(p, entries l)] /\ forall x k v, zl (entries l) <= x < capV -> p_arr (pages m p) x = IVal k v -> exists k', In k' (map fst l) /\ k <= k');
  o_srt : srt (map fst l);
  o_pos : forall k, In k (map fst l) -> 0 <= k }.

Lemma one_W m L l : One m L l -> W m L []. Proof. intros [I _ _ _ _ _ _ _ _]. apply (n_W _ _ _ I). Qed.

Lemma drop_one {B} m L l (b : B) : One m L l -> exists m', drop_path m b = COk (m', b) /\ One (calm m') (upd L c_path []) l /\ room m' = room m /\ fsize m' = fsize m /\ sts m' c_vals = sts m c_vals.
Proof.
  intro M. pose proof M as [I P Z0 R K Pa Va Sr Po]. assert (H3 : c_path <> 0) by discriminate.
  destruct (clear_W m L c_path (n_W _ _ _ I) H3 P) as (m' & E & (T1 & R1 & Z1) & SZ & ST & PA & W1 & P1). exists m'. unfold drop_path. rewrite E. cbn [cbind]. split; [reflexivity|].
  split; [|split; [auto|split; [auto|apply ST; discriminate]]].
  constructor; auto.
  - constructor; [apply W_tot; exact W1|intros d Hd; rewrite upd_eq; destruct (d =? c_path); [constructor|apply (n_good _ _ _ I); auto]|apply (n_cap _ _ _ I)| |].
    + intros d Hd. change (tots (calm m')) with (upd (tots m') c_path 0). rewrite !upd_eq. destruct (d =? c_path); [reflexivity|]. rewrite T1. apply (n_tot _ _ _ I); auto.
    + change (room (calm m')) with (room m'). rewrite R1. apply (n_room _ _ _ I).
  - change (m_zero m' = IBlank). rewrite Z1. exact Z0.
  - change (room m' <= 65535). lia.
  - change (pages (calm m')) with (pages m'). rewrite upd_other by discriminate.
    destruct Va as [(El & EL & Va)|(Nl & p & EL & Va)]; [left|right]; (split; [auto|]); [split; [auto|]; intros z x k v; rewrite PA; apply Va|exists p; split; [auto|]; intros x k v Hx; rewrite PA; apply Va; auto].
Qed.

(** where a lookup ends *)
Definition hit (l : list (Z * V)) (k : Z) (f : fres) (p : Z) : Prop := exists l1 l2, l = l1 ++ l2 /\ f_itr f = mkI true p (zl l1) E_none /\ (forall x, In x (map fst l1) -> x < k) /\
  ((f_ok f = true /\ exists w l', l2 = (k, w) :: l') \/ (f_ok f = false /\ forall y, In y (map fst l2) -> k < y)).
Lemma zl_entries (l : list (Z * V)) : zl (entries l) = zl l. Proof. unfold zl, entries. rewrite map_length. reflexivity. Qed.
Lemma find_one m L l k : One (calm m) L l -> (forall m q x, junk m q x <> k) ->
  exists f, find2 s junk m k = COk (calm m, f) /\ ((l = [] /\ f = mkF no_itr false) \/ (l <> [] /\ exists p, L c_vals = [(p, entries l)] /\ hit l k f p)).
Proof.
  intros M HJ. unfold find2. fold (calm m). set (m0 := calm m) in *. clearbody m0.
  pose proof M as [I P Z0 R K Pa Va Sr Po]. pose proof (n_W _ _ _ I) as Wm.
  assert (H2 : c_keys <> 0) by discriminate. assert (Hc : c_vals <> 0) by discriminate. 
  rewrite (empty_ok m0 L [] c_keys (t_cap (ts c_keys)) Wm H2 (n_good _ _ _ I _ H2)), K. cbn [flat map concat negb cbind].
  rewrite (W_states _ _ _ c_vals Wm Hc). cbn [front].
  destruct Va as [(El & EL & Va)|(Nl & p & EL & Va)]; rewrite EL; cbn [pgs map hd fst].
  - rewrite Z.eqb_refl. eexists. split; [reflexivity|]. left. auto.
  - pose proof EL as EL1. change ([(p, entries l)]) with ([] ++ (p, entries l) :: []) in EL1.
    destruct (page_bnd _ _ _ _ _ _ _ _ Wm Hc EL1) as (Bp & Bp'). destruct (Z.eqb_spec p page_nil); [lia|].
    pose proof (page_items _ _ _ _ _ _ _ _ Wm Hc EL1) as H. pose proof H as (Hn & _). fold (zl (entries l)) in Hn.
    pose proof (n_good _ _ _ I _ Hc) as G. rewrite EL in G. apply good_cons in G. destruct G as (_ & Hi & _). change (ts c_vals) with (t_vals s) in Hi.
    assert (Sz : fsize m0 <= room m0) by apply (w_sz _ _ _ Wm).
    destruct (Z.eqb_spec p item_nil) as [E|_]; [unfold item_nil in E; lia|].
    eexists. split; [reflexivity|]. right. split; [auto|]. exists p. split; [auto|].
    destruct (scan_spec (Z.to_nat (p_cnt (pages m0 p))) 0 (fun i => val_key s junk m0 p i <? k)) as (j & H1 & E2 & H3 & H4). rewrite E2. rewrite Hn in H1, H4. rewrite zl_entries in *.
    pose proof (zl_pos l).
    assert (VS : forall l1 kk vv l2, l = l1 ++ (kk, vv) :: l2 -> val_key s junk m0 p (zl l1) = kk).
    { intros l1 kk vv l2 ->. unfold entries in H. rewrite map_app in H. cbn [map fst snd] in H. change (map _ l1) with (entries l1) in H. rewrite <- (zl_entries l1).
      rewrite zl_app, zl_cons in Hi. pose proof (zl_pos l2). unfold val_key. rewrite zl_entries. destruct (Z.leb_spec capV (zl l1)); [lia|]. rewrite <- zl_entries, (slot _ _ _ _ H). reflexivity. }
    assert (KA : forall l1 l2, l = l1 ++ l2 -> zl l1 <= j -> forall x, In x (map fst l1) -> x < k).
    { intros l1 l2 El Hl x Hx. apply in_map_iff in Hx. destruct Hx as ([kk vv] & <- & Hy). apply in_split in Hy. destruct Hy as (a1 & a2 & ->).
      rewrite <- app_assoc in El. cbn [app] in El. rewrite zl_app, zl_cons in Hl. pose proof (zl_pos a1). pose proof (zl_pos a2).
      specialize (H3 (zl a1) ltac:(lia)). cbn beta in H3. rewrite (VS _ _ _ _ El) in H3. cbn [fst]. lia. }
    destruct (Z.eq_dec j (zl l)) as [Ej|Nj].
    + exists l, []. rewrite app_nil_r. split; [auto|]. cbn [f_itr f_ok]. split; [rewrite Ej; reflexivity|].
      assert (KL : forall x, In x (map fst l) -> x < k) by (apply (KA l []); [rewrite app_nil_r; auto|lia]).
      split; [exact KL|]. right. split; [|intros y []]. rewrite Ej. unfold val_key. destruct (Z.leb_spec capV (zl l)); [apply Z.eqb_neq; apply HJ|].
      destruct (p_arr (pages m0 p) (zl l)) as [k0 v0|k0 p0|s0 n0|p0|] eqn:ES; try (apply Z.eqb_neq; apply HJ).
      * destruct (Va (zl l) k0 v0 ltac:(rewrite ?zl_entries; lia) ES) as (k' & Hin & Hle). specialize (KL k' Hin). apply Z.eqb_neq. lia.
      * destruct l as [|[kk vv] l]; [congruence|]. specialize (KL kk ltac:(left; reflexivity)). specialize (Po kk ltac:(left; reflexivity)). apply Z.eqb_neq. lia.
    + destruct (cut l j ltac:(lia)) as (l1 & [kk vv] & l2 & El & Ez). exists l1, ((kk, vv) :: l2). split; [auto|]. cbn [f_itr f_ok]. split; [rewrite Ez; reflexivity|].
      split; [apply (KA l1 _ El); lia|]. specialize (H4 ltac:(lia)). cbn beta in H4. rewrite <- Ez in *. rewrite (VS _ _ _ _ El) in *.
      destruct (Z.eqb_spec kk k) as [->|Nk]; [left; eauto|right]. split; [auto|]. intros y Hy. rewrite El, map_app in Sr. apply srt_app in Sr. destruct Sr as (_ & Sr & _). cbn [map fst] in Sr, Hy. apply srt_cons in Sr.
      destruct Hy as [<-|Hy]; [lia|]. destruct Sr as (_ & Sr). specialize (Sr y Hy). lia.
Qed.

Definition Stay (m : mem item) (l : list (Z * V)) : Prop := exists L, One (calm m) L l.

Lemma find_stay m l k : Stay m l -> (forall m q x, junk m q x <> k) ->
  exists m', mcall s junk m (MFind k) = Some (m', Found (get k l)) /\ Stay m' l /\ room m' = room m /\ fsize m' = fsize m.
Proof.
  intros (L & M) HJ. destruct (find_one m L l k M HJ) as (f & E1 & K). cbn [mcall]. unfold m_find. rewrite E1. cbn [cbind].
  destruct (drop_one (calm m) L l (if f_ok f then f_itr f else c_end c_vals (calm m)) M) as (m2 & E2 & M2 & R2 & SZ2 & ST2). rewrite E2. exists m2.
  split; [|split; [exists (upd L c_path []); exact M2|split; [exact R2|exact SZ2]]]. f_equal. f_equal.
  assert (EE : c_end c_vals m2 = c_end c_vals (calm m)) by (unfold c_end; rewrite ST2; reflexivity).
  assert (NO : citr_eqb (c_end c_vals (calm m)) (c_end c_vals (calm m)) = true) by apply eqb_end.
  destruct K as [(-> & ->)|(Nl & p & EL & l1 & l2 & El & EI & HA & HB)].
  - cbn [f_ok]. rewrite EE, NO. reflexivity.
  - destruct HB as [(Hf & w & l' & ->)|(Hf & HB)]; rewrite Hf.
    + rewrite EI, El, get_here by auto.
      assert (EL2 : upd L c_path [] c_vals = [] ++ (p, entries l1 ++ IVal k w :: entries l') :: []) by (rewrite upd_other by discriminate; rewrite EL, El; unfold entries; rewrite map_app; reflexivity).
      pose proof (ts_cap s Hv Hk c_vals). assert (H1 : c_vals <> 0) by discriminate.
      destruct (loc_facts (calm m2) _ [] c_vals (t_cap (ts c_vals)) (one_W _ _ _ M2) H1 (n_good _ _ _ (o_inv _ _ _ M2) _ H1) ltac:(lia) [] p (entries l1) (IVal k w) (entries l') [] EL2) as (_ & D & F1 & _).
      change (c_end c_vals (calm m2)) with (c_end c_vals m2) in F1. change (c_deref (calm m2)) with (@c_deref item m2) in D. rewrite zl_entries in F1, D. rewrite F1, D. reflexivity.
    + rewrite EE, NO. f_equal. symmetry. apply get_none. rewrite El, map_app. intro X. apply in_app_or in X. destruct X as [X|X]; [apply HA in X|apply HB in X]; lia.
Qed.

Lemma one_upd m m' L l l' p n : One m L l -> W m' (upd L c_vals [(p, entries l')]) [] -> proper m' (used (upd L c_vals [(p, entries l')]) []) -> l' <> [] -> zl l' <= capV ->
  room m' = room m -> m_zero m' = m_zero m -> tots m' = upd (tots m) c_vals (wrap_u64 n) -> n = zl l' -> srt (map fst l') -> (forall k, In k (map fst l') -> 0 <= k) ->
  (forall x k v, zl l' <= x < capV -> p_arr (pages m' p) x = IVal k v -> exists k', In k' (map fst l') /\ k <= k') -> One m' (upd L c_vals [(p, entries l')]) l'.
Proof.
  intros M W' P' Nl Hl R' Z' T' En S' Po' Va'. pose proof M as [I P Z0 R K Pa Va Sr Po].
  assert (G : good (t_cap (ts c_vals)) [(p, entries l')]).
  { apply good_cons. split; [destruct l'; [congruence|discriminate]|]. split; [rewrite zl_entries; exact Hl|constructor]. }
  constructor; auto; try (rewrite upd_other by discriminate; auto); try congruence.
  - eapply Inv_upd; eauto; [discriminate|]. cbn [flat map concat snd]. rewrite app_nil_r, zl_entries. exact En.
  - right. split; [auto|]. exists p. split; [apply upd_same|]. intros x k v. rewrite zl_entries. apply Va'.
Qed.

Lemma insert_stay m l k x : Stay m l -> fsize m < room m -> (forall m q x, junk m q x <> k) -> 0 <= k -> zl (put k x l) <= capV ->
  exists m', mcall s junk m (MInsert k x) = Some (m', Inserted (if get k l then false else true)) /\ Stay m' (put k x l) /\ room m' = room m /\ fsize m <= fsize m' /\ (l <> [] -> fsize m' = fsize m) /\ fsize m' <= fsize m + 1.
Proof.
  intros (L & M) SZ HJ K0 HC. destruct (find_one m L l k M HJ) as (f & E1 & K). cbn [mcall]. unfold m_insert. rewrite E1. cbn [cbind].
  change (fsize m) with (fsize (calm m)) in *. change (room m) with (room (calm m)) in *. set (m0 := calm m) in *. clearbody m0.
  pose proof M as [I P Z0 R KK Pa Va Sr Po]. pose proof (n_W _ _ _ I) as Wm. assert (Hc : c_vals <> 0) by discriminate. pose proof (ts_cap s Hv Hk c_vals) as Cc.
  assert (DONE : forall m2 L2 (i : citr), One m2 L2 (put k x l) -> room m2 = room m0 -> fsize m0 <= fsize m2 -> (l <> [] -> fsize m2 = fsize m0) -> fsize m2 <= fsize m0 + 1 -> get k l = None ->
    exists m', match drop_path m2 (i, true) with COk (m, (_, ok)) => Some (m, @Inserted V ok) | _ => None end = Some (m', Inserted (if get k l then false else true)) /\ Stay m' (put k x l) /\ room m' = room m0 /\ fsize m0 <= fsize m' /\ (l <> [] -> fsize m' = fsize m0) /\ fsize m' <= fsize m0 + 1).
  { intros m2 L2 i M2 R2 S1 S2 S3 Hg. destruct (drop_one m2 L2 _ (i, true) M2) as (m3 & E3 & M3 & R3 & SZ3 & _). exists m3. rewrite E3, Hg. split; [reflexivity|].
    split; [exists (upd L2 c_path []); exact M3|]. split; [congruence|]. rewrite SZ3. auto. }
  destruct K as [(-> & ->)|(Nl & p & EL & l1 & l2 & El & EI & HA & HB)].
  - cbn [f_ok f_itr no_itr i_page i_item i_edge]. destruct Va as [(_ & EL & Va)|(Nl & _)]; [|congruence].
    assert (EIn : c_insert (t_vals s) c_vals m0 (mkI true page_nil item_nil E_end) (IVal k x) = c_push_back (ts c_vals) c_vals m0 (IVal k x)).
    { unfold c_push_back, c_end. rewrite (W_states _ _ _ _ Wm Hc), EL. reflexivity. }
    rewrite EIn.
    destruct (push_W (ts c_vals) m0 L c_vals (IVal k x) Wm Hc (n_good _ _ _ I _ Hc) ltac:(lia) SZ) as (m' & r & ps & E & R' & Z' & SZ' & T & W' & G' & P' & TT & Ho & SH).
    { right. rewrite EL. change (0 < t_cap (ts c_vals)). lia. }
    destruct SH as [(q & Eps & Uq & _ & Ld & SL)|(u & p & i & EE & _)]; [|rewrite EL in EE; destruct u; discriminate].
    rewrite EL in Eps. cbn [app] in Eps. change [(q, [IVal k x])] with [(q, entries [(k, x)])] in Eps. rewrite E, Ho. destruct (Ld EL) as (G0 & G1). rewrite (update_none s junk m' r G0 G1). cbn [cbind].
    rewrite Eps in *. apply (DONE m' (upd L c_vals [(q, entries [(k, x)])])); [|congruence|lia|congruence|lia|reflexivity].
    apply (one_upd m0 m' L [] [(k, x)] q (tots m0 c_vals + 1)); auto; try discriminate.
    + rewrite (n_tot _ _ _ I), EL by auto. reflexivity.
    + repeat constructor.
    + intros kk [<-|[]]. exact K0.
    + change (zl [(k, x)]) with 1. intros y kk vv Hy ES. exfalso. destruct (SL q y ltac:(right; lia)) as [F|F]; [rewrite ES in F; symmetry in F; apply (Va _ _ _ _ F)|congruence].
  - destruct HB as [(Hf & w & l' & ->)|(Hf & HB)]; rewrite Hf.
    + destruct (drop_one m0 L l (f_itr f, false) M) as (m2 & E2 & M2 & R2 & SZ2 & _). exists m2. rewrite E2. rewrite El, get_here, put_same by auto. rewrite <- El. split; [reflexivity|].
      split; [exists (upd L c_path []); exact M2|split; [congruence|split; [lia|split; [auto|lia]]]].
    + assert (NK : ~ In k (map fst l)). { rewrite El, map_app. intro X. apply in_app_or in X. destruct X as [X|X]; [apply HA in X|apply HB in X]; lia. }
      assert (EPUT : put k x l = l1 ++ (k, x) :: l2) by (rewrite El; apply put_split; auto).
      assert (EN : entries (put k x l) = entries l1 ++ IVal k x :: entries l2) by (rewrite EPUT; unfold entries; rewrite map_app; reflexivity).
      destruct Va as [(Nl' & _)|(_ & p' & EL' & Va)]; [congruence|]. rewrite EL in EL'. injection EL' as <-.
      assert (ELa : L c_vals = [(p, entries l1 ++ entries l2)]) by (rewrite EL, El; unfold entries; rewrite map_app; reflexivity).
      assert (ZP : zl (put k x l) = zl l + 1) by (rewrite EPUT, El, !zl_app, zl_cons; lia).
      assert (ZE : zl (entries l1 ++ entries l2) = zl l) by (rewrite zl_app, !zl_entries, El, zl_app; reflexivity).
      rewrite EI. cbn [i_page i_item i_edge]. rewrite <- (zl_entries l1).
      destruct (ins_one (t_vals s) m0 L c_vals p (entries l1) (entries l2) (IVal k x) Wm Hc ELa (n_good _ _ _ I _ Hc)) as (m' & r & E & R' & Z' & SZ' & T & Ho & G0 & G1 & W' & P' & SL).
      { rewrite ZE. change (zl l < capV <= 65534). lia. }
      rewrite E, Ho. rewrite update_none by (rewrite ?G0, ?G1; reflexivity). cbn [cbind]. rewrite <- EN in W', P'.
      apply (DONE m' (upd L c_vals [(p, entries (put k x l))])); [|congruence|lia|lia|lia|apply get_none; auto].
      apply (one_upd m0 m' L l (put k x l) p (tots m0 c_vals + 1)); auto.
      * rewrite EPUT. destruct l1; discriminate.
      * rewrite (n_tot _ _ _ I), EL by auto. cbn [flat map concat snd]. rewrite app_nil_r, zl_entries. lia.
      * apply put_srt. exact Sr.
      * intros kk Hkk. apply put_keys in Hkk. destruct Hkk as [->|Hkk]; auto.
      * intros y kk vv Hy ES. rewrite SL in ES by (rewrite ZE; lia). destruct (Va y kk vv) as (k' & H1 & H2); auto; [rewrite zl_entries; lia|]. exists k'. split; [apply put_in; auto|auto].
Qed.

Lemma without_split k w (l1 l2 : list (Z * V)) : srt (map fst (l1 ++ (k, w) :: l2)) -> without k (l1 ++ (k, w) :: l2) = l1 ++ l2.
Proof.
  intro S. rewrite map_app in S. cbn [map fst] in S. apply srt_app in S. destruct S as (S1 & S2 & S3). apply srt_cons in S2. destruct S2 as (S2 & S4).
  unfold without. rewrite filter_app. cbn [filter fst]. rewrite Z.eqb_refl. cbn [negb].
  assert (ID : forall l : list (Z * V), ~ In k (map fst l) -> filter (fun e => negb (fst e =? k)) l = l).
  { induction l as [|[j z] l IH]; intro N; cbn [filter fst]; [reflexivity|]. destruct (Z.eqb_spec j k) as [->|]; [exfalso; apply N; left; auto|]. cbn [negb]. f_equal. apply IH. intro X. apply N. right; auto. }
  rewrite !ID; [reflexivity| |].
  - intro X. specialize (S4 k X). lia.
  - intro X. specialize (S3 k k X ltac:(left; auto)). lia.
Qed.
Lemma without_none k (l : list (Z * V)) : ~ In k (map fst l) -> without k l = l.
Proof.
  induction l as [|[j z] l IH]; intro N; unfold without in *; cbn [filter fst]; [reflexivity|]. destruct (Z.eqb_spec j k) as [->|]; [exfalso; apply N; left; auto|]. cbn [negb]. f_equal. apply IH. intro X. apply N. right; auto.
Qed.

Lemma erase_stay m l k : Stay m l -> (forall m q x, junk m q x <> k) -> (In k (map fst l) -> exists k', In k' (map fst l) /\ k < k') ->
  exists m', mcall s junk m (MErase k) = Some (m', Erased (if get k l then 1 else 0)) /\ Stay m' (without k l) /\ room m' = room m /\ fsize m' = fsize m /\ (l <> [] -> without k l <> []).
Proof.
  intros (L & M) HJ HG. destruct (find_one m L l k M HJ) as (f & E1 & K). cbn [mcall]. unfold m_erase. rewrite E1. cbn [cbind].
  change (fsize m) with (fsize (calm m)) in *. change (room m) with (room (calm m)) in *. set (m0 := calm m) in *. clearbody m0.
  pose proof M as [I P Z0 R KK Pa Va Sr Po]. pose proof (n_W _ _ _ I) as Wm. assert (Hc : c_vals <> 0) by discriminate.
  assert (NONE : ~ In k (map fst l) -> exists m', match drop_path m0 0 with COk (m, n) => Some (m, @Erased V n) | _ => None end = Some (m', Erased (if get k l then 1 else 0)) /\ Stay m' (without k l) /\ room m' = room m0 /\ fsize m' = fsize m0 /\ (l <> [] -> without k l <> [])).
  { intro NK. destruct (drop_one m0 L l 0 M) as (m2 & E2 & M2 & R2 & SZ2 & _). exists m2. rewrite E2, (get_none k l), (without_none k l) by auto. split; [reflexivity|]. split; [exists (upd L c_path []); exact M2|auto]. }
  destruct K as [(-> & ->)|(Nl & p & EL & l1 & l2 & El & EI & HA & HB)].
  - cbn [f_ok]. apply NONE. intros [].
  - destruct HB as [(Hf & w & l' & ->)|(Hf & HB)]; rewrite Hf.
    + assert (EW : without k l = l1 ++ l') by (rewrite El; apply without_split with (w := w); rewrite <- El; exact Sr).
      destruct HG as (kg & Hg1 & Hg2). { rewrite El, map_app. apply in_or_app; right; left; reflexivity. }
      assert (Nl' : In kg (map fst l')).
      { rewrite El, map_app in Hg1. apply in_app_or in Hg1. destruct Hg1 as [X|[X|X]]; [apply HA in X; lia|cbn in X; lia|exact X]. }
      assert (ELa : L c_vals = [(p, entries l1 ++ IVal k w :: entries l')]) by (rewrite EL, El; unfold entries; rewrite map_app; reflexivity).
      destruct Va as [(X & _)|(_ & p' & EL' & Va)]; [congruence|]. rewrite EL in EL'. injection EL' as <-.
      assert (EN : entries (without k l) = entries l1 ++ entries l') by (rewrite EW; unfold entries; rewrite map_app; reflexivity).
      pose proof (n_good _ _ _ I _ Hc) as G. rewrite EL in G. apply good_cons in G. destruct G as (_ & Hi & _). change (ts c_vals) with (t_vals s) in Hi. rewrite zl_entries in Hi.
      assert (ZW : zl (without k l) = zl l - 1) by (rewrite EW, El, !zl_app, zl_cons; lia).
      rewrite EI. cbn [i_page i_item i_edge]. rewrite <- (zl_entries l1).
      destruct (ers_one (t_vals s) m0 L c_vals p (entries l1) (IVal k w) (entries l') Wm Hc ELa) as (m' & r & E & R' & Z' & SZ' & T & Ho & G1 & W' & P' & SL).
      { destruct l'; [destruct Nl'|discriminate]. }
      { rewrite zl_app, zl_cons, !zl_entries. rewrite El, zl_app, zl_cons in Hi. lia. }
      rewrite E, Ho. rewrite <- EN in W', P', SL.
      assert (O' : One m' (upd L c_vals [(p, entries (without k l))]) (without k l)).
      { apply (one_upd m0 m' L l (without k l) p (tots m0 c_vals - 1)); auto.
        - rewrite EW. destruct l1; [|discriminate]. destruct l'; [destruct Nl'|discriminate].
        - lia.
        - rewrite (n_tot _ _ _ I), EL by auto. cbn [flat map concat snd]. rewrite app_nil_r, zl_entries. lia.
        - rewrite EW. rewrite El, map_app in Sr. cbn [map fst] in Sr. apply srt_app in Sr. destruct Sr as (S1 & S2 & S3). apply srt_cons in S2. rewrite map_app. apply srt_app. split; [auto|]. split; [apply S2|]. intros a b Ha Hb. apply S3; [auto|right; auto].
        - rewrite EW. intros kk Hkk. apply Po. rewrite El, map_app in *. apply in_app_or in Hkk. apply in_or_app. destruct Hkk; [left; auto|right; right; auto].
        - intros y kk vv Hy ES. rewrite SL in ES by (rewrite zl_entries; lia).
          assert (KG : exists k', In k' (map fst l') /\ kk <= k').
          { destruct (Z.eq_dec y (zl l - 1)) as [Ey|Ny].
            - (* the slot of the last item, which is still there *)
              assert (HH : holds (pages m0 p) (entries l)) by (apply (page_items m0 L [] c_vals [] p (entries l) [] Wm Hc); exact EL).
              assert (NN : l' <> []) by (destruct l'; [destruct Nl'|discriminate]). destruct (exists_last NN) as (l'' & [kl vl] & ->).
              assert (EE : entries l = (entries l1 ++ IVal k w :: entries l'') ++ IVal kl vl :: []). { rewrite El. unfold entries. rewrite map_app. cbn [map fst snd]. rewrite map_app, <- app_assoc. reflexivity. }
              rewrite EE in HH. apply slot in HH. rewrite zl_app, zl_cons, !zl_entries in HH. rewrite El, zl_app, zl_cons, zl_app in Ey. change (zl [(kl, vl)]) with 1 in Ey. replace (zl l1 + (1 + zl l'')) with y in HH by lia.
              rewrite HH in ES. injection ES as -> _. exists kk. split; [rewrite map_app; apply in_or_app; right; left; reflexivity|lia].
            - destruct (Va y kk vv) as (k' & H1 & H2); auto; [rewrite zl_entries; lia|]. rewrite El, map_app in H1. apply in_app_or in H1. destruct H1 as [X|[X|X]]; [apply HA in X; exists kg; split; [auto|lia]|cbn in X; exists kg; split; [auto|lia]|exists k'; auto]. }
          destruct KG as (k' & H1 & H2). exists k'. split; [rewrite EW, map_app; apply in_or_app; right; exact H1|exact H2]. }
      assert (UP : exists bb, update_key_levels s junk m' false r = COk (m', bb)).
      { unfold update_key_levels. cbn zeta. unfold c_size.
        rewrite !(n_tot _ _ _ (o_inv _ _ _ O')) by discriminate. rewrite (o_keys _ _ _ O'), (o_path _ _ _ O'). cbn [flat map concat]. change (zl (@nil item)) with 0. cbn [Z.eqb negb].
        destruct (is_none _ && is_none _); [eauto|]. cbn [Z.to_nat climb cbind]. unfold drop_level.
        assert (H2 : c_keys <> 0) by discriminate. rewrite (empty_ok m' _ [] c_keys (t_cap (ts c_keys)) (one_W _ _ _ O') H2 (n_good _ _ _ (o_inv _ _ _ O') _ H2)), (o_keys _ _ _ O'). cbn [flat map concat cbind]. eauto. }
      destruct UP as (bb & UP). rewrite UP. cbn [cbind].
      destruct (drop_one m' _ _ 1 O') as (m2 & E2 & M2 & R2 & SZ2 & _). exists m2. rewrite E2. rewrite El at 1. rewrite get_here by auto. split; [reflexivity|].
      split; [exists (upd (upd L c_vals [(p, entries (without k l))]) c_path []); exact M2|]. split; [congruence|]. split; [congruence|]. intros _. rewrite EW. destruct l1; [|discriminate]. destruct l'; [destruct Nl'|discriminate].
    + apply NONE. rewrite El, map_app. intro X. apply in_app_or in X. destruct X as [X|X]; [apply HA in X|apply HB in X]; lia.
Qed.

Lemma stay_shows m l : Stay m l -> map_shows m l.
Proof.
  intros (L & M). pose proof (Inv_shows _ _ _ c_vals (o_inv _ _ _ M) ltac:(discriminate)) as S.
  assert (EF : flat (L c_vals) = entries l) by (destruct (o_vals _ _ _ M) as [(-> & -> & _)|(_ & p & -> & _)]; [reflexivity|cbn [flat map concat snd]; apply app_nil_r]). rewrite EF in S.
  destruct S as (S1 & S2 & S3 & S4 & S5 & S6). split; [exact S1|]. split; [exact S2|]. split; [exact S3|]. split; [exact S4|]. split; [apply visits_calm; exact S5|apply visits_back_calm; exact S6].
Qed.
Lemma stay_start rm : 2 <= rm <= 65535 -> Stay (map_mem V rm) [].
Proof.
  intro Hr. destruct (@rest_start V s Hv Hk rm Hr) as (L & M & EP). exists L. pose proof M as [[[I P Z0 St] R S N] Fv Sr Po To Ix].
  assert (EV : L c_vals = []). { assert (Hc : c_vals <> 0) by discriminate. pose proof (n_good _ _ _ I _ Hc) as G. destruct (L c_vals) as [|[p i] v]; [reflexivity|]. apply good_cons in G. rewrite flat_cons in Fv. destruct i; [tauto|discriminate]. }
  assert (EK : L c_keys = []). { assert (Hc : c_keys <> 0) by discriminate. pose proof (n_good _ _ _ I _ Hc) as G. destruct (L c_keys) as [|[p i] v]; [reflexivity|]. apply good_cons in G. rewrite flat_cons in S. destruct i; [tauto|discriminate]. }
  constructor; auto. left. split; [auto|]. split; [auto|]. intros z x k v E. discriminate.
Qed.
Lemma page_history h : forall m l, Stay m l -> (if l then fsize m + 2 <= room m else fsize m < room m) -> (forall k, In k (inserted h) -> 0 <= k) -> (forall k, In k (called h) -> forall m q x, junk m q x <> k) -> small_map capV l h ->
  exists m', mcalls s junk m h = Some (m', snd (ideal_map l h)) /\ Stay m' (fst (ideal_map l h)).
Proof.
  induction h as [|o h IH]; intros m l HR SZ HP HJ HS; [exists m; split; [reflexivity|auto]|]. cbn [small_map] in HS. destruct HS as (HG & HN & HS). fold (@zl (Z * V)) in HN.
  assert (HJ' : forall k, In k (called h) -> forall m q x, junk m q x <> k) by (intros k Hk'; apply HJ; right; auto).
  assert (J0 : forall m q x, junk m q x <> match o with MInsert k _ => k | MFind k => k | MErase k => k end) by (apply HJ; left; auto).
  assert (ST : exists m', mcall s junk m o = Some (m', snd (ideal_op l o)) /\ Stay m' (fst (ideal_op l o)) /\ (if fst (ideal_op l o) then fsize m' + 2 <= room m' else fsize m' < room m')).
  { destruct o as [k v|k|k]; cbn [ideal_op fst snd] in *.
    - destruct (insert_stay m l k v HR) as (m1 & E1 & R1 & Rm1 & F1 & F2 & F3); auto; [destruct l; lia|apply HP; left; auto|]. exists m1. split; [exact E1|]. split; [exact R1|].
      assert (NN : put k v l <> []) by (intro E; pose proof (put_key k v l) as X; rewrite E in X; destruct X). destruct (put k v l); [congruence|]. destruct l; [lia|]. rewrite F2 by discriminate. lia.
    - destruct (find_stay m l k HR J0) as (m1 & E1 & R1 & Rm1 & F1). exists m1. split; [exact E1|]. split; [exact R1|]. rewrite Rm1, F1. exact SZ.
    - destruct (erase_stay m l k HR J0 (HG k eq_refl)) as (m1 & E1 & R1 & Rm1 & F1 & F2). exists m1. split; [exact E1|]. split; [exact R1|]. rewrite Rm1, F1.
      destruct l as [|e l]; [cbn [without filter]; exact SZ|]. specialize (F2 ltac:(discriminate)). destruct (without k (e :: l)); [congruence|exact SZ]. }
  destruct ST as (m1 & E1 & R1 & SZ1). cbn [mcalls ideal_map]. rewrite E1. destruct (ideal_op l o) as [l1 out]. cbn [fst snd] in *.
  destruct (IH m1 l1 R1 SZ1) as (m2 & E2 & R2); auto.
  { intros k Hk'. apply HP. unfold inserted. cbn [flat_map]. apply in_or_app. right. exact Hk'. }
  rewrite E2. destruct (ideal_map l1 h) as [l2 outs]. cbn [fst snd] in *. exists m2. auto.
Qed.
End Page.
