(** Proofs about maps: the key levels index the pages of the level below. *)

From Coq Require Import ZArith List Bool Lia Sorting.Sorted.
From Verif Require Import Base Cache_Model Linked_Model Linked_Proofs Cont_Model Cont_Spec Cont_Proofs Cont_Steps Cont_Erase Cont_Runs Cont_Inner Map_Model Map_Spec.
Import ListNotations.
Open Scope Z_scope.
Local Opaque page_nil.

(** * Sorted lists of keys *)
Definition srt (l : list Z) : Prop := StronglySorted Z.lt l.
Lemma srt_app a b : srt (a ++ b) <-> srt a /\ srt b /\ (forall x y, In x a -> In y b -> x < y).
Proof.
  induction a as [|z a IH]; cbn.
  - split; [intro; split; [constructor|split; auto; intros ? ? []]|tauto].
  - split.
    + intro H. inversion H as [|? ? H1 H2]; subst. apply IH in H1. destruct H1 as (A1 & A2 & A3). rewrite Forall_app in H2. destruct H2 as (B1 & B2).
      split; [constructor; auto|]. split; auto. intros x y [<-|Hx] Hy; auto. rewrite Forall_forall in B2. auto.
    + intros (A1 & A2 & A3). inversion A1 as [|? ? H1 H2]; subst. constructor; [apply IH; auto|]. apply Forall_app. split; auto. apply Forall_forall. auto.
Qed.
Lemma srt_cons x b : srt (x :: b) <-> srt b /\ (forall y, In y b -> x < y).
Proof. rewrite (srt_app [x] b). split; [intros (_ & H & K); split; auto; intros; apply K; cbn; auto|intros (H & K); repeat split; auto; [repeat constructor|intros ? ? [<-|[]]; auto]]. Qed.

(** * The index of a list of pages *)
Section Index.
Context {V : Type}.
Notation item := (mitem V).
Definition first_key (i : list item) : Z := item_key (hd IBlank i).
Definition index (ps : list (Z * list item)) : list item := map (fun e => IKey (first_key (snd e)) (fst e)) ps.
Definition keys (l : list item) : list Z := map item_key l.
Lemma keys_app a b : keys (a ++ b) = keys a ++ keys b. Proof. apply map_app. Qed.
Lemma index_app a b : index (a ++ b) = index a ++ index b. Proof. apply map_app. Qed.
Lemma first_in i : i <> [] -> In (first_key i) (keys i).
Proof. destruct i; [congruence|]. intros _. left. reflexivity. Qed.
Lemma first_app a b : a <> [] -> first_key (a ++ b) = first_key a. Proof. destruct a; [congruence|reflexivity]. Qed.
Lemma index_key_in ps x : In x (keys (index ps)) -> exists p i, In (p, i) ps /\ x = first_key i.
Proof. unfold keys, index. rewrite map_map. intro H. apply in_map_iff in H. destruct H as ([p i] & <- & H). exists p, i. auto. Qed.
Lemma index_sub cap ps x : good cap ps -> In x (keys (index ps)) -> In x (keys (flat ps)).
Proof.
  intros G H. apply index_key_in in H. destruct H as (p & i & H & ->). unfold good in G. rewrite Forall_forall in G. destruct (G _ H) as (Hn & _). cbn in Hn.
  apply first_in in Hn. unfold keys in *. apply in_map_iff in Hn. destruct Hn as (y & <- & Hy). apply in_map. unfold flat. apply in_concat. exists i. split; auto. apply in_map_iff. exists (p, i). auto.
Qed.
Lemma index_srt cap ps : good cap ps -> srt (keys (flat ps)) -> srt (keys (index ps)).
Proof.
  induction ps as [|[p i] ps IH]; intros G H; [constructor|]. apply good_cons in G. destruct G as (Hn & _ & G).
  rewrite flat_cons, keys_app in H. apply srt_app in H. destruct H as (_ & H2 & H3).
  change (keys (index ((p, i) :: ps))) with (first_key i :: keys (index ps)). apply srt_cons. split; [auto|].
  intros y Hy. apply H3; [apply first_in; auto|eapply index_sub; eauto].
Qed.
Lemma index_pages ps : map (fun x => match x with IKey _ p => p | _ => 0 end) (index ps) = pgs ps.
Proof. unfold index, pgs. rewrite map_map. reflexivity. Qed.
Lemma index_split ps a x b : index ps = a ++ x :: b -> exists u p i v, ps = u ++ (p, i) :: v /\ index u = a /\ x = IKey (first_key i) p /\ index v = b.
Proof.
  revert a. induction ps as [|[p i] ps IH]; intros a E; [destruct a; discriminate|]. destruct a as [|y a]; cbn in E; injection E as E1 E2.
  - exists [], p, i, ps. cbn in E1. auto.
  - destruct (IH a E2) as (u & q & j & v & -> & <- & -> & <-). exists ((p, i) :: u), q, j, v. cbn in E1 |- *. subst y. auto.
Qed.
(** where the key of page [p] is in the index *)
Lemma index_unique u p i v a f b : NoDup (pgs (u ++ (p, i) :: v)) -> index (u ++ (p, i) :: v) = a ++ IKey f p :: b ->
  a = index u /\ f = first_key i /\ b = index v.
Proof.
  intros ND E. destruct (index_split _ _ _ _ E) as (u' & q & j & v' & E' & <- & Ek & <-). injection Ek as -> ->.
  assert (u = u') by (eapply page_once; [exact ND|exact E']). subst u'. apply app_inv_head in E'. injection E' as -> ->. auto.
Qed.
End Index.

(** * Scanning a page *)
Lemma scan_spec n : forall i test, exists j, i <= j <= i + Z.of_nat n /\ scan n i test = j /\ (forall k, i <= k < j -> test k = true) /\ (j < i + Z.of_nat n -> test j = false).
Proof.
  induction n as [|n IH]; intros i test; cbn [scan].
  - exists i. repeat split; try lia.
  - destruct (test i) eqn:E.
    + destruct (IH (i + 1) test) as (j & H1 & H2 & H3 & H4). exists j. split; [lia|]. split; auto. split; [|intro; apply H4; lia].
      intros k Hk. destruct (Z.eq_dec k i) as [->|]; auto. apply H3. lia.
    + exists i. split; [lia|]. split; auto. split; [lia|auto].
Qed.

Section Map.
Context {V : Type}.
Variable s : msizes.
Variable junk : mem (mitem V) -> Z -> Z -> Z.
Notation item := (mitem V).
Notation capV := (t_cap (t_vals s)).
Notation capK := (t_cap (t_keys s)).
Hypothesis Hv : 2 <= capV <= 4069.
Hypothesis Hk : 2 <= capK <= 4069.
Definition ts (c : Z) : ctype := if c =? 1 then t_vals s else if c =? 2 then t_stack else if c =? 3 then t_path else t_keys s.
Lemma ts_cap c : 1 <= t_cap (ts c) <= 4069.
Proof. unfold ts. destruct (c =? 1); [lia|]. destruct (c =? 2); [change (t_cap t_stack) with 156; lia|]. destruct (c =? 3); [change (t_cap t_path) with 508; lia|lia]. Qed.
Lemma ts_level j : ts (c_level j) = t_keys s.
Proof.
  unfold ts, c_level. destruct (Z.eqb_spec (10 + Z.of_nat j) 1); [lia|]. destruct (Z.eqb_spec (10 + Z.of_nat j) 2); [lia|]. destruct (Z.eqb_spec (10 + Z.of_nat j) 3); [lia|reflexivity].
Qed.
Definition below (j : nat) : Z := match j with O => c_vals | S j => c_level j end.
Lemma below_pos j : below j <> 0 /\ below j <> 2 /\ below j <> 3. Proof. destruct j; unfold below, c_level, c_vals; lia. Qed.
Lemma level_pos j : c_level j <> 0 /\ c_level j <> 1 /\ c_level j <> 2 /\ c_level j <> 3. Proof. unfold c_level; lia. Qed.
Lemma below_level j i : below j = c_level i <-> j = S i.
Proof. destruct j; unfold below, c_level, c_vals; split; intro; try lia. Qed.

(** Slots with values lie on pages of values; behind the items there are only keys from behind the page. *)
Definition stale (m : mem item) (L : layout item) : Prop := forall z x k v, p_arr (pages m z) x = IVal k v ->
  exists u i w, L c_vals = u ++ (z, i) :: w /\ (zl i <= x < capV -> exists q j w', w = (q, j) :: w' /\ first_key j <= k).
Record Base (m : mem item) (L : layout item) : Prop := mkBase {
  b_inv : Inv ts m L;
  b_free : proper m (used L []);
  b_zero : m_zero m = IBlank;
  b_stale : stale m L }.
Definition is_val (x : item) : bool := match x with IVal _ _ => true | _ => false end.

Lemma stale_touch m m' L c ps x : W m' (upd L c ps) [] -> c <> 0 -> c <> c_vals -> is_val x = false -> m_zero m = IBlank ->
  touch m m' (fun z => In z (pgs ps)) x -> stale m L -> stale m' (upd L c ps).
Proof.
  intros W' Hc Hc1 Hx Hz (T1 & T2) St z idx k v E. rewrite upd_other by auto.
  destruct (in_dec Z.eq_dec z (pgs ps)) as [Hi|Hi].
  - exfalso. destruct (T2 z idx Hi) as [T|[T|(z' & k' & Hz' & T)]]; [rewrite Hz in T; congruence|rewrite E in T; subst x; discriminate|].
    rewrite E in T. symmetry in T. destruct (St _ _ _ _ T) as (u & i & w & EL & _). eapply (w_dis _ _ _ W' c c_vals z'); auto; [discriminate|rewrite upd_same; auto|].
    rewrite upd_other by auto. rewrite EL, pgs_app. apply in_or_app; right; left; reflexivity.
  - destruct (T1 z idx Hi) as [T|T]; [|rewrite Hz in T; congruence]. rewrite E in T. symmetry in T. apply (St _ _ _ _ T).
Qed.

Lemma base_good m L c : Base m L -> c <> 0 -> good (t_cap (ts c)) (L c). Proof. intros B Hc. apply (n_good _ _ _ (b_inv _ _ B)); auto. Qed.
Lemma base_W m L : Base m L -> W m L []. Proof. intro B. apply (n_W _ _ _ (b_inv _ _ B)). Qed.

Lemma base_push m L c x : Base m L -> c <> 0 -> c <> c_vals -> fsize m < room m -> is_val x = false ->
  flag_test (t_ins (ts c)) flag_end = false \/ zl (flat (L c)) < t_cap (ts c) ->
  exists m' r ps, c_push_back (ts c) c m x = COk (m', r) /\ Base m' (upd L c ps) /\ room m' = room m /\ fsize m <= fsize m' <= fsize m + 1 /\
    flat ps = flat (L c) ++ [x] /\ ((exists q, ps = L c ++ [(q, [x])] /\ (L c = [] \/ t_cap (ts c) <= zl (flat (L c)))) \/ (exists u p i, L c = u ++ [(p, i)] /\ ps = u ++ [(p, i ++ [x])] /\ zl i < t_cap (ts c))) /\
    (forall d, d <> c -> tots m' d = tots m d).
Proof.
  intros B Hc Hc1 Hr Hx Hf. pose proof B as [I P Z St]. pose proof (ts_cap c) as Cc.
  destruct (push_W (ts c) m L c x (n_W _ _ _ I) Hc (n_good _ _ _ I c Hc) ltac:(lia) Hr Hf) as (m' & r & ps & E & R' & Z' & SZ & T & W' & G' & P' & TT & _ & SH).
  exists m', r, ps. split; [exact E|].
  assert (EF : flat ps = flat (L c) ++ [x]).
  { destruct SH as [(q & -> & _)|(u & p & i & -> & -> & _)]; rewrite ?flat_app; cbn; rewrite ?app_nil_r, ?app_assoc; reflexivity. }
  split.
  - constructor; [|auto|congruence|eapply stale_touch; eauto].
    eapply Inv_upd; eauto. rewrite (n_tot _ _ _ I) by auto. rewrite EF, zl_app. reflexivity.
  - split; [auto|]. split; [lia|]. split; [exact EF|]. split; [|intros d Hd; rewrite T; apply upd_other; auto].
    destruct SH as [(q & -> & _ & HE & _)|SH]; [left; eauto|right; exact SH].
Qed.

(** insertion on a page of keys *)
Lemma base_ins m L j u p a b v x : Base m L -> let c := c_level j in L c = u ++ (p, a ++ b) :: v -> fsize m < room m -> is_val x = false ->
  exists m' r ps, c_insert (t_keys s) c m (mkI true p (zl a) E_none) x = COk (m', r) /\ Base m' (upd L c ps) /\ room m' = room m /\ fsize m <= fsize m' <= fsize m + 1 /\
    i_ok (r_itr r) = true /\ (forall d, d <> c -> tots m' d = tots m d) /\
    ((ps = u ++ (p, a ++ x :: b) :: v /\ r_l0 r = no_lead m /\ r_l1 r = no_lead m) \/
     exists q a1 a2, ps = u ++ (p, a1) :: (q, a2) :: v /\ a1 ++ a2 = a ++ x :: b /\ a1 <> [] /\ a2 <> [] /\ q <> page_nil /\
       r_l0 r = mkLead Linsert q (hd x a2) IBlank /\ r_l1 r = mkLead Loriginal p (hd x a1) IBlank).
Proof.
  intros B c EL Hr Hx. pose proof B as [I P Z St]. destruct (level_pos j) as (Hc & Hc1 & _). fold c in Hc, Hc1.
  assert (Et : ts c = t_keys s) by apply ts_level. rewrite <- Et. pose proof (ts_cap c).
  assert (FO : flags_ok (ts c)). { rewrite Et. split; [lia|split; reflexivity]. }
  destruct (ins_at (ts c) m L c u p a b v x (n_W _ _ _ I) Hc EL (n_good _ _ _ I c Hc) ltac:(lia) FO Hr) as (m' & r & ps & E & R' & Z' & SZ & T & Ho & W' & G' & P' & TT & SH).
  exists m', r, ps. split; [exact E|].
  assert (EF : zl (flat ps) = zl (flat (L c)) + 1).
  { rewrite EL. destruct SH as [(-> & _)|(q & a1 & a2 & -> & E2 & _)]; rewrite !flat_app, ?flat_cons; [|rewrite (app_assoc a1 a2), E2]; rewrite !zl_app, ?zl_cons; lia. }
  split.
  - constructor; [|auto|congruence|eapply stale_touch; eauto].
    eapply Inv_upd; eauto. rewrite (n_tot _ _ _ I) by auto. lia.
  - split; [auto|]. split; [lia|]. split; [auto|]. split; [intros d Hd; rewrite T; apply upd_other; auto|].
    destruct SH as [(-> & _ & E0 & E1 & _)|(q & a1 & a2 & -> & E2 & N1 & N2 & _ & _ & Nq & E0 & E1 & _)]; [left; auto|right]. exists q, a1, a2. rewrite Z in *. auto 10.
Qed.

(** insertion on a page of values *)
Definition stale_at (ps : list (Z * list item)) (z idx k : Z) : Prop :=
  exists u i w, ps = u ++ (z, i) :: w /\ (zl i <= idx < capV -> exists q j w', w = (q, j) :: w' /\ first_key j <= k).
Lemma app_cases {B} (a b c d : list B) : a ++ b = c ++ d -> (exists t, a = c ++ t /\ d = t ++ b) \/ (exists t, c = a ++ t /\ b = t ++ d).
Proof.
  revert c. induction a as [|x a IH]; intros [|y c] E; cbn in E.
  - left. exists []. auto.
  - right. exists (y :: c). auto.
  - left. exists (x :: a). auto.
  - injection E as -> E. destruct (IH c E) as [(t & -> & ->)|(t & -> & ->)]; [left|right]; exists t; auto.
Qed.
Lemma stale_lift u p i v i' rest z idx k : stale_at (u ++ (p, i) :: v) z idx k -> z <> p -> first_key i' = first_key i -> stale_at (u ++ ((p, i') :: rest) ++ v) z idx k.
Proof.
  intros (u0 & i0 & w0 & E & H) Hz Hf. destruct (app_cases _ _ _ _ E) as [(t & -> & E2)|(t & -> & E2)].
  - destruct t as [|[z0 i1] t]; cbn in E2; injection E2 as -> ->; [congruence|]. subst.
    exists u0, i1, (t ++ ((p, i') :: rest) ++ v). split; [rewrite <- app_assoc; reflexivity|].
    intro Hi. destruct (H Hi) as (q & j & w' & Ew & Hj). destruct t as [|[q0 j0] t]; cbn in Ew; injection Ew as -> -> <-; cbn; [exists q, i', (rest ++ v)|exists q, j, (t ++ (p, i') :: rest ++ v)]; split; auto. lia.
  - destruct t as [|[z0 i1] t]; cbn in E2; injection E2 as E1 E3; [congruence|]. subst z0 i1 v. 
    exists (u ++ ((p, i') :: rest) ++ t), i0, w0. split; [rewrite <- !app_assoc; reflexivity|auto].
Qed.

Lemma stale_eq m L : stale m L <-> forall z x k v, p_arr (pages m z) x = IVal k v -> stale_at (L c_vals) z x k.
Proof. reflexivity. Qed.

Lemma base_val m L u p a b v k x : Base m L -> L c_vals = u ++ (p, a ++ b) :: v -> fsize m < room m -> a <> [] ->
  srt (keys (a ++ IVal k x :: b)) ->
  exists m' r ps, c_insert (t_vals s) c_vals m (mkI true p (zl a) E_none) (IVal k x) = COk (m', r) /\ Base m' (upd L c_vals ps) /\ room m' = room m /\ fsize m <= fsize m' <= fsize m + 1 /\
    i_ok (r_itr r) = true /\ (forall d, d <> c_vals -> tots m' d = tots m d) /\
    ((ps = u ++ (p, a ++ IVal k x :: b) :: v /\ r_l0 r = no_lead m /\ r_l1 r = no_lead m) \/
     exists q a1 a2, ps = u ++ (p, a1) :: (q, a2) :: v /\ a1 ++ a2 = a ++ IVal k x :: b /\ a1 <> [] /\ a2 <> [] /\ q <> page_nil /\
       r_l0 r = mkLead Linsert q (hd (IVal k x) a2) IBlank /\ r_l1 r = mkLead Loriginal p (hd (IVal k x) a1) IBlank).
Proof.
  intros B EL Hr Na HS. pose proof B as [I P Z St]. assert (Hc : c_vals <> 0) by discriminate. set (c := c_vals) in *.
  assert (Et : ts c = t_vals s) by reflexivity. rewrite <- Et. pose proof (ts_cap c).
  assert (FO : flags_ok (ts c)). { rewrite Et. split; [lia|split; reflexivity]. }
  pose proof (w_nd _ _ _ (n_W _ _ _ I) c Hc) as ND.
  destruct (ins_at (ts c) m L c u p a b v (IVal k x) (n_W _ _ _ I) Hc EL (n_good _ _ _ I c Hc) ltac:(lia) FO Hr) as (m' & r & ps & E & R' & Z' & SZ & T & Ho & W' & G' & P' & TT & SH).
  exists m', r, ps. split; [exact E|].
  assert (EF : zl (flat ps) = zl (flat (L c)) + 1).
  { rewrite EL. destruct SH as [(-> & _)|(q & a1 & a2 & -> & E2 & _)]; rewrite !flat_app, ?flat_cons; [|rewrite (app_assoc a1 a2), E2]; rewrite !zl_app, ?zl_cons; lia. }
  split.
  - constructor; [|auto|congruence|].
    { eapply Inv_upd; eauto. rewrite (n_tot _ _ _ I) by auto. lia. }
    intros z idx kk vv E'. change (stale_at (upd L c ps c) z idx kk). rewrite upd_same.
    assert (OLD : p_arr (pages m' z) idx = p_arr (pages m z) idx -> stale_at (u ++ (p, a ++ b) :: v) z idx kk).
    { intro EE. rewrite EE in E'. apply St in E'. fold c in E'. rewrite EL in E'. exact E'. }
    destruct SH as [(-> & Hl & _ & _ & _ & SL)|(q & a1 & a2 & -> & E2 & N1 & N2 & _ & Uq & Nq & _ & _ & S1 & S2 & S3)].
    + destruct (Z.eq_dec z p) as [->|Nz].
      * destruct (Z.le_gt_cases idx (zl (a ++ b))) as [Hi|Hi].
        -- exists u, (a ++ IVal k x :: b), v. split; [reflexivity|]. rewrite zl_app, zl_cons. rewrite zl_app in Hi. intro; exfalso; lia.
        -- destruct OLD as (u0 & i0 & w0 & EE & HH); [apply SL; auto|]. assert (u = u0) by (eapply page_once; [rewrite <- EL; exact ND|exact EE]). subst u0. apply app_inv_head in EE. injection EE as <- <-.
           exists u, (a ++ IVal k x :: b), v. split; [reflexivity|]. intro Hx. apply HH. rewrite zl_app, zl_cons in Hx. rewrite zl_app. lia.
      * specialize (OLD (SL z idx (or_introl Nz))). apply (stale_lift u p (a ++ b) v (a ++ IVal k x :: b) []); auto. rewrite !first_app; auto.
    + destruct (Z.eq_dec z p) as [->|Nz].
      * exists u, a1, ((q, a2) :: v). split; [reflexivity|]. intro Hi. exists q, a2, v. split; [reflexivity|].
        specialize (S2 idx ltac:(rewrite Et; lia)). rewrite E' in S2. rewrite <- E2, keys_app in HS. apply srt_app in HS. destruct HS as (_ & HS & _).
        apply (in_map item_key) in S2. change (In kk (keys a2)) in S2. destruct a2 as [|y a2]; [congruence|]. change (first_key (y :: a2)) with (item_key y).
        change (keys (y :: a2)) with (item_key y :: keys a2) in *. apply srt_cons in HS. destruct S2 as [<-|S2]; [lia|]. destruct HS as (_ & HS). specialize (HS kk S2). lia.
      * destruct (Z.eq_dec z q) as [->|Nz2].
        -- exists (u ++ [(p, a1)]), a2, v. split; [rewrite <- app_assoc; reflexivity|]. intro Hi. exfalso.
           destruct (S3 idx ltac:(lia)) as [S4|S4]; [|rewrite E', Z in S4; discriminate]. rewrite E' in S4. symmetry in S4. destruct (St _ _ _ _ S4) as (u0 & i0 & w0 & EE & _).
           apply Uq. right. exists c. split; auto. unfold c. rewrite EE, pgs_app. apply in_or_app; right; left; reflexivity.
        -- destruct (S1 z idx Nz Nz2) as [S4|S4]; [|rewrite E', Z in S4; discriminate]. specialize (OLD S4).
           apply (stale_lift u p (a ++ b) v a1 [(q, a2)]); auto. rewrite first_app by auto. rewrite <- (first_app a1 a2) by auto. rewrite E2. apply first_app. auto.
  - split; [auto|]. split; [lia|]. split; [auto|]. split; [intros d Hd; rewrite T; apply upd_other; auto|].
    destruct SH as [(-> & _ & E0 & E1 & _)|(q & a1 & a2 & -> & E2 & N1 & N2 & _ & _ & Nq & E0 & E1 & _)]; [left; auto|right]. exists q, a1, a2. rewrite Z in *. auto 10.
Qed.

(** the first insertion *)
Lemma base_first m L k x : Base m L -> L c_vals = [] -> fsize m < room m ->
  exists m' r q, c_insert (t_vals s) c_vals m (mkI true page_nil item_nil E_end) (IVal k x) = COk (m', r) /\ Base m' (upd L c_vals [(q, [IVal k x])]) /\ room m' = room m /\ fsize m <= fsize m' <= fsize m + 1 /\
    i_ok (r_itr r) = true /\ (forall d, d <> c_vals -> tots m' d = tots m d) /\ ld_op (r_l0 r) = Lnone /\ ld_op (r_l1 r) = Lnone.
Proof.
  intros B EL Hr. pose proof B as [I P Z St]. assert (Hc : c_vals <> 0) by discriminate. set (c := c_vals) in *.
  assert (Et : ts c = t_vals s) by reflexivity. pose proof (ts_cap c) as Cc.
  assert (EI : c_insert (t_vals s) c m (mkI true page_nil item_nil E_end) (IVal k x) = c_push_back (ts c) c m (IVal k x)).
  { unfold c_push_back, c_end. rewrite (W_states _ _ _ _ (n_W _ _ _ I) Hc), EL. reflexivity. }
  rewrite EI.
  destruct (push_W (ts c) m L c (IVal k x) (n_W _ _ _ I) Hc (n_good _ _ _ I c Hc) ltac:(lia) Hr) as (m' & r & ps & E & R' & Z' & SZ & T & W' & G' & P' & TT & Ho & SH).
  { right. rewrite EL. change (0 < t_cap (ts c)). lia. }
  destruct SH as [(q & Eps & Uq & _ & Ld & SL)|(u & p & i & EE & _)]; [|rewrite EL in EE; destruct u; discriminate].
  rewrite EL in Eps. cbn [app] in Eps. exists m', r, q. split; [exact E|]. rewrite <- Eps.
  split.
  - constructor; [|auto|congruence|].
    { eapply Inv_upd; eauto. rewrite (n_tot _ _ _ I) by auto. rewrite EL, Eps. reflexivity. }
    intros z idx kk vv E'. change (stale_at (upd L c ps c) z idx kk). rewrite upd_same, Eps.
    assert (NO : p_arr (pages m' z) idx = p_arr (pages m z) idx \/ p_arr (pages m' z) idx = m_zero m -> False).
    { intros [F|F]; [|congruence]. rewrite E' in F. symmetry in F. destruct (St _ _ _ _ F) as (u0 & i0 & w0 & EE & _). fold c in EE. rewrite EL in EE. destruct u0; discriminate. }
    destruct (Z.eq_dec z q) as [->|Nz]; [|exfalso; apply NO; auto]. destruct (Z.le_gt_cases idx 0); [|exfalso; apply NO; auto].
    exists [], [IVal k x], []. split; [reflexivity|]. rewrite zl_cons, zl_nil. intro; exfalso; lia.
  - split; [auto|]. split; [lia|]. split; [auto|]. split; [intros d Hd; rewrite T; apply upd_other; auto|]. auto.
Qed.

(** changes of states *)
Lemma base_keep m m' L : Base m L -> pages m' = pages m -> (forall d, sts m' d = sts m d) -> (forall d, tots m' d = tots m d) ->
  fsize m' = fsize m -> room m' = room m -> m_zero m' = m_zero m -> Base m' L.
Proof.
  intros [[Wm G C T R] P Z St] EP ES ET EF ER EZ.
  assert (P' : proper m' (used L [])). { eapply proper_keep; eauto; [lia|]. intros. unfold same_links. rewrite EP. auto. }
  constructor; [|exact P'|congruence|].
  - constructor; auto; [|intros; rewrite ET; auto|lia].
    pose proof (w_sz _ _ _ Wm). apply (W_keep m m' L [] []); auto; try lia; try (intros; rewrite EP; auto; fail); try (constructor; fail); try (intros ? []; fail); try (intros ? ? []; fail). right; left. exact P'.
  - intros z x k v E. rewrite EP in E. eauto.
Qed.
Lemma keep_upd {B} (f : Z -> B) c x d : f c = x -> upd f c x d = f d.
Proof. intro E. rewrite upd_eq. destruct (Z.eqb_spec d c); congruence. Qed.
Lemma base_reset m L c st n : Base m L -> sts m c = st -> tots m c = n -> Base (set_tot (set_st m c st) c n) L.
Proof.
  intros B Es En. eapply base_keep; eauto; cbn; intros; try reflexivity.
  - apply keep_upd; auto.
  - apply keep_upd; auto.
Qed.

(** * The map *)
Definition states (m : mem item) (a n : nat) : list item := map (fun j => IState (sts m (c_level j)) (tots m (c_level j))) (seq a n).
Record Mid (m : mem item) (L : layout item) (n : nat) : Prop := mkMid {
  d_base : Base m L;
  d_room : room m <= 65535;
  d_stack : flat (L c_keys) = states m 0 n;
  d_none : forall j, (n <= j)%nat -> L (c_level j) = [] }.
Definition top (L : layout item) (n : nat) : Prop := exists r i, L (below n) = [(r, i)].
Definition indexed (L : layout item) (j : nat) : Prop := flat (L (c_level j)) = index (L (below j)).
Record Map (m : mem item) (L : layout item) (n : nat) (l : list (Z * V)) : Prop := mkMap {
  p_mid : Mid m L n;
  p_vals : flat (L c_vals) = entries l;
  p_srt : srt (map fst l);
  p_pos : forall k, In k (map fst l) -> 0 <= k;
  p_top : (l = [] /\ n = O) \/ top L n;
  p_index : forall j, (j < n)%nat -> indexed L j }.

(** ** Looking up *)
Lemma cut {B} (l : list B) n : 0 <= n < zl l -> exists a x b, l = a ++ x :: b /\ zl a = n.
Proof.
  intro H. unfold zl in H. pose proof (firstn_skipn (Z.to_nat n) l) as E. destruct (skipn (Z.to_nat n) l) as [|x b] eqn:ES.
  - apply (f_equal (@length B)) in ES. rewrite skipn_length in ES. cbn in ES. lia.
  - exists (firstn (Z.to_nat n) l), x, b. split; [auto|]. unfold zl. rewrite firstn_length. lia.
Qed.
Lemma slot (p : page item) a x b : holds p (a ++ x :: b) -> p_arr p (zl a) = x.
Proof. intros (_ & H). apply (tab_nth _ _ _ _ H). Qed.
Definition is_key (x : item) : Prop := exists k p, x = IKey k p.
Lemma index_is_key ps : Forall is_key (index ps).
Proof. apply Forall_forall. intros x H. apply in_map_iff in H. destruct H as (e & <- & _). unfold is_key. eauto. Qed.

Lemma child_spec m p i k : holds (pages m p) i -> Forall is_key i -> i <> [] ->
  exists i1 f q i2, i = i1 ++ IKey f q :: i2 /\ child junk m p k = Some q /\ (i1 = [] \/ f <= k) /\ (i2 = [] \/ k < first_key i2).
Proof.
  intros H F N. pose proof H as (Hc & _). fold (zl i) in Hc. unfold child. rewrite Hc.
  assert (1 <= zl i). { destruct i; [congruence|]. rewrite zl_cons. pose proof (zl_pos i). lia. }
  destruct (scan_spec (Z.to_nat (zl i - 1)) 1 (fun x => key_key junk m p x <=? k)) as (j & H1 & -> & H2 & H3).
  destruct (cut i (j - 1)) as (i1 & x & i2 & E & El); [lia|]. rewrite Forall_forall in F.
  destruct (F x) as (f & q & ->). { rewrite E. apply in_or_app; right; left; auto. }
  exists i1, f, q, i2. split; [exact E|]. rewrite E in H. pose proof (slot _ _ _ _ H) as Sx.
  split; [unfold key_pos; rewrite <- El, Sx; reflexivity|]. split.
  - destruct (Z.eq_dec j 1) as [->|Nj]; [left; destruct i1; auto; rewrite zl_cons in El; pose proof (zl_pos i1); lia|right].
    specialize (H2 (j - 1) ltac:(lia)). cbn beta in H2. unfold key_key in H2. rewrite <- El, Sx in H2. lia.
  - destruct i2 as [|y i2]; [left; auto|right].
    assert (Sy : p_arr (pages m p) j = y).
    { assert (H' : holds (pages m p) ((i1 ++ [IKey f q]) ++ y :: i2)) by (rewrite <- app_assoc; exact H). clear H. rename H' into H. apply slot in H. rewrite zl_app in H. change (zl [IKey f q]) with 1 in H. rewrite El in H. replace (j - 1 + 1) with j in H by lia. exact H. }
    destruct (F y) as (f2 & q2 & ->). { rewrite E. apply in_or_app; right; right; left; auto. }
    assert (zl i = j - 1 + (1 + (1 + zl i2))). { rewrite E, zl_app, !zl_cons, El. reflexivity. } pose proof (zl_pos i2).
    specialize (H3 ltac:(lia)). cbn beta in H3. unfold key_key in H3. rewrite Sy in H3. cbn. lia.
Qed.

Definition at_ (ps : list (Z * list item)) (k p : Z) : Prop :=
  exists u i v, ps = u ++ (p, i) :: v /\ (u = [] \/ first_key i <= k) /\ (v = [] \/ exists q j v', v = (q, j) :: v' /\ k < first_key j).
Definition link (L : layout item) (j : nat) (p q : Z) : Prop := exists u i v f, L (c_level j) = u ++ (p, i) :: v /\ In (IKey f q) i.

Lemma app_nil_ends {B} (a b : list B) : a ++ b <> [] -> a <> [] \/ b <> []. Proof. destruct a; [right; auto|left; discriminate]. Qed.
Lemma child_ok m L j k p : Base m L -> indexed L j -> at_ (L (c_level j)) k p ->
  exists q, child junk m p k = Some q /\ at_ (L (below j)) k q /\ link L j p q.
Proof.
  intros B HI (u & i & v & EL & Hu & Hv'). destruct (level_pos j) as (Hc & _). pose proof (base_good _ _ _ B Hc) as G. rewrite EL in G. apply good_app in G. destruct G as (Gu & G). apply good_cons in G. destruct G as (Ni & _ & Gv).
  pose proof (page_items _ _ _ _ _ _ _ _ (base_W _ _ B) Hc EL) as H.
  assert (F : Forall is_key i). { pose proof (index_is_key (L (below j))) as F. unfold indexed in HI. rewrite <- HI, EL, flat_app, flat_cons, !Forall_app in F. tauto. }
  destruct (child_spec m p i k H F Ni) as (i1 & f & q & i2 & Ei & Ec & H1 & H2). exists q. split; [exact Ec|]. split.
  - unfold indexed in HI. rewrite EL, flat_app, flat_cons, Ei, <- app_assoc in HI. cbn [app] in HI. rewrite app_assoc in HI. symmetry in HI.
    destruct (index_split _ _ _ _ HI) as (ub & q' & ib & vb & EB & Eu & Eq & Ev). injection Eq as -> ->.
    exists ub, ib, vb. split; [exact EB|]. split.
    + destruct ub as [|e ub]; [left; auto|right]. destruct H1 as [->|]; [|auto]. rewrite app_nil_r in Eu. destruct Hu as [->|Hu]; [discriminate|]. rewrite Ei in Hu. exact Hu.
    + destruct vb as [|[q2 j2] vb]; [left; auto|right]. exists q2, j2, vb. split; [auto|]. destruct i2 as [|y i2].
      * cbn [app] in Ev. destruct Hv' as [->|(q3 & j3 & v3 & -> & Hj)]; [discriminate|]. apply good_cons in Gv. destruct Gv as (N3 & _). rewrite flat_cons in Ev. destruct j3 as [|y j3]; [congruence|]. cbn in Ev. injection Ev as <- _. exact Hj.
      * destruct H2 as [|H2]; [discriminate|]. cbn in Ev. injection Ev as <- _. exact H2.
  - exists u, i, v, f. split; [exact EL|]. rewrite Ei. apply in_or_app; right; left; auto.
Qed.

Fixpoint links (L : layout item) (n : nat) (P : list Z) (z : Z) : Prop :=
  match n, P with
  | O, [] => True
  | S j, p :: P => link L j p (hd z P) /\ links L j P z
  | _, _ => False
  end.
Fixpoint trail (L : layout item) (j : nat) (z : Z) (rp : list Z) : Prop :=
  match rp with
  | [] => True
  | p :: rp => link L j p z /\ trail L (S j) p rp
  end.
Lemma trail_snoc L rp : forall j z p, trail L j z rp -> link L (length rp + j) p (last rp z) -> trail L j z (rp ++ [p]).
Proof.
  induction rp as [|q rp IH]; intros j z p T Hl; cbn in *; [auto|]. destruct T as (T1 & T2). split; auto. apply IH; auto.
  replace (length rp + S j)%nat with (S (length rp + j)) by lia. destruct rp as [|x rp]; [exact Hl|]. clear - Hl. change (last (q :: x :: rp) z) with (last (x :: rp) z) in Hl.
  assert (EL : last (x :: rp) z = last (x :: rp) q). { clear Hl. generalize x. induction rp as [|y rp IH]; intro w; [reflexivity|]. change (last (y :: rp) z = last (y :: rp) q). apply IH. }
  rewrite <- EL. exact Hl.
Qed.
Lemma links_trail L n : forall P z, links L n P z -> trail L 0 z (rev P) /\ length P = n.
Proof.
  induction n as [|n IH]; intros [|p P] z H; cbn [links] in H; try contradiction; [cbn; auto|]. destruct H as (H1 & H2). destruct (IH P z H2) as (T & El).
  split; [|cbn; lia]. cbn [rev]. apply trail_snoc; auto. rewrite rev_length, Nat.add_0_r, El.
  replace (last (rev P) z) with (hd z P); [exact H1|]. destruct P as [|q P]; [reflexivity|]. cbn [rev hd]. rewrite last_last. reflexivity.
Qed.

Lemma link_ext L L' j p q : (forall i, L (c_level i) = L' (c_level i)) -> link L j p q -> link L' j p q.
Proof. intros H (u & i & v & f & E & Hi). exists u, i, v, f. rewrite <- H. auto. Qed.
Lemma links_ext L L' n : (forall i, L (c_level i) = L' (c_level i)) -> forall P z, links L n P z -> links L' n P z.
Proof. intro HL. induction n as [|n IH]; intros [|p P] z H; cbn [links] in *; auto. destruct H. split; [eapply link_ext; eauto|auto]. Qed.
Lemma trail_ext L L' rp : forall j z, (forall i, (j <= i)%nat -> L (c_level i) = L' (c_level i)) -> trail L j z rp -> trail L' j z rp.
Proof.
  induction rp as [|p rp IH]; intros j z HL H; cbn [trail] in *; auto. destruct H as (H1 & H2). split; [|apply IH; auto; intros; apply HL; lia].
  destruct H1 as (u & i & v & f & E & Hi). exists u, i, v, f. rewrite <- HL; auto.
Qed.
Lemma path_end : flag_test (t_ins (ts c_path)) flag_end = false. Proof. reflexivity. Qed.

Lemma descend_ok n : forall m L p k P, Base m L -> (forall j, (j <= n)%nat -> indexed L j) -> at_ (L (c_level n)) k p ->
  flat (L c_path) = map IPath P -> fsize m + Z.of_nat n <= room m ->
  exists m' ps z rest, descend junk (S n) m p k = COk (m', z) /\ Base m' (upd L c_path ps) /\ flat ps = map IPath (P ++ rest) /\
    at_ (L c_vals) k z /\ links L (S n) (p :: rest) z /\ room m' = room m /\ fsize m <= fsize m' <= fsize m + Z.of_nat n /\ (forall d, d <> c_path -> tots m' d = tots m d).
Proof.
  induction n as [|n IH]; intros m L p k P B HI HA EP Hr.
  - destruct (child_ok m L 0 k p B (HI 0%nat ltac:(lia)) HA) as (q & Ec & Aq & Lq).
    cbn [descend]. destruct HA as (u & i & v & EL & _). destruct (level_pos 0) as (Hc & _). destruct (page_bnd _ _ _ _ _ _ _ _ (base_W _ _ B) Hc EL). destruct (Z.eqb_spec p page_nil); [lia|].
    rewrite Ec. cbn [cbind]. exists m, (L c_path), q, []. split; [reflexivity|].
    split; [|split; [rewrite app_nil_r; auto|split; [exact Aq|split; [cbn; auto|split; [auto|split; [lia|auto]]]]]].
    destruct B as [[Wm G C T R] Pm Z0 St]. constructor; auto.
    + constructor; auto; [apply upd_id; auto| |]; intros d Hd; rewrite (keep_upd L) by auto; auto.
    + eapply (proper_links m); eauto; [intro z; apply links_refl|]. intros z Hz. eapply used_same; [|exact Hz]. intros d Hd. rewrite (keep_upd L) by auto. auto.
  - destruct (child_ok m L (S n) k p B (HI (S n) ltac:(lia)) HA) as (q & Ec & Aq & Lq).
    destruct (base_push m L c_path (IPath q) B ltac:(discriminate) ltac:(discriminate) ltac:(lia) eq_refl (or_introl path_end)) as (m1 & r1 & ps1 & E1 & B1 & R1 & SZ1 & F1 & _ & T1).
    change (ts c_path) with t_path in E1.
    assert (HI1 : forall j, (j <= n)%nat -> indexed (upd L c_path ps1) j).
    { intros j Hj. unfold indexed. rewrite !upd_other; [apply HI; lia|apply below_pos|]. destruct (level_pos j) as (_ & _ & _ & H'). exact H'. }
    assert (OL : forall j, upd L c_path ps1 (c_level j) = L (c_level j)). { intro j. apply upd_other. destruct (level_pos j) as (_ & _ & _ & H'). exact H'. }
    destruct (IH m1 (upd L c_path ps1) q k (P ++ [q]) B1 HI1) as (m' & ps & z & rest & E & B' & F' & Az & Ls & R' & SZ' & T').
    { rewrite OL. exact Aq. } { rewrite upd_same, F1, EP, map_app. reflexivity. } { lia. }
    cbn [descend]. destruct HA as (u & i & v & EL & _). destruct (level_pos (S n)) as (Hc & _). destruct (page_bnd _ _ _ _ _ _ _ _ (base_W _ _ B) Hc EL). destruct (Z.eqb_spec p page_nil); [lia|].
    rewrite Ec, E1. cbn [done cbind]. cbn [descend] in E. rewrite E. exists m', ps, z, (q :: rest). split; [reflexivity|].
    split. { destruct B' as [[Wm G C T R] Pm Z0 St]. 
      assert (EQ : forall d, upd L c_path ps d = upd (upd L c_path ps1) c_path ps d) by (intro d; rewrite !upd_eq; destruct (d =? c_path); reflexivity).
      constructor; auto.
      - constructor; auto; [apply upd_ext in Wm; exact Wm| |]; intros d Hd; rewrite EQ; auto.
      - eapply (proper_links m'); eauto; [intro y; apply links_refl|]. intros y Hy. eapply used_same; [|exact Hy]. intros d Hd. rewrite EQ. auto. }
    split; [rewrite F', <- app_assoc; reflexivity|]. split; [rewrite upd_other in Az by discriminate; exact Az|].
    split; [|split; [congruence|split; [lia|intros d Hd; rewrite T', T1; auto]]].
    cbn [links hd]. split; [exact Lq|]. cbn [links] in Ls.
    destruct Ls as (Ls1 & Ls2). split.
    + eapply link_ext; [exact OL|exact Ls1].
    + eapply links_ext; [exact OL|exact Ls2].
Qed.

Lemma base_ext m L L' : (forall d, L' d = L d) -> Base m L -> Base m L'.
Proof.
  intros HL [[Wm G C T R] P Zm St]. constructor; auto.
  - constructor; auto; [apply (W_ext m L); auto; intros; symmetry; apply HL| |]; intros d Hd; rewrite HL; auto.
  - eapply (proper_links m); eauto; [intro y; apply links_refl|]. intros y Hy. eapply used_same; [|exact Hy]. intros d Hd. rewrite HL. auto.
  - unfold stale. rewrite HL. exact St.
Qed.
Lemma base_sts m m' L L' d : Base m L -> Base m' L' -> d <> 0 -> L' d = L d -> sts m' d = sts m d.
Proof. intros B B' Hd E. rewrite (W_states _ _ _ _ (base_W _ _ B') Hd), (W_states _ _ _ _ (base_W _ _ B) Hd), E. reflexivity. Qed.
Lemma states_ext m m' a n : (forall j, (a <= j < a + n)%nat -> sts m' (c_level j) = sts m (c_level j) /\ tots m' (c_level j) = tots m (c_level j)) -> states m' a n = states m a n.
Proof. intro H. apply map_ext_in. intros j Hj. apply in_seq in Hj. destruct (H j) as (-> & ->); [lia|reflexivity]. Qed.
Lemma level_path (L : layout item) ps j : upd L c_path ps (c_level j) = L (c_level j).
Proof. apply upd_other. destruct (level_pos j) as (_ & _ & _ & H'). exact H'. Qed.
Lemma below_path (L : layout item) ps j : upd L c_path ps (below j) = L (below j).
Proof. apply upd_other. destruct (below_pos j) as (_ & _ & H'). exact H'. Qed.
Lemma map_path m m' L ps n l : Map m L n l -> Base m' (upd L c_path ps) -> room m' = room m -> (forall d, d <> c_path -> tots m' d = tots m d) -> Map m' (upd L c_path ps) n l.
Proof.
  intros [[B R S N] Fv Sr Po To Ix] B' R' T'. constructor; auto.
  - constructor; auto; [lia| |intros j Hj; rewrite level_path; auto].
    rewrite upd_other by discriminate. rewrite S. symmetry. apply states_ext. intros j _. destruct (level_pos j) as (H0 & _ & _ & H3).
    split; [|apply T'; exact H3]. eapply base_sts; eauto. apply level_path.
  - unfold top. rewrite below_path. exact To.
  - intros j Hj. unfold indexed. rewrite level_path, below_path. apply Ix. auto.
Qed.

Lemma below_level_S j : below (S j) = c_level j. Proof. reflexivity. Qed.
Lemma entries_val (l : list (Z * V)) x : In x (entries l) -> exists k v, x = IVal k v.
Proof. intro H. apply in_map_iff in H. destruct H as (e & <- & _). eauto. Qed.
Lemma keys_entries (l : list (Z * V)) : keys (entries l) = map fst l. Proof. unfold keys, entries. rewrite map_map. reflexivity. Qed.
Lemma val_slot m p a k v b : holds (pages m p) (a ++ IVal k v :: b) -> zl (a ++ IVal k v :: b) <= capV -> val_key s junk m p (zl a) = k.
Proof.
  intros H Hl. unfold val_key. rewrite zl_app, zl_cons in Hl. pose proof (zl_pos b). destruct (Z.leb_spec capV (zl a)); [lia|]. rewrite (slot _ _ _ _ H). reflexivity.
Qed.

(** What a lookup finds on the page of values. *)
Definition found (L : layout item) (k : Z) (f : fres) (p : Z) : Prop :=
  exists u a b v, L c_vals = u ++ (p, a ++ b) :: v /\ f_itr f = mkI true p (zl a) E_none /\
    (forall x, In x (keys (flat u ++ a)) -> x < k) /\ (u = [] \/ a <> [] \/ f_ok f = true) /\
    ((f_ok f = true /\ exists w b', b = IVal k w :: b') \/ (f_ok f = false /\ forall y, In y (keys (b ++ flat v)) -> k < y)).

Lemma page_ok m L n l k p : Map m L n l -> at_ (L c_vals) k p -> (forall q x, junk m q x <> k) ->
  let it := scan (Z.to_nat (p_cnt (pages m p))) 0 (fun i => val_key s junk m p i <? k) in
  found L k (mkF (if p =? item_nil then no_itr else mkI true p it E_none) (val_key s junk m p it =? k)) p.
Proof.
  intros M (u & i & v & EL & Hu & Hv') HJ it. pose proof M as [[B R S N] Fv Sr Po To Ix]. assert (Hc : c_vals <> 0) by discriminate.
  pose proof (base_good _ _ _ B Hc) as G. change (ts c_vals) with (t_vals s) in G. rewrite EL in G. apply good_app in G. destruct G as (Gu & G). apply good_cons in G. destruct G as (Ni & Hi & Gv).
  pose proof (page_items _ _ _ _ _ _ _ _ (base_W _ _ B) Hc EL) as H. pose proof H as (Hn & _). fold (zl i) in Hn.
  destruct (page_bnd _ _ _ _ _ _ _ _ (base_W _ _ B) Hc EL) as (Bp & _).
  assert (Sz : fsize m <= room m) by apply (w_sz _ _ _ (base_W _ _ B)).
  destruct (Z.eqb_spec p item_nil) as [E|_]; [unfold item_nil in E; lia|].
  assert (SV : srt (keys (flat u ++ i ++ flat v))). { rewrite <- (flat_cons p), <- flat_app, <- EL, Fv, keys_entries. exact Sr. }
  assert (VV : forall x, In x (flat u ++ i ++ flat v) -> exists k v, x = IVal k v /\ 0 <= k).
  { intros x Hx. rewrite <- (flat_cons p), <- flat_app, <- EL, Fv in Hx. pose proof Hx as Hx'. apply entries_val in Hx. destruct Hx as (kk & vv & ->). exists kk, vv. split; auto. apply Po. rewrite <- keys_entries. change kk with (@item_key V (IVal kk vv)). apply in_map. exact Hx'. }
  rewrite !keys_app in SV. apply srt_app in SV. destruct SV as (_ & SV & SU). apply srt_app in SV. destruct SV as (Si & _ & Sv).
  assert (BU : forall x, In x (keys (flat u)) -> u <> [] -> x < k).
  { intros x Hx Hne. destruct Hu as [|Hu]; [congruence|]. assert (x < first_key i); [|lia]. apply SU; auto. apply in_or_app; left. apply first_in; auto. }
  assert (BU' : forall x, In x (keys (flat u)) -> x < k). { intros x Hx. apply BU; auto. intros ->. destruct Hx. }
  assert (BV : forall y, In y (keys (flat v)) -> k < y).
  { intros y Hy. destruct Hv' as [->|(q & j & v' & -> & Hj)]; [destruct Hy|]. apply good_cons in Gv. destruct Gv as (Nj & _ & _).
    rewrite flat_cons, keys_app in Hy. assert (first_key j <= y); [|lia]. destruct j as [|y0 j]; [congruence|]. change (first_key (y0 :: j)) with (item_key y0).
    assert (SS : srt (keys (flat ((q, y0 :: j) :: v')))).
    { assert (S0 : srt (keys (flat (L c_vals)))) by (rewrite Fv, keys_entries; exact Sr). rewrite EL, flat_app, flat_cons, !keys_app in S0. apply srt_app in S0. destruct S0 as (_ & S0 & _). apply srt_app in S0. tauto. }
    rewrite flat_cons in SS. cbn [app keys map] in SS. apply srt_cons in SS. destruct SS as (_ & SS). cbn [keys map app] in Hy. destruct Hy as [<-|Hy]; [lia|].
    assert (item_key y0 < y); [|lia]. apply SS. change (In y (keys (j ++ flat v'))). rewrite keys_app. exact Hy. }
  subst it. destruct (scan_spec (Z.to_nat (p_cnt (pages m p))) 0 (fun i => val_key s junk m p i <? k)) as (j & H1 & E2 & H2 & H3). rewrite E2. rewrite Hn in H1, H3.
  assert (KA : forall a b, i = a ++ b -> zl a <= j -> forall x, In x (keys a) -> x < k).
  { intros a b Ei Hl x Hx. unfold keys in Hx. apply in_map_iff in Hx. destruct Hx as (y & <- & Hy). apply in_split in Hy. destruct Hy as (a1 & a2 & ->).
    destruct (VV y) as (kk & vv & -> & _). { rewrite Ei. apply in_or_app; right. apply in_or_app; left. apply in_or_app; left. apply in_or_app; right; left; auto. }
    rewrite Ei, <- app_assoc in H, Hi. cbn [app] in H, Hi. rewrite zl_app, zl_cons in Hl. pose proof (zl_pos a1). pose proof (zl_pos a2).
    specialize (H2 (zl a1) ltac:(lia)). cbn beta in H2. rewrite (val_slot _ _ _ _ _ _ H Hi) in H2. cbn. lia. }
  destruct (Z.eq_dec j (zl i)) as [Ej|Nj].
  - (* behind the last item *)
    exists u, i, [], v. rewrite app_nil_r. split; [exact EL|]. split; [rewrite <- Ej; reflexivity|]. split.
    { intros x Hx. rewrite keys_app in Hx. apply in_app_or in Hx. destruct Hx as [Hx|Hx]; [auto|]. apply (KA i [] ltac:(rewrite app_nil_r; auto) ltac:(lia)); auto. }
    split; [auto|]. right. cbn [f_ok]. split; [|exact BV].
    assert (KP : 0 < k). { destruct i as [|y i]; [congruence|]. destruct (VV y) as (kk & vv & -> & Hkk); [apply in_or_app; right; left; auto|]. specialize (KA (IVal kk vv :: i) [] ltac:(rewrite app_nil_r; auto) ltac:(lia) kk ltac:(left; auto)). lia. }
    rewrite Ej. unfold val_key. destruct (Z.leb_spec capV (zl i)); [apply Z.eqb_neq; apply HJ|]. pose proof (zl_pos i).
    destruct (p_arr (pages m p) (zl i)) as [k0 v0|k0 p0|s0 n0|p0|] eqn:ES; try (apply Z.eqb_neq; apply HJ); [|apply Z.eqb_neq; lia].
    destruct (b_stale _ _ B _ _ _ _ ES) as (u0 & i0 & w0 & E0 & HW0).
    assert (u = u0). { eapply page_once; [|rewrite <- EL; exact E0]. rewrite <- EL. apply (w_nd _ _ _ (base_W _ _ B)); auto. } subst u0.
    rewrite EL in E0. apply app_inv_head in E0. injection E0 as <- <-. destruct HW0 as (q & jj & w' & -> & Hq); [lia|].
    destruct Hv' as [|(q' & j' & v' & EE & Hj)]; [discriminate|]. injection EE as -> -> ->. apply Z.eqb_neq. lia.
  - pose proof (zl_pos i). destruct (cut i j ltac:(lia)) as (a & y & b & Ei & El). destruct (VV y) as (k0 & v0 & -> & _). { rewrite Ei. apply in_or_app; right. apply in_or_app; left. apply in_or_app; right; left; auto. }
    rewrite Ei in H, Hi. pose proof (val_slot _ _ _ _ _ _ H Hi) as VS. rewrite El in VS.
    exists u, a, (IVal k0 v0 :: b), v. split; [rewrite <- Ei; exact EL|]. split; [rewrite El; reflexivity|]. split.
    { intros x Hx. rewrite keys_app in Hx. apply in_app_or in Hx. destruct Hx as [Hx|Hx]; [auto|]. apply (KA a (IVal k0 v0 :: b) Ei ltac:(lia)); auto. }
    specialize (H3 ltac:(lia)). cbn beta in H3. cbn [f_ok]. rewrite VS in H3 |- *.
    split.
    + destruct Hu as [|Hu]; [auto|]. right. destruct a as [|a0 a]; [|left; discriminate]. right. rewrite Ei in Hu. cbn in Hu. apply Z.eqb_eq. lia.
    + destruct (Z.eqb_spec k0 k) as [->|Nk]; [left; eauto|right]. split; [auto|]. intros y Hy. rewrite keys_app in Hy. apply in_app_or in Hy. destruct Hy as [Hy|Hy]; [|auto].
      rewrite Ei, keys_app in Si. apply srt_app in Si. destruct Si as (_ & Si & _). cbn [keys map item_key] in Si, Hy. apply srt_cons in Si. destruct Hy as [<-|Hy]; [lia|]. destruct Si as (_ & Si). specialize (Si y Hy). lia.
Qed.

Definition calm (m : mem item) : mem item := set_tot (set_st m c_path (mkState page_nil page_nil)) c_path 0.
Lemma states_last m n : states m 0 (S n) = states m 0 n ++ [IState (sts m (c_level n)) (tots m (c_level n))].
Proof. unfold states. rewrite seq_S, map_app. reflexivity. Qed.
Lemma states_len m a n : length (states m a n) = n. Proof. unfold states. rewrite map_length, seq_length. reflexivity. Qed.

Lemma find_ok m L n l k : Map (calm m) L n l -> L c_path = [] -> fsize m + Z.of_nat n <= room m -> (forall m q x, junk m q x <> k) ->
  exists m' ps f P, find2 s junk m k = COk (m', f) /\ Map m' (upd L c_path ps) n l /\ flat ps = map IPath P /\ room m' = room m /\ fsize m <= fsize m' <= fsize m + Z.of_nat n /\
    ((l = [] /\ f = mkF no_itr false /\ L c_vals = [] /\ n = O) \/ exists p, found L k f p /\ links L n P p).
Proof.
  intros M EP Hr HJ. unfold find2. fold (calm m). change (fsize m) with (fsize (calm m)) in *. change (room m) with (room (calm m)) in *. set (m0 := calm m) in *. clearbody m0.
  pose proof M as [[B R S N] Fv Sr Po To Ix]. pose proof B as [I P Z0 St]. pose proof (n_W _ _ _ I) as Wm.
  assert (H2 : c_keys <> 0) by discriminate. pose proof (base_good _ _ _ B H2) as G2. pose proof (ts_cap c_keys) as C2.
  assert (TN : tots m0 c_keys = Z.of_nat n). { rewrite (n_tot _ _ _ I) by auto. rewrite S. unfold zl. rewrite states_len. reflexivity. }
  rewrite (empty_ok m0 L [] c_keys (t_cap (ts c_keys)) Wm H2 G2), S.
  destruct n as [|n].
  - cbn [states seq map negb]. cbn [cbind]. rewrite (W_states _ _ _ c_vals Wm ltac:(discriminate)). cbn [front].
    destruct To as [(El & _)|(r & i & ET)].
    + assert (ET : L c_vals = []).
      { destruct (L c_vals) as [|[p i] w] eqn:E in |- *; auto. exfalso. pose proof (base_good _ _ c_vals B ltac:(discriminate)) as G. rewrite E in G. apply good_cons in G. destruct G as (Ni & _). rewrite E, flat_cons, El in Fv. apply app_eq_nil in Fv. tauto. }
      rewrite ET. cbn [pgs map hd]. rewrite Z.eqb_refl. exists m0, [], (mkF no_itr false), []. split; [reflexivity|].
      split; [apply (map_path m0 m0 L [] 0 l); auto|split; [reflexivity|split; [auto|split; [lia|left; auto]]]].
      eapply base_ext; [|exact B]. intro d. apply keep_upd. auto.
    + cbn [below] in ET. rewrite ET. cbn [pgs map hd fst]. destruct (page_bnd m0 L [] c_vals [] r i [] Wm ltac:(discriminate) ET). destruct (Z.eqb_spec r page_nil); [lia|].
      pose proof (page_ok m0 L 0 l k r M) as PO. cbn zeta in PO. eexists m0, [], _, []. split; [reflexivity|].
      split; [apply (map_path m0 m0 L [] 0 l); auto|split; [reflexivity|split; [auto|split; [lia|right; exists r; split; [apply PO; auto|exact Logic.I]]]]].
      * eapply base_ext; [|exact B]. intro d. apply keep_upd. auto.
      * exists [], i, []. auto.
  - destruct To as [(_ & ?)|(r & i & ET)]; [discriminate|]. cbn [below] in ET. destruct (level_pos n) as (Hn0 & _).
    change (states m0 0 (Datatypes.S n)) with (IState (sts m0 (c_level 0)) (tots m0 (c_level 0)) :: states m0 1 n) at 1. cbn [negb].
    rewrite (back_ok m0 L [] c_keys (t_cap (ts c_keys)) Wm H2 G2 ltac:(lia)). rewrite S, states_last. unfold last_item. rewrite rev_app_distr. cbn [rev app hd_error].
    rewrite (W_states _ _ _ (c_level n) Wm Hn0), ET. cbn [pgs map hd fst front].
    destruct (base_push m0 L c_path (IPath r) B ltac:(discriminate) ltac:(discriminate) ltac:(lia) eq_refl (or_introl path_end)) as (m1 & r1 & ps1 & E1 & B1 & R1 & SZ1 & F1 & _ & T1).
    change (ts c_path) with t_path in E1. rewrite E1. cbn [done cbind].
    change (c_size c_keys m1) with (tots m1 c_keys). rewrite T1, TN by discriminate. rewrite Nat2Z.id.
    pose proof (map_path m0 m1 L ps1 _ l M B1 R1 T1) as M1.
    destruct (descend_ok n m1 (upd L c_path ps1) r k [r] B1) as (m2 & ps & z & rest & E2 & B2 & F2 & Az & Ls & R2 & SZ2 & T2).
    { intros j Hj. apply (p_index _ _ _ _ M1). lia. } { rewrite level_path. exists [], i, []. auto. } { rewrite upd_same, F1, EP. reflexivity. } { lia. }
    rewrite E2. cbn [cbind]. rewrite upd_other in Az by discriminate.
    assert (B2' : Base m2 (upd L c_path ps)).
    { eapply base_ext; [|exact B2]. intro d. rewrite !upd_eq. destruct (d =? c_path); reflexivity. }
    pose proof (map_path m0 m2 L ps _ l M B2' ltac:(congruence) ltac:(intros d Hd; rewrite T2, T1; auto)) as M2.
    assert (HZ : z =? page_nil = false). { destruct Az as (u & j & v & EZ & _). destruct (page_bnd m0 L [] c_vals u z j v Wm ltac:(discriminate) EZ). apply Z.eqb_neq. lia. }
    rewrite HZ. pose proof (page_ok m2 _ _ l k z M2) as PO. cbn zeta in PO. eexists m2, ps, _, (r :: rest). split; [reflexivity|].
    split; [exact M2|]. split; [rewrite F2; reflexivity|]. split; [congruence|]. split; [lia|]. right. exists z. split.
    + rewrite upd_other in PO by discriminate. specialize (PO Az (HJ m2)). destruct PO as (u & a & b & v & EE & PO). rewrite upd_other in EE by discriminate. exists u, a, b, v. auto.
    + eapply links_ext; [|exact Ls]. intro. apply level_path.
Qed.

(** * Positions of iterators *)
Definition loc (L : layout item) (c : Z) (k : nat) (i : citr) : Prop :=
  exists u p a x b v, L c = u ++ (p, a ++ x :: b) :: v /\ length (flat u ++ a) = k /\ i = mkI true p (zl a) E_none.
Lemma base_itr m L c k i : Base m L -> c <> 0 -> loc L c k i -> i = itr_at m c k.
Proof.
  intros B Hc (u & p & a & x & b & v & E & El & ->). pose proof (ts_cap c). symmetry.
  apply (itr_loc m L [] c (t_cap (ts c)) (base_W _ _ B) Hc (base_good _ _ _ B Hc) ltac:(lia) k u p a x b v E El).
Qed.
Lemma itr_base m L c k : Base m L -> c <> 0 -> (k < length (flat (L c)))%nat -> loc L c k (itr_at m c k).
Proof.
  intros B Hc Hl. destruct (locate (L c) k Hl) as (u & p & a & x & b & v & E & El). exists u, p, a, x, b, v. split; [auto|]. split; [auto|].
  symmetry. symmetry. pose proof (ts_cap c). apply (itr_loc m L [] c (t_cap (ts c)) (base_W _ _ B) Hc (base_good _ _ _ B Hc) ltac:(lia) k u p a x b v E El).
Qed.
Lemma loc_next m L c k i : Base m L -> c <> 0 -> loc L c k i -> (S k < length (flat (L c)))%nat -> loc L c (S k) (c_next c m i).
Proof. intros B Hc H Hl. rewrite (base_itr _ _ _ _ _ B Hc H). change (c_next c m (itr_at m c k)) with (itr_at m c (S k)). apply itr_base; auto. Qed.
Lemma loc_prev m L c k i : Base m L -> c <> 0 -> loc L c (S k) i -> loc L c k (c_prev c m i).
Proof.
  intros B Hc (u & p & a & x & b & v & E & Hk' & ->). pose proof (ts_cap c). pose proof (base_W _ _ B) as Wm. pose proof (base_good _ _ _ B Hc) as G. assert (Hcap : t_cap (ts c) <= 65534) by lia.
  destruct a as [|y a' _] using rev_ind.
  - destruct u as [|[q i] u' _] using rev_ind; [cbn in Hk'; lia|].
    assert (E' : L c = u' ++ (q, i) :: (p, [] ++ x :: b) :: v) by (rewrite E, <- app_assoc; reflexivity).
    destruct (page_good L c _ G _ _ _ _ E') as (Hn & _). destruct i as [|z i' _] using rev_ind; [congruence|].
    change (zl (@nil item)) with 0. rewrite (prev_out m L [] c _ Wm Hc G Hcap _ _ _ _ _ _ _ E'). exists u', q, i', z, [], ((p, [] ++ x :: b) :: v). split; [exact E'|]. split; [|reflexivity].
    rewrite flat_app, !app_length in *. cbn in Hk'. rewrite app_nil_r in Hk'. rewrite app_length in Hk'. cbn in Hk'. lia.
  - rewrite (prev_in m L [] c Wm Hc _ _ _ _ _ _ _ E). exists u, p, a', y, (x :: b), v. split; [rewrite E, <- app_assoc; reflexivity|]. split; [|reflexivity].
    rewrite !app_length in *. cbn in Hk'. lia.
Qed.
Lemma split_len {B} (a c : list B) : forall x y b d, a ++ x :: b = c ++ y :: d -> length a = length c -> a = c /\ x = y /\ b = d.
Proof.
  revert c. induction a as [|w a IH]; intros [|z c] x y b d E Hl; cbn in *; try lia.
  - injection E. auto.
  - injection E as -> E. injection Hl as Hl. destruct (IH c _ _ _ _ E Hl) as (-> & -> & ->). auto.
Qed.
Lemma loc_item m L c k i l1 x l2 : Base m L -> c <> 0 -> loc L c k i -> flat (L c) = l1 ++ x :: l2 -> length l1 = k ->
  c_deref m i = Some x /\ citr_eqb i (c_end c m) = false /\ citr_eqb i (c_rbegin c m) = false.
Proof.
  intros B Hc (u & p & a & y & b & v & E & El & ->) EF E1. pose proof (ts_cap c).
  destruct (loc_facts m L [] c (t_cap (ts c)) (base_W _ _ B) Hc (base_good _ _ _ B Hc) ltac:(lia) u p a y b v E) as (_ & D & F1 & F2).
  split; [|auto]. rewrite D. f_equal. rewrite E, flat_app, flat_cons, <- app_assoc, app_assoc in EF. cbn [app] in EF.
  destruct (split_len _ _ _ _ _ _ EF ltac:(congruence)) as (_ & EE & _). exact EE.
Qed.

(** the state of a level goes back to the stack *)
Lemma store_ok m L lev i l1 x l2 : Base m L -> loc L c_keys (length l1) i -> flat (L c_keys) = l1 ++ x :: l2 ->
  exists ps, Base (store_level m lev i) (upd L c_keys ps) /\ flat ps = l1 ++ IState (sts m (c_level lev)) (tots m (c_level lev)) :: l2 /\ loc (upd L c_keys ps) c_keys (length l1) i.
Proof.
  intros B (u & p & a & y & b & v & E & El & ->) EF. set (st := IState (sts m (c_level lev)) (tots m (c_level lev))). assert (Hc : c_keys <> 0) by discriminate.
  pose proof B as [I P Zm St]. pose proof (n_W _ _ _ I) as Wm.
  set (m' := store_level m lev (mkI true p (zl a) E_none)).
  assert (ES : l1 = flat u ++ a /\ l2 = b ++ flat v).
  { rewrite E, flat_app, flat_cons, <- app_assoc, app_assoc in EF. cbn [app] in EF. destruct (split_len _ _ _ _ _ _ EF ltac:(congruence)) as (F1 & _ & F2). auto. }
  destruct ES as (E1 & E2). pose proof (page_items _ _ _ _ _ _ _ _ Wm Hc E) as H.
  assert (PG : pages m' p = mkPage (Linked_Model.p_pos (pages m p)) (p_prev (pages m p)) (p_next (pages m p)) (p_cnt (pages m p)) (upd (p_arr (pages m p)) (zl a) st)).
  { unfold m', store_level, set_arr, set_page. cbn [pages i_page i_item]. apply upd_same. }
  assert (Hj : holds (pages m' p) (a ++ st :: b)).
  { destruct H as (H1 & H2). rewrite PG. split; cbn [p_cnt p_arr].
    - rewrite H1, !app_length. reflexivity.
    - apply tab_split in H2. destruct H2 as (H2 & H3). apply tab_join.
      + etransitivity; [|exact H2]. apply tab_ext. intros k Hk'. apply upd_other. unfold zl. lia.
      + change (length (st :: b)) with (1 + length b)%nat. change (length (y :: b)) with (1 + length b)%nat in H3. rewrite tab_app, tab_one in H3 |- *. cbn [app] in H3 |- *. injection H3 as _ H3. f_equal; [apply upd_same|].
        etransitivity; [|exact H3]. apply tab_ext. intros k Hk'. apply upd_other. unfold zl. lia. }
  assert (OT : forall q, q <> p -> pages m' q = pages m q). { intros q Hq. unfold m', store_level, set_arr, set_page. cbn [pages i_page]. apply upd_other; auto. }
  assert (SL : forall z, same_links (pages m) (pages m') z).
  { intro z. destruct (Z.eq_dec z p) as [->|N]; [|unfold same_links; rewrite OT; auto]. unfold same_links. rewrite PG. auto. }
  exists (u ++ (p, a ++ st :: b) :: v). split; [|split].
  - constructor.
    + constructor; auto; [eapply W_items_of; eauto|..].
      * intros d Hd. rewrite upd_eq. destruct (Z.eqb_spec d c_keys); [subst d|apply (n_good _ _ _ I); auto].
        pose proof (n_good _ _ _ I _ Hc) as G. rewrite E in G. apply good_app in G. destruct G as (Gu & G). apply good_cons in G. destruct G as (_ & Gl & Gv).
        apply good_app. split; [auto|]. apply good_cons. split; [destruct a; discriminate|]. split; [rewrite !zl_app, !zl_cons in *; lia|auto].
      * apply (n_cap _ _ _ I).
      * intros d Hd. change (tots m' d) with (tots m d). rewrite (n_tot _ _ _ I) by auto. rewrite upd_eq. destruct (Z.eqb_spec d c_keys); [subst d|auto]. rewrite E, !flat_app, !flat_cons, !zl_app, !zl_cons. lia.
      * apply (n_room _ _ _ I).
    + eapply (proper_links m); [exact P|exact SL|reflexivity|reflexivity|]. intros z Hz. eapply used_same; [|exact Hz]. intros d Hd. rewrite upd_eq. destruct (Z.eqb_spec d c_keys); [subst d|auto]. rewrite E, !pgs_app. reflexivity.
    + exact Zm.
    + intros z x0 k vv Ez. rewrite upd_other by discriminate. apply (St z x0 k vv). destruct (Z.eq_dec z p) as [->|N]; [|rewrite OT in Ez by auto; exact Ez].
      rewrite PG in Ez. cbn [p_arr] in Ez. rewrite upd_eq in Ez. destruct (x0 =? zl a); [discriminate|exact Ez].
  - rewrite flat_app, flat_cons, <- app_assoc, app_assoc, E1, E2. reflexivity.
  - exists u, p, a, st, b, v. rewrite upd_same. auto.
Qed.

(** * Up the levels *)
Lemma key_pos_ok m p a b k : holds (pages m p) (a ++ b) -> Forall is_key (a ++ b) -> (forall x, In x (keys a) -> x < k) -> (forall y, In y (keys b) -> k <= y) ->
  key_item_pos junk m p k = zl a.
Proof.
  intros H F Ha Hb. unfold key_item_pos. destruct (scan_spec (Z.to_nat (p_cnt (pages m p))) 0 (fun i => key_key junk m p i <? k)) as (j & H1 & -> & H2 & H3).
  pose proof H as (Hn & _). fold (zl (a ++ b)) in Hn. rewrite Hn in H1, H3. pose proof (zl_pos a). pose proof (zl_pos b).
  assert (KK : forall l1 x l2, a ++ b = l1 ++ x :: l2 -> key_key junk m p (zl l1) = item_key x).
  { intros l1 x l2 E. rewrite E in H, F. unfold key_key. rewrite (slot _ _ _ _ H). apply Forall_app in F. destruct F as (_ & F). inversion F as [|? ? (kk & pp & ->) _]. reflexivity. }
  destruct (Z.lt_trichotomy j (zl a)) as [C|[C|C]]; [|auto|].
  - exfalso. destruct (cut a j ltac:(lia)) as (l1 & x & l2 & E & El). specialize (H3 ltac:(rewrite zl_app; lia)). cbn beta in H3.
    rewrite <- El, (KK l1 x (l2 ++ b)) in H3 by (rewrite E, <- app_assoc; reflexivity). specialize (Ha (item_key x)). rewrite E in Ha. apply Z.ltb_ge in H3. assert (item_key x < k); [|lia]. apply Ha. unfold keys. apply in_map. apply in_or_app; right; left; auto.
  - exfalso. specialize (H2 (zl a) ltac:(lia)). cbn beta in H2. destruct b as [|x b]; [rewrite app_nil_r in H1; lia|].
    rewrite (KK a x b eq_refl) in H2. specialize (Hb (item_key x) ltac:(left; auto)). lia.
Qed.
Lemma climb_none n lev ins m ki pi l0 l1 : k_op l0 = Lnone -> k_op l1 = Lnone -> climb s junk n lev ins m ki pi l0 l1 = COk (m, (true, l0, l1)).
Proof. intros E0 E1. destruct n; cbn [climb]; [reflexivity|]. rewrite E0, E1. reflexivity. Qed.
Lemma states_split m j r : states m 0 (j + S r) = states m 0 j ++ IState (sts m (c_level j)) (tots m (c_level j)) :: states m (S j) r.
Proof. unfold states. rewrite seq_app, map_app. reflexivity. Qed.
Lemma level_inj i j : c_level i = c_level j -> i = j. Proof. unfold c_level. lia. Qed.
Lemma level_keys L (ps : list (Z * list item)) j : upd L c_keys ps (c_level j) = L (c_level j).
Proof. apply upd_other. destruct (level_pos j) as (_ & _ & H' & _). exact H'. Qed.
Lemma below_keys L (ps : list (Z * list item)) j : upd L c_keys ps (below j) = L (below j).
Proof. apply upd_other. destruct (below_pos j) as (_ & H' & _). exact H'. Qed.
Lemma head_same (a1 a2 c : list item) y b b' : a1 ++ a2 = c ++ y :: b -> a1 <> [] -> first_key a1 = first_key (c ++ y :: b').
Proof. destruct a1 as [|w a1]; [congruence|]. destruct c as [|z c]; intros E _; cbn in E; injection E as -> _; reflexivity. Qed.

Definition grown (L L' : layout item) (n : nat) (l0 l1 : klead) : Prop :=
  (k_page l0 = page_nil /\ top L' n) \/
  exists p a1 q a2, L' (below n) = [(p, a1); (q, a2)] /\ k_page l0 <> page_nil /\ l0 = mkKL Linsert q (first_key a2) 0 /\ l1 = mkKL Loriginal p (first_key a1) 0.
Lemma climb_ok r : forall j m L n ki pi l0 l1 ub p a1 q a2 vb rp pre,
  (j + r = n)%nat -> Mid m L n -> L (below j) = ub ++ (p, a1) :: (q, a2) :: vb -> (r = O -> ub = [] /\ vb = []) ->
  (r <> O -> flat (L (c_level j)) = index ub ++ IKey (first_key a1) p :: index vb) ->
  (forall i, (i < n)%nat -> i <> j -> indexed L i) -> (r <> O -> top L n) -> srt (keys (flat (L (below j)))) ->
  (r <> O -> loc L c_keys j ki) -> trail L j p rp -> length rp = r -> flat (L c_path) = map IPath (rev rp ++ pre) -> (r <> O -> loc L c_path (r - 1) pi) ->
  l0 = mkKL Linsert q (first_key a2) 0 -> l1 = mkKL Loriginal p (first_key a1) 0 -> fsize m + Z.of_nat r <= room m ->
  exists m' L' l0' l1', climb s junk r j true m ki pi l0 l1 = COk (m', (true, l0', l1')) /\ Mid m' L' n /\ L' c_vals = L c_vals /\ L' c_path = L c_path /\
    room m' = room m /\ fsize m <= fsize m' <= fsize m + Z.of_nat r /\ (forall i, (i < n)%nat -> indexed L' i) /\ grown L L' n l0' l1'.
Proof.
  induction r as [|r IH]; intros j m L n ki pi l0 l1 ub p a1 q a2 vb rp pre En M EB H0 HF HI HT HS HK TR ER EP HP E0 E1 SZ.
  - exists m, L, l0, l1. cbn [climb]. split; [reflexivity|]. split; [auto|]. split; [auto|]. split; [auto|]. split; [auto|]. split; [lia|]. split; [intros i Hi; apply HI; lia|].
    right. destruct (H0 eq_refl) as (-> & ->). exists p, a1, q, a2. replace n with j by lia. split; [exact EB|]. split; [|auto].
    destruct (below_pos j) as (Hc & _). pose proof (page_bnd m L [] (below j) [(p, a1)] q a2 [] (base_W _ _ (d_base _ _ _ M)) Hc EB). rewrite E0. cbn. lia.
  - specialize (HF ltac:(lia)). specialize (HT ltac:(lia)). specialize (HK ltac:(lia)). specialize (HP ltac:(lia)). replace (S r - 1)%nat with r in HP by lia.
    pose proof M as [B R S N]. destruct rp as [|page rp]; [discriminate|]. injection ER as ER. destruct TR as (LK & TR). assert (H2 : c_keys <> 0) by discriminate. assert (H3 : c_path <> 0) by discriminate.
    rewrite <- En, states_split in S.
    destruct (loc_item m L c_keys j ki _ _ _ B H2 HK S (states_len _ _ _)) as (DK & EK & _).
    cbn [rev] in EP. rewrite <- app_assoc, map_app in EP. cbn [app map] in EP.
    assert (LP : length (map (@IPath V) (rev rp)) = r) by (rewrite map_length, rev_length; auto).
    destruct (loc_item m L c_path r pi _ _ _ B H3 HP EP LP) as (_ & _ & EPB).
    subst l0 l1. cbn [climb]. cbn [k_op is_none negb orb]. rewrite EK, EPB. cbn [negb andb].
    unfold load_level at 1. rewrite DK. cbn [cbind].
    set (c := c_level j) in *. destruct (level_pos j) as (Hc & Hc1 & Hc2 & Hc3). fold c in Hc, Hc1, Hc2, Hc3.
    pose proof (base_reset m L c _ _ B eq_refl eq_refl) as B1. set (m1 := set_tot (set_st m c (sts m c)) c (tots m c)) in *.
    assert (T1 : forall d, tots m1 d = tots m d) by (intro d; apply keep_upd; reflexivity).
    assert (F1 : fsize m1 = fsize m) by reflexivity. assert (R1 : room m1 = room m) by reflexivity. clearbody m1.
    destruct (loc_item m1 L c_path r pi _ _ _ B1 H3 HP EP LP) as (DP & _). rewrite DP.
    (* the parent page *)
    destruct LK as (u & i & v & f & EL & Hi). fold c in EL. apply in_split in Hi. destruct Hi as (i1 & i2 & Ei).
    destruct (below_pos j) as (Hb & Hb2 & Hb3). pose proof (base_good _ _ _ B Hb) as GB.
    assert (NB : below j <> c). { intro X. apply below_level in X. lia. }
    assert (ND : NoDup (pgs (ub ++ (p, a1) :: vb))).
    { pose proof (w_nd _ _ _ (base_W _ _ B) _ Hb) as ND. rewrite EB, pgs_app in ND. rewrite pgs_app. cbn [pgs map fst] in ND |- *. change (p :: q :: map fst vb) with ([p] ++ q :: map fst vb) in ND. rewrite app_assoc in ND. apply NoDup_remove_1 in ND. rewrite <- app_assoc in ND. exact ND. }
    assert (EX : flat u ++ i1 = index ub /\ f = first_key a1 /\ i2 ++ flat v = index vb).
    { apply (index_unique ub p a1 vb (flat u ++ i1) f (i2 ++ flat v) ND). rewrite index_app. cbn [index map fst snd]. change (map (fun e : Z * list (mitem V) => IKey (first_key (snd e)) (fst e)) vb) with (index vb). rewrite <- HF, EL, Ei, flat_app, flat_cons, <- !app_assoc. reflexivity. }
    destruct EX as (X1 & -> & X2).
    assert (SI : srt (keys (index (ub ++ (p, a1) :: (q, a2) :: vb)))). { rewrite <- EB. eapply index_srt; eauto. }
    rewrite index_app in SI. cbn [index map fst snd] in SI. change (map (fun e : Z * list (mitem V) => IKey (first_key (snd e)) (fst e)) vb) with (index vb) in SI.
    rewrite <- X1, <- X2 in SI.
    set (x := IKey (first_key a2) q : item) in *. set (y := IKey (first_key a1) p : item) in *.
    assert (SS : srt (keys (flat u ++ (i1 ++ [y]) ++ x :: i2 ++ flat v))). { rewrite <- !app_assoc in *. exact SI. }
    pose proof SS as SS'. rewrite !keys_app in SS'. apply srt_app in SS'. destruct SS' as (_ & SS' & _). apply srt_app in SS'. destruct SS' as (_ & SS' & SL). cbn [keys map] in SS'. apply srt_cons in SS'. destruct SS' as (_ & SR).
    assert (EI : i = (i1 ++ [y]) ++ i2) by (rewrite <- app_assoc; exact Ei). rewrite EI in EL.
    pose proof (page_items _ _ _ _ _ _ _ _ (base_W _ _ B1) Hc EL) as HH.
    assert (FK : Forall is_key ((i1 ++ [y]) ++ i2)).
    { pose proof (index_is_key (ub ++ (p, a1) :: vb)) as FK. rewrite index_app in FK. cbn [index map fst snd] in FK. change (map (fun e : Z * list (mitem V) => IKey (first_key (snd e)) (fst e)) vb) with (index vb) in FK.
      rewrite <- X1, <- X2 in FK. fold y in FK. rewrite <- app_assoc. apply Forall_app in FK. destruct FK as (FK1 & FK2). apply Forall_app in FK1. inversion FK2 as [|? ? FK3 FK4]. apply Forall_app in FK4. apply Forall_app. split; [tauto|]. apply Forall_app. split; [constructor; auto|tauto]. }
    assert (KP : key_item_pos junk m1 page (first_key a2) = zl (i1 ++ [y])).
    { apply (key_pos_ok m1 page (i1 ++ [y]) i2); auto.
      - intros z Hz. rewrite keys_app in Hz. apply (SL z (first_key a2)); [exact Hz|left; reflexivity].
      - intros z Hz. apply Z.lt_le_incl. apply SR. change (In z (keys (i2 ++ flat v))). rewrite keys_app. apply in_or_app; left; auto. }
    unfold parent_insert. fold c. cbn [k_0 k_page]. rewrite KP. fold x.
    destruct (base_ins m1 L j u page (i1 ++ [y]) i2 v x B1 EL ltac:(lia) eq_refl) as (m2 & rr & ps & EI2 & B2 & R2 & SZ2 & OK2 & T2 & SH). fold c in EI2, B2, T2. rewrite EI2, OK2.
    (* the state of the level goes to the stack *)
    set (L2 := upd L c ps) in *.
    assert (K2 : L2 c_keys = L c_keys) by (apply upd_other; auto).
    assert (S2 : flat (L2 c_keys) = states m 0 j ++ IState (sts m c) (tots m c) :: states m (Datatypes.S j) r) by (rewrite K2; exact S).
    assert (LK2 : loc L2 c_keys (length (states m 0 j)) ki) by (rewrite states_len; unfold loc; rewrite K2; exact HK).
    destruct (store_ok m2 L2 j ki _ _ _ B2 LK2 S2) as (ks & B3 & F3 & L3k). rewrite states_len in L3k. set (m3 := store_level m2 j ki) in *. set (L3 := upd L2 c_keys ks) in *. fold c in F3.
    assert (T3 : forall d, tots m3 d = tots m2 d) by reflexivity. assert (SZ3 : fsize m3 = fsize m2) by reflexivity. assert (R3 : room m3 = room m2) by reflexivity. clearbody m3.
    assert (LC : L3 c = ps). { unfold L3. rewrite upd_other by auto. apply upd_same. }
    assert (LO : forall d, d <> c -> d <> c_keys -> L3 d = L d). { intros d D1 D2. unfold L3. rewrite upd_other by auto. apply upd_other; auto. }
    assert (LLV : forall i0, i0 <> j -> L3 (c_level i0) = L (c_level i0)). { intros i0 Hi0. destruct (level_pos i0) as (_ & _ & Q2 & _). apply LO; auto. intro X. apply level_inj in X. auto. }
    assert (LBE : forall i0, i0 <> Datatypes.S j -> L3 (below i0) = L (below i0)). { intros i0 Hi0. destruct (below_pos i0) as (_ & Q2 & _). apply LO; auto. intro X. apply below_level in X. auto. }
    assert (M3 : Mid m3 L3 n).
    { constructor; auto; [lia| |].
      - unfold L3 at 1. rewrite upd_same, F3, <- En, states_split. fold c. f_equal; [|f_equal].
        + symmetry. apply states_ext. intros i0 Hi0. destruct (level_pos i0) as (Q0 & _). split; [eapply (base_sts m m3 L L3); eauto; apply LLV; lia|]. rewrite T3, T2, T1; auto. intro X. apply level_inj in X. lia.
        + f_equal; [|symmetry; apply T3]. symmetry. eapply (base_sts m2 m3 L2 L3); eauto. unfold L3. apply upd_other; auto.
        + symmetry. apply states_ext. intros i0 Hi0. destruct (level_pos i0) as (Q0 & _). split; [eapply (base_sts m m3 L L3); eauto; apply LLV; lia|]. rewrite T3, T2, T1; auto. intro X. apply level_inj in X. lia.
      - intros i0 Hi0. rewrite LLV by lia. apply N. auto. }
    assert (PF : flat ps = index (L (below j))).
    { rewrite EB, index_app. cbn [index map fst snd]. change (map (fun e : Z * list (mitem V) => IKey (first_key (snd e)) (fst e)) vb) with (index vb). rewrite <- X1, <- X2. fold x y.
      destruct SH as [(-> & _)|(q' & b1 & b2 & -> & EE & _)].
      - rewrite flat_app, flat_cons, <- !app_assoc. reflexivity.
      - rewrite flat_app, !flat_cons, (app_assoc b1), EE, <- !app_assoc. reflexivity. }
    assert (IJ : indexed L3 j). { unfold indexed. fold c. rewrite LC, LBE by lia. exact PF. }
    assert (IO : forall i0, (i0 < n)%nat -> i0 <> Datatypes.S j -> indexed L3 i0).
    { intros i0 Hi0 Ni0. destruct (Nat.eq_dec i0 j) as [->|Nj]; [exact IJ|]. unfold indexed. rewrite LLV, LBE by auto. apply HI; auto. }
    assert (P3 : L3 c_path = L c_path) by (apply LO; auto; discriminate). assert (V3 : L3 c_vals = L c_vals) by (apply LO; auto; discriminate).
    destruct SH as [(EPS & G0 & G1)|(q' & b1 & b2 & EPS & EE & N1 & N2 & Nq & G0 & G1)].
    + (* the page had room *)
      exists m3, L3, (to_klead (r_l0 rr)), (to_klead (r_l1 rr)). rewrite climb_none by (rewrite ?G0, ?G1; reflexivity).
      split; [reflexivity|]. split; [exact M3|]. split; [exact V3|]. split; [exact P3|]. split; [lia|]. split; [lia|].
      assert (IX : index ps = index (L c)).
      { rewrite EPS, EL, !index_app. cbn [index map fst snd]. do 3 f_equal. rewrite <- !app_assoc. cbn [app]. destruct i1; reflexivity. }
      split.
      * intros i0 Hi0. destruct (Nat.eq_dec i0 (Datatypes.S j)) as [->|Ni]; [|apply IO; auto]. unfold indexed. rewrite LLV by lia. rewrite below_level_S. fold c. rewrite LC, IX. apply (HI (Datatypes.S j)); lia.
      * left. rewrite G0. split; [reflexivity|]. destruct HT as (r0 & i0 & ET). destruct (Nat.eq_dec n (Datatypes.S j)) as [->|Nn].
        -- rewrite below_level_S in ET. fold c in ET. rewrite EL in ET. destruct u as [|? [|? ?]]; try discriminate. destruct v; try discriminate. unfold top. rewrite below_level_S. fold c. rewrite LC, EPS. cbn [app]. eauto.
        -- exists r0, i0. rewrite LBE by auto. exact ET.
    + (* the page was split *)
      assert (FS : first_key b1 = first_key i). { rewrite Ei. rewrite <- app_assoc in EE. cbn [app] in EE. eapply head_same; eauto. }
      destruct (IH (Datatypes.S j) m3 L3 n (c_next c_keys m3 ki) (c_prev c_path m3 pi) (to_klead (r_l0 rr)) (to_klead (r_l1 rr)) u page b1 q' b2 v rp (page :: pre)) as (m' & L' & l0' & l1' & EC & M' & V' & P' & R' & SZ' & I' & GR).
      * lia.
      * exact M3.
      * rewrite below_level_S. fold c. rewrite LC. exact EPS.
      * intros ->. destruct HT as (r0 & i0 & ET). replace n with (Datatypes.S j) in ET by lia. rewrite below_level_S in ET. fold c in ET. rewrite EL in ET. destruct u as [|? [|? ?]]; try discriminate. destruct v; try discriminate. auto.
      * intro Nr. rewrite LLV by lia. rewrite (HI (Datatypes.S j)) by lia. rewrite below_level_S. fold c. rewrite EL, index_app. cbn [index map fst snd]. rewrite <- EI, FS. reflexivity.
      * auto.
      * intros Nr. destruct HT as (r0 & i0 & ET). exists r0, i0. rewrite LBE by lia. exact ET.
      * rewrite below_level_S. fold c. rewrite LC, PF. eapply index_srt; eauto.
      * intros Nr. apply (loc_next m3 L3 c_keys j ki); auto. unfold L3. rewrite upd_same, F3, app_length. cbn [length]. rewrite !states_len. lia.
      * eapply trail_ext; [|exact TR]. intros i0 Hi0. symmetry. apply LLV. lia.
      * exact ER.
      * rewrite P3. rewrite EP, map_app. reflexivity.
      * intros Nr. apply loc_prev; auto. unfold loc. rewrite P3. replace (Datatypes.S (r - 1)) with r by lia. exact HP.
      * rewrite G0. unfold to_klead. cbn. destruct b2; [congruence|reflexivity].
      * rewrite G1. unfold to_klead. cbn. destruct b1; [congruence|reflexivity].
      * lia.
      * exists m', L', l0', l1'. split; [exact EC|]. split; [exact M'|]. split; [congruence|]. split; [congruence|]. split; [lia|]. split; [lia|]. split; [exact I'|exact GR].
Qed.

(** a new level *)
Lemma new_ok m L n p a1 q a2 : Mid m L n -> L (below n) = [(p, a1); (q, a2)] -> (forall i, (i < n)%nat -> indexed L i) -> fsize m + 3 <= room m ->
  exists m' L', new_level s m n (mkKL Linsert q (first_key a2) 0) (mkKL Loriginal p (first_key a1) 0) = COk m' /\ Mid m' L' (S n) /\ L' c_vals = L c_vals /\ L' c_path = L c_path /\
    room m' = room m /\ fsize m <= fsize m' <= fsize m + 3 /\ (forall i, (i < S n)%nat -> indexed L' i) /\ top L' (S n).
Proof.
  intros M EB HI SZ. pose proof M as [B R S N]. set (c := c_level n). destruct (level_pos n) as (Hc & Hc1 & Hc2 & Hc3). fold c in Hc, Hc1, Hc2, Hc3.
  assert (EC : L c = []) by (apply N; lia).
  assert (Es : sts m c = mkState page_nil page_nil) by (rewrite (W_states _ _ _ c (base_W _ _ B) Hc), EC; reflexivity).
  assert (En : tots m c = 0) by (rewrite (n_tot _ _ _ (b_inv _ _ B)) by auto; rewrite EC; reflexivity).
  unfold new_level. fold c. cbn [k_0 k_page].
  pose proof (base_reset m L c _ _ B Es En) as B1. set (m1 := set_tot (set_st m c (mkState page_nil page_nil)) c 0) in *.
  assert (T1 : forall d, tots m1 d = tots m d) by (intro d; apply keep_upd; auto).
  assert (F1 : fsize m1 = fsize m) by reflexivity. assert (R1 : room m1 = room m) by reflexivity. clearbody m1.
  assert (Et : ts c = t_keys s) by apply ts_level.
  destruct (base_push m1 L c (IKey (first_key a1) p) B1 Hc Hc1 ltac:(lia) eq_refl) as (m2 & r2 & ps2 & E2 & B2 & R2 & SZ2 & FL2 & SH2 & T2). { right. rewrite EC, Et. change (0 < capK). lia. }
  rewrite Et in E2. rewrite E2. cbn [done cbind].
  assert (P2 : exists z, ps2 = [(z, [IKey (first_key a1) p])]).
  { destruct SH2 as [(z & -> & _)|(u & z & i & EE & _)]; [rewrite EC; exists z; reflexivity|]. rewrite EC in EE. destruct u; discriminate. }
  destruct P2 as (z & ->). set (L2 := upd L c [(z, [IKey (first_key a1) p])]) in *. assert (EC2 : L2 c = [(z, [IKey (first_key a1) p])]) by apply upd_same.
  destruct (base_push m2 L2 c (IKey (first_key a2) q) B2 Hc Hc1 ltac:(lia) eq_refl) as (m3 & r3 & ps3 & E3 & B3 & R3 & SZ3 & FL3 & SH3 & T3). { right. rewrite EC2, Et. change (1 < capK). lia. }
  rewrite Et in E3. rewrite E3. cbn [done cbind].
  assert (P3 : ps3 = [(z, [IKey (first_key a1) p; IKey (first_key a2) q])]).
  { destruct SH3 as [(z' & _ & [EE|EE])|(u & z' & i & EE & -> & _)]; [rewrite EC2 in EE; discriminate|rewrite EC2, Et in EE; change (capK <= 1) in EE; lia|].
    rewrite EC2 in EE. destruct u as [|? [|? ?]]; try discriminate. cbn in EE. injection EE as <- <-. reflexivity. }
  set (L3 := upd L2 c ps3) in *.
  destruct (base_push m3 L3 c_keys (IState (sts m3 c) (tots m3 c)) B3 ltac:(discriminate) ltac:(discriminate) ltac:(lia) eq_refl (or_introl eq_refl)) as (m4 & r4 & ps4 & E4 & B4 & R4 & SZ4 & FL4 & _ & T4).
  change (ts c_keys) with t_stack in E4. rewrite E4. cbn [done]. exists m4, (upd L3 c_keys ps4). split; [reflexivity|].
  assert (LC : upd L3 c_keys ps4 c = ps3). { rewrite upd_other by auto. apply upd_same. }
  assert (LO : forall d, d <> c -> d <> c_keys -> upd L3 c_keys ps4 d = L d). { intros d D1 D2. rewrite !upd_other by auto. unfold L3, L2. rewrite !upd_other by auto. reflexivity. }
  set (L4 := upd L3 c_keys ps4) in *.
  assert (LLV : forall i0, i0 <> n -> L4 (c_level i0) = L (c_level i0)). { intros i0 Hi0. destruct (level_pos i0) as (_ & _ & Q2 & _). apply LO; auto. intro X. apply level_inj in X. auto. }
  assert (LBE : forall i0, i0 <> Datatypes.S n -> L4 (below i0) = L (below i0)). { intros i0 Hi0. destruct (below_pos i0) as (_ & Q2 & _). apply LO; auto. intro X. apply below_level in X. auto. }
  split; [|split; [apply LO; auto; discriminate|split; [apply LO; auto; discriminate|split; [lia|split; [lia|split]]]]].
  - constructor; auto; [lia| |intros i0 Hi0; rewrite LLV by lia; apply N; lia].
    unfold L4 at 1. rewrite upd_same, FL4, states_last. unfold L3 at 1, L2 at 1. rewrite !upd_other by auto. rewrite S. fold c. f_equal; [|f_equal; f_equal].
    + symmetry. apply states_ext. intros i0 Hi0. destruct (level_pos i0) as (Q0 & _ & Q2 & _). assert (c_level i0 <> c) by (intro X; apply level_inj in X; lia).
      split; [eapply (base_sts m m4 L L4); eauto; apply LLV; lia|]. rewrite T4, T3, T2, T1; auto.
    + symmetry. eapply (base_sts m3 m4 L3 L4); eauto. unfold L4. apply upd_other; auto.
    + symmetry. apply T4; auto.
  - intros i0 Hi0. destruct (Nat.eq_dec i0 n) as [->|Ni]; [|unfold indexed; rewrite LLV, LBE by lia; apply HI; lia].
    unfold indexed. fold c. rewrite LC, LBE by lia. rewrite EB, P3. reflexivity.
  - unfold top. rewrite below_level_S. fold c. rewrite LC, P3. eauto.
Qed.

Lemma rend_loc m L c k : Base m L -> c <> 0 -> length (flat (L c)) = S k -> loc L c k (c_rend c m).
Proof.
  intros B Hc Hl. pose proof (ts_cap c). pose proof (base_good _ _ _ B Hc) as G. destruct (ends_case (L c)) as [E|(u & [p i] & E)]; [rewrite E in Hl; discriminate|].
  destruct (page_good L c _ G _ _ _ _ E) as (Hn & _). destruct i as [|x a _] using rev_ind; [congruence|].
  rewrite (rend_at m L [] c (t_cap (ts c)) (base_W _ _ B) Hc G ltac:(lia) _ _ _ _ E). exists u, p, a, x, [], []. split; [auto|]. split; [|reflexivity].
  rewrite E, flat_app, flat_cons in Hl. cbn [flat map concat] in Hl. rewrite app_nil_r, !app_length in Hl. cbn [length] in Hl. rewrite app_length. lia.
Qed.

Definition grew (m m' : mem item) (L L' : layout item) (n n' : nat) (b : Z) : Prop :=
  Mid m' L' n' /\ L' c_vals = L c_vals /\ L' c_path = L c_path /\ room m' = room m /\ fsize m <= fsize m' <= fsize m + b /\ (forall i, (i < n')%nat -> indexed L' i) /\ top L' n' /\ (n <= n' <= S n)%nat.
Lemma update_none m r : ld_op (r_l0 r) = Lnone -> ld_op (r_l1 r) = Lnone -> update_key_levels s junk m true r = COk (m, true).
Proof. intros E0 E1. unfold update_key_levels. cbn [to_klead k_op]. rewrite E0, E1. reflexivity. Qed.
Lemma update_ok m L n r ub p a1 q a2 vb P x : Mid m L n -> L c_vals = ub ++ (p, a1) :: (q, a2) :: vb -> (n = O -> ub = [] /\ vb = []) ->
  (n <> O -> flat (L (c_level 0)) = index ub ++ IKey (first_key a1) p :: index vb) -> (forall i, (0 < i < n)%nat -> indexed L i) -> (n <> O -> top L n) ->
  srt (keys (flat (L c_vals))) -> links L n P p -> flat (L c_path) = map IPath P ->
  a1 <> [] -> a2 <> [] -> r_l0 r = mkLead Linsert q (hd x a2) IBlank -> r_l1 r = mkLead Loriginal p (hd x a1) IBlank -> fsize m + Z.of_nat n + 3 <= room m ->
  exists m' L' n', update_key_levels s junk m true r = COk (m', true) /\ grew m m' L L' n n' (Z.of_nat n + 3).
Proof.
  intros M EV H0 HF HI HT HS LK EP N1 N2 G0 G1 SZ. pose proof M as [B R S N]. unfold update_key_levels. cbn zeta. assert (K0 : k_op (to_klead (r_l0 r)) = Linsert) by (rewrite G0; reflexivity). rewrite K0. cbn [is_none andb].
  assert (H2 : c_keys <> 0) by discriminate. assert (H3 : c_path <> 0) by discriminate. destruct (links_trail _ _ _ _ LK) as (TR & LP).
  unfold c_size. rewrite !(n_tot _ _ _ (b_inv _ _ B)) by auto. rewrite S, EP. unfold zl. rewrite map_length, states_len, LP, Z.eqb_refl, Nat2Z.id. cbn [negb].
  destruct (climb_ok n 0 m L n (c_begin c_keys m) (c_rend c_path m) (to_klead (r_l0 r)) (to_klead (r_l1 r)) ub p a1 q a2 vb (rev P) []) as (m' & L' & l0' & l1' & EC & M' & V' & P' & R' & SZ' & I' & GR); auto.
  - intros i Hi Ni. apply HI. lia.
  - intro Nn. change (c_begin c_keys m) with (itr_at m c_keys 0). apply itr_base; auto. rewrite S, states_len. lia.
  - rewrite rev_length. auto.
  - rewrite rev_involutive, app_nil_r. exact EP.
  - intro Nn. apply rend_loc; auto. rewrite EP, map_length, LP. lia.
  - rewrite G0. unfold to_klead. cbn. destruct a2; [congruence|reflexivity].
  - rewrite G1. unfold to_klead. cbn. destruct a1; [congruence|reflexivity].
  - lia.
  - rewrite EC. cbn [cbind]. destruct GR as [(Ek & TP)|(p' & b1 & q' & b2 & EB & Nk & E0 & E1)].
    + rewrite Ek, Z.eqb_refl. exists m', L', n. split; [reflexivity|]. repeat (split; [auto; lia|]). lia.
    + destruct (Z.eqb_spec (k_page l0') page_nil) as [|_]; [contradiction|]. subst l0' l1'.
      destruct (new_ok m' L' n p' b1 q' b2 M' EB I' ltac:(lia)) as (m2 & L2 & E2 & M2 & V2 & P2 & R2 & SZ2 & I2 & T2). rewrite E2. cbn [cbind].
      exists m2, L2, (Datatypes.S n). split; [reflexivity|]. split; [auto|]. split; [congruence|]. split; [congruence|]. split; [congruence|]. split; [lia|]. split; [auto|]. split; [auto|lia].
Qed.

(** the path is dropped *)
Lemma drop_ok {B} m L n l (b : B) : Map m L n l -> exists m', drop_path m b = COk (m', b) /\ Map (calm m') (upd L c_path []) n l /\ room m' = room m /\ fsize m' = fsize m /\ sts m' c_vals = sts m c_vals.
Proof.
  intro M. pose proof M as [[Bm R S N] Fv Sr Po To Ix]. assert (H3 : c_path <> 0) by discriminate.
  destruct (clear_W m L c_path (base_W _ _ Bm) H3 (b_free _ _ Bm)) as (m' & E & (T1 & R1 & Z1) & SZ & ST & PA & W1 & P1). exists m'. unfold drop_path. rewrite E. cbn [cbind]. split; [reflexivity|].
  assert (Bc : Base (calm m') (upd L c_path [])).
  { constructor.
    - constructor; [apply W_tot; exact W1|intros d Hd; rewrite upd_eq; destruct (d =? c_path); [constructor|apply (n_good _ _ _ (b_inv _ _ Bm)); auto]|apply (n_cap _ _ _ (b_inv _ _ Bm))| |].
      + intros d Hd. change (tots (calm m')) with (upd (tots m') c_path 0). rewrite !upd_eq. destruct (d =? c_path); [reflexivity|]. rewrite T1. apply (n_tot _ _ _ (b_inv _ _ Bm)); auto.
      + change (room (calm m')) with (room m'). rewrite R1. apply (n_room _ _ _ (b_inv _ _ Bm)).
    - exact P1.
    - change (m_zero m' = IBlank). rewrite Z1. apply (b_zero _ _ Bm).
    - intros z x k v Ez. change (pages (calm m')) with (pages m') in Ez. rewrite PA in Ez. rewrite upd_other by discriminate. apply (b_stale _ _ Bm _ _ _ _ Ez). }
  split; [|split; [auto|split; [auto|apply ST; discriminate]]].
  apply (map_path m (calm m') L [] n l M Bc); [exact R1|]. intros d Hd. change (tots (calm m')) with (upd (tots m') c_path 0). rewrite upd_other by auto. rewrite T1. reflexivity.
Qed.

(** * One call *)
Lemma put_split k v (l1 l2 : list (Z * V)) : (forall x, In x (map fst l1) -> x < k) -> (forall y, In y (map fst l2) -> k < y) -> put k v (l1 ++ l2) = l1 ++ (k, v) :: l2.
Proof.
  intros H1 H2. induction l1 as [|[j w] l1 IH]; cbn [app put].
  - destruct l2 as [|[j w] l2]; [reflexivity|]. cbn [put]. specialize (H2 j ltac:(left; auto)). destruct (Z.ltb_spec k j); [reflexivity|lia].
  - pose proof (H1 j ltac:(left; auto)). destruct (Z.ltb_spec k j); [lia|]. destruct (Z.eqb_spec k j); [lia|]. rewrite IH; [reflexivity|]. intros x Hx. apply H1. right; auto.
Qed.
Lemma put_same k v w (l1 l2 : list (Z * V)) : (forall x, In x (map fst l1) -> x < k) -> put k v (l1 ++ (k, w) :: l2) = l1 ++ (k, w) :: l2.
Proof.
  intro H1. induction l1 as [|[j z] l1 IH]; cbn [app put].
  - rewrite Z.ltb_irrefl, Z.eqb_refl. reflexivity.
  - pose proof (H1 j ltac:(left; auto)). destruct (Z.ltb_spec k j); [lia|]. destruct (Z.eqb_spec k j); [lia|]. rewrite IH; [reflexivity|]. intros x Hx. apply H1. right; auto.
Qed.
Lemma get_here k w (l1 l2 : list (Z * V)) : (forall x, In x (map fst l1) -> x < k) -> get k (l1 ++ (k, w) :: l2) = Some (k, w).
Proof.
  intro H1. unfold get. induction l1 as [|[j z] l1 IH]; cbn [app find fst].
  - rewrite Z.eqb_refl. reflexivity.
  - pose proof (H1 j ltac:(left; auto)). destruct (Z.eqb_spec j k); [lia|]. apply IH. intros x Hx. apply H1. right; auto.
Qed.
Lemma get_none k (l : list (Z * V)) : ~ In k (map fst l) -> get k l = None.
Proof.
  intro H. unfold get. induction l as [|[j z] l IH]; cbn [find fst]; [reflexivity|]. destruct (Z.eqb_spec j k) as [->|]; [exfalso; apply H; left; auto|]. apply IH. intro X. apply H. right; auto.
Qed.
Lemma mid_vals m m' L ps n : Mid m L n -> Base m' (upd L c_vals ps) -> room m' = room m -> (forall d, d <> c_vals -> tots m' d = tots m d) -> Mid m' (upd L c_vals ps) n.
Proof.
  intros [B R S N] B' R' T'. assert (LV : forall j, upd L c_vals ps (c_level j) = L (c_level j)) by (intro j; apply upd_other; destruct (level_pos j) as (_ & H' & _); exact H').
  constructor; auto; [lia| |intros j Hj; rewrite LV; auto]. rewrite upd_other by discriminate. rewrite S. symmetry. apply states_ext. intros j _. destruct (level_pos j) as (Q0 & Q1 & _).
  split; [|apply T'; exact Q1]. eapply base_sts; eauto.
Qed.
(** what the map holds, around the place a lookup found *)
Lemma found_split m L n l k f p : Map m L n l -> found L k f p -> exists u a b v l1 l2, L c_vals = u ++ (p, a ++ b) :: v /\ f_itr f = mkI true p (zl a) E_none /\
  l = l1 ++ l2 /\ entries l1 = flat u ++ a /\ entries l2 = b ++ flat v /\ (forall x, In x (map fst l1) -> x < k) /\ (u = [] \/ a <> [] \/ f_ok f = true) /\
  ((f_ok f = true /\ exists w b' l', b = IVal k w :: b' /\ l2 = (k, w) :: l') \/ (f_ok f = false /\ forall y, In y (map fst l2) -> k < y)).
Proof.
  intros M (u & a & b & v & EL & EI & HA & HU & HB). pose proof (p_vals _ _ _ _ M) as F. rewrite EL, flat_app, flat_cons, <- app_assoc, app_assoc in F. symmetry in F.
  apply map_eq_app in F. destruct F as (l1 & l2 & -> & E1 & E2). exists u, a, b, v, l1, l2. do 3 (split; [auto|]). split; [exact E1|]. split; [exact E2|]. split; [|split; [auto|]].
  - intros x Hx. apply HA. rewrite <- E1. change (In x (keys (entries l1))). rewrite keys_entries. exact Hx.
  - destruct HB as [(Hf & w & b' & ->)|(Hf & HB)]; [left|right]; (split; [exact Hf|]).
    + destruct l2 as [|[k0 w0] l2]; [discriminate|]. cbn in E2. injection E2 as -> -> _. exists w, b', l2. auto.
    + intros y Hy. apply HB. rewrite <- E2. change (In y (keys (entries l2))). rewrite keys_entries. exact Hy.
Qed.

(** A map between two calls. *)
Definition Rest (m : mem item) (n : nat) (l : list (Z * V)) : Prop := exists L, Map (calm m) L n l /\ L c_path = [].

Lemma find_step m n l k : Rest m n l -> fsize m + Z.of_nat n <= room m -> (forall m q x, junk m q x <> k) ->
  exists m', mcall s junk m (MFind k) = Some (m', Found (get k l)) /\ Rest m' n l /\ room m' = room m /\ fsize m <= fsize m' <= fsize m + Z.of_nat n.
Proof.
  intros (L & M & EP) SZ HJ. destruct (find_ok m L n l k M EP SZ HJ) as (m1 & ps & f & P & E1 & M1 & EF & R1 & SZ1 & K).
  cbn [mcall]. unfold m_find. rewrite E1. cbn [cbind].
  destruct (drop_ok m1 (upd L c_path ps) n l (if f_ok f then f_itr f else c_end c_vals m1) M1) as (m2 & E2 & M2 & R2 & SZ2 & ST2). rewrite E2. exists m2.
  split; [|split; [exists (upd (upd L c_path ps) c_path []); split; [exact M2|apply upd_same]|split; [congruence|lia]]]. f_equal. f_equal.
  assert (EE : c_end c_vals m2 = c_end c_vals m1) by (unfold c_end; rewrite ST2; reflexivity).
  assert (NO : citr_eqb (c_end c_vals m1) (c_end c_vals m1) = true) by apply eqb_end.
  destruct K as [(-> & -> & _ & _)|(p & FO & _)].
  - cbn [f_ok]. rewrite EE, NO. reflexivity.
  - destruct (found_split _ _ _ _ _ _ _ M FO) as (u & a & b & v & l1 & l2 & EL & EI & -> & El1 & El2 & HA & _ & HB).
    destruct HB as [(Hf & w & b' & l' & -> & ->)|(Hf & HB)]; rewrite Hf.
    + rewrite EI, get_here by auto.
      assert (EL2 : upd (upd L c_path ps) c_path [] c_vals = u ++ (p, a ++ IVal k w :: b') :: v) by (rewrite !upd_other by discriminate; exact EL).
      pose proof (d_base _ _ _ (p_mid _ _ _ _ M2)) as B2. pose proof (ts_cap c_vals).
      assert (H1 : c_vals <> 0) by discriminate. destruct (loc_facts (calm m2) _ [] c_vals (t_cap (ts c_vals)) (base_W _ _ B2) H1 (base_good _ _ _ B2 H1) ltac:(lia) u p a (IVal k w) b' v EL2) as (_ & D & F1 & _).
      change (c_end c_vals (calm m2)) with (c_end c_vals m2) in F1. change (c_deref (calm m2)) with (@c_deref item m2) in D. rewrite F1, D. reflexivity.
    + rewrite EE, NO. f_equal. symmetry. apply get_none. rewrite map_app. intro X. apply in_app_or in X. destruct X as [X|X]; [apply HA in X|apply HB in X]; lia.
Qed.

(** ** Where an insertion puts its item *)
(** the slot of a key *)
Definition spot (L : layout item) (k : Z) (w : V) (i : citr) : Prop :=
  exists u p a b v, L c_vals = u ++ (p, a ++ IVal k w :: b) :: v /\ i = mkI true p (zl a) E_none.
Definition fresh_slot (m : mem item) (x : item) (i : citr) : Prop :=
  exists p n, i = mkI true p n E_none /\ p_arr (pages m p) n = x /\ 0 <= n < p_cnt (pages m p).
Lemma iwc_slot (m : mem item) i x m' r : insert_with_capacity (t_vals s) m i x = COk (m', r) -> 0 <= p_cnt (pages m (i_page i)) <= 4069 -> 0 <= i_item i -> fresh_slot m' x (r_itr r).
Proof.
  unfold insert_with_capacity. intros E Hp Hi. set (pos := if i_item i =? item_nil then p_cnt (pages m (i_page i)) else i_item i) in *.
  assert (P0 : 0 <= pos) by (unfold pos; destruct (i_item i =? item_nil); lia).
  destruct ((p_cnt (pages m (i_page i)) - pos <? 0) || _) eqn:EC; [discriminate|]. apply orb_false_iff in EC. destruct EC as (EC & _). apply Z.ltb_ge in EC.
  destruct (t_cap (t_vals s) <=? pos); [discriminate|]. injection E as <- <-. exists (i_page i), pos. split; [reflexivity|].
  unfold set_arr, set_cnt, set_page. cbn [pages p_arr p_cnt]. rewrite !upd_same. cbn [p_arr p_cnt]. rewrite upd_same. split; [reflexivity|]. unfold wrap_u16. rewrite Z.mod_small; lia.
Qed.
Lemma balance_vals (m : mem item) i : should_balance_insert (t_vals s) m i = true.
Proof. unfold should_balance_insert. destruct ((p_prev _ =? _) && _); [reflexivity|]. destruct ((p_next _ =? _) && _ && _); reflexivity. Qed.
Lemma insert_slot c (m : mem item) L u v i x m' r : c_insert (t_vals s) c m i x = COk (m', r) -> W m L [] -> c <> 0 -> L c = u ++ v -> (u = [] -> v = []) -> i_page i = last (pgs u) page_nil -> fsize m < room m ->
  (i_page i <> page_nil -> 0 <= p_cnt (pages m (i_page i)) <= 4069) -> 0 <= i_item i -> fresh_slot m' x (r_itr r).
Proof.
  unfold c_insert. destruct ((i_page i =? page_nil) && _); [discriminate|]. destruct ((i_item i =? item_nil) && _); [discriminate|]. intros E Wm Hc EL Huv Hi Hr Hp H0.
  destruct (insert_nostate (t_vals s) c m i x) as [[m1 r1]| | |] eqn:EN; cbn [cbind] in E; try discriminate.
  assert (K : fresh_slot m1 x (r_itr r1)).
  { destruct (insert_page_W m L c u v Wm Hc EL Huv) as (m2 & q & E2 & _ & _ & K2 & _ & Z2 & _). rewrite <- Hi in E2.
    assert (Nq : q <> page_nil) by (intro X; apply Z2 in X; lia). destruct K2 as [(X & _)|(_ & W2)]; [contradiction|].
    unfold insert_nostate in EN. destruct (Z.eqb_spec (i_page i) page_nil) as [En|Nn].
    - unfold insert_empty in EN. rewrite En in E2. rewrite E2 in EN. cbn [cbind] in EN. apply Z.eqb_neq in Nq. rewrite Nq in EN.
      eapply iwc_slot; [exact EN| |cbn; lia]. cbn [i_page]. pose proof (page_items m2 (upd L c (u ++ (q, []) :: v)) [] c u q [] v W2 Hc (upd_same _ _ _)) as (Ic & _). rewrite Ic. cbn. lia.
    - unfold insert_nonempty in EN. destruct (_ =? t_cap (t_vals s)); [|eapply iwc_slot; eauto].
      unfold insert_with_overflow in EN. rewrite balance_vals, E2 in EN. cbn [cbind] in EN. apply Z.eqb_neq in Nq. rewrite Nq in EN. cbn zeta in EN.
      set (m3 := balance_split (t_vals s) m2 (i_page i) q) in *.
      assert (C3 : forall z, z = i_page i \/ z = q -> 0 <= p_cnt (pages m3 z) <= 4069).
      { intros z Hz. unfold m3, balance_split. cbn zeta. unfold set_cnt, set_arr, set_page. cbn [pages p_cnt p_arr].
        assert (D : 0 <= t_cap (t_vals s) / 2 <= 4069) by (split; [apply Z.div_pos; lia|apply Z.div_le_upper_bound; lia]).
        assert (D2 : 0 <= t_cap (t_vals s) - t_cap (t_vals s) / 2 <= 4069) by (pose proof (Z.div_le_upper_bound (t_cap (t_vals s)) 2 (t_cap (t_vals s)) ltac:(lia) ltac:(lia)); lia).
        assert (WU : forall y, 0 <= y <= 4069 -> 0 <= wrap_u16 y <= 4069) by (intros y Hy; unfold wrap_u16; rewrite Z.mod_small; lia).
        rewrite upd_eq. destruct (Z.eqb_spec z (i_page i)) as [->|Nz]; [cbn [p_cnt]; auto|]. destruct Hz as [?| ->]; [contradiction|]. rewrite upd_same. cbn [p_cnt]. auto. }
      match type of EN with cbind ?X _ = _ => destruct X as [[m4 r4]| | |] eqn:E4; cbn [cbind] in EN; try discriminate end. injection EN as <- <-. cbn [r_itr].
      destruct (negb (i_item i =? item_nil) && _).
      + eapply iwc_slot; eauto.
      + eapply iwc_slot; [exact E4|apply C3; right; reflexivity|]. cbn [i_item]. destruct (i_item i =? item_nil); [apply C3; auto|unfold wrap_u16; apply Z.mod_pos_bound; lia]. }
  assert (OK : i_ok (r_itr r1) = true) by (destruct K as (p & n & -> & _); reflexivity). rewrite OK in E. injection E as <- <-.
  destruct K as (p & n & -> & K). exists p, n. split; [reflexivity|]. cbn [set_tot pages].
  match goal with |- p_arr (pages ?X _) _ = _ /\ _ => assert (PX : pages X = pages m1) end; [|rewrite PX; exact K].
  cbn zeta. destruct (front (sts m1 c) =? page_nil); cbn; destruct (_ =? page_nil); cbn; try reflexivity; destruct (_ && _); reflexivity.
Qed.
Lemma fresh_spot m L k w i : Base m L -> fresh_slot m (IVal k w) i -> spot L k w i.
Proof.
  intros B (p & n & -> & E & Hn). destruct (b_stale _ _ B _ _ _ _ E) as (u & is & v & EL & _). pose proof (page_items _ _ _ _ _ _ _ _ (base_W _ _ B) (ltac:(discriminate) : c_vals <> 0) EL) as H.
  pose proof H as (Ic & _). rewrite Ic in Hn. destruct (cut is n Hn) as (a & x & b & -> & <-). exists u, p, a, b, v. rewrite (slot _ _ _ _ H) in E. subst x. auto.
Qed.

Lemma insert_full m L n l k x : Map (calm m) L n l -> L c_path = [] -> fsize m + 2 * Z.of_nat n + 4 <= room m -> (forall m q x, junk m q x <> k) -> 0 <= k -> (l = [] \/ exists k0, In k0 (map fst l) /\ k0 <= k) ->
  exists m' n' i L', m_insert s junk m k x = COk (m', (i, if get k l then false else true)) /\ Map (calm m') L' n' (put k x l) /\ L' c_path = [] /\
    (exists w, spot L' k w i) /\ room m' = room m /\ fsize m <= fsize m' <= fsize m + 2 * Z.of_nat n + 4 /\ (n <= n' <= S n)%nat.
Proof.
  intros M EP SZ HJ K0 HK. destruct (find_ok m L n l k M EP ltac:(lia) HJ) as (m1 & ps & f & P & E1 & M1 & EF & R1 & SZ1 & K).
  unfold m_insert. rewrite E1. cbn [cbind]. set (L1 := upd L c_path ps) in *.
  assert (DONE : forall m2 L2 n' (i : citr), Map m2 L2 n' (put k x l) -> room m2 = room m -> fsize m <= fsize m2 <= fsize m + 2 * Z.of_nat n + 4 -> (n <= n' <= S n)%nat -> get k l = None -> (exists w, spot L2 k w i) ->
    exists m' n'0 i' L', drop_path m2 (i, true) = COk (m', (i', if get k l then false else true)) /\ Map (calm m') L' n'0 (put k x l) /\ L' c_path = [] /\ (exists w, spot L' k w i') /\ room m' = room m /\ fsize m <= fsize m' <= fsize m + 2 * Z.of_nat n + 4 /\ (n <= n'0 <= S n)%nat).
  { intros m2 L2 n' i M2 R2 SZ2 Hn Hg Hs. destruct (drop_ok m2 L2 n' _ (i, true) M2) as (m3 & E3 & M3 & R3 & SZ3 & _). exists m3, n', i, (upd L2 c_path []). rewrite E3, Hg. split; [reflexivity|].
    split; [exact M3|]. split; [apply upd_same|]. split; [destruct Hs as (w & Hs); exists w; unfold spot in *; rewrite upd_other by discriminate; exact Hs|]. split; [congruence|]. split; [lia|auto]. }
  pose proof M1 as [Mi1 Fv Sr Po To Ix]. pose proof (d_base _ _ _ Mi1) as B1.
  destruct K as [(-> & -> & EV & ->)|(p & FO & LK)].
  - cbn [f_ok f_itr no_itr i_page i_item i_edge].
    assert (EV1 : L1 c_vals = []) by (unfold L1; rewrite upd_other by discriminate; exact EV).
    destruct (base_first m1 L1 k x B1 EV1 ltac:(lia)) as (m2 & r & q & E2 & B2 & R2 & SZ2 & OK2 & T2 & G0 & G1). rewrite E2, OK2. rewrite (update_none m2 r G0 G1). cbn [cbind].
    apply (DONE m2 (upd L1 c_vals [(q, [IVal k x])]) 0%nat (r_itr r)); [|congruence|lia|lia|reflexivity|exists x; apply (fresh_spot m2); [exact B2|]; eapply (insert_slot c_vals m1 L1 [] []); [exact E2|apply base_W; auto|discriminate|exact EV1|auto|reflexivity|lia|cbn; congruence|discriminate]].
    constructor; [apply (mid_vals m1); auto|rewrite upd_same; reflexivity|repeat constructor|intros kk [<-|[]]; auto|right; exists q, [IVal k x]; apply upd_same|intros j Hj; lia].
  - assert (FO1 : found L1 k f p). { destruct FO as (u & a & b & v & EL & FO). exists u, a, b, v. unfold L1. rewrite upd_other by discriminate. auto. }
    destruct (found_split _ _ _ _ _ _ _ M1 FO1) as (u & a & b & v & l1 & l2 & EL & EI & El & El1 & El2 & HA & HU & HB).
    destruct HB as [(Hf & w & b' & l' & -> & ->)|(Hf & HB)]; rewrite Hf.
    + destruct (drop_ok m1 L1 n l (f_itr f, false) M1) as (m2 & E2 & M2 & R2 & SZ2 & _). exists m2, n, (f_itr f), (upd L1 c_path []). rewrite E2. rewrite El, get_here, put_same by auto. rewrite <- El. split; [reflexivity|].
      split; [exact M2|]. split; [apply upd_same|]. split; [exists w, u, p, a, b', v; rewrite upd_other by discriminate; auto|split; [congruence|split; lia]].
    + assert (NK : ~ In k (map fst l)). { rewrite El, map_app. intro X. apply in_app_or in X. destruct X as [X|X]; [apply HA in X|apply HB in X]; lia. }
      assert (EPUT : put k x l = l1 ++ (k, x) :: l2) by (rewrite El; apply put_split; auto).
      assert (Na : a <> []).
      { destruct HU as [Eu|[|]]; [|auto|congruence]. intros ->. rewrite Eu in El1. destruct l1; [|discriminate]. cbn [app] in El. subst l2. destruct HK as [->|(k0 & H1 & H2)].
        - cbn in El2. pose proof (base_good _ _ c_vals B1 ltac:(discriminate)) as G. rewrite EL, Eu in G. cbn [app] in G. apply good_cons in G. destruct b; [tauto|discriminate].
        - specialize (HB k0 H1). lia. }
      assert (SRT : srt (keys (flat u ++ (a ++ IVal k x :: b) ++ flat v))).
      { replace (flat u ++ (a ++ IVal k x :: b) ++ flat v) with (entries (put k x l)); [|rewrite EPUT; unfold entries in *; rewrite map_app, El1; cbn [map]; rewrite El2, <- !app_assoc; reflexivity].
        rewrite keys_entries, EPUT, map_app. cbn [map fst]. rewrite El, map_app in Sr. apply srt_app in Sr. destruct Sr as (S1 & S2 & S3). apply srt_app. split; [auto|]. split; [apply srt_cons; auto|].
        intros y z Hy [<-|Hz]; [apply HA; auto|auto]. }
      rewrite EI. cbn [i_page i_item i_edge].
      pose proof SRT as SR1. rewrite !keys_app in SR1. apply srt_app in SR1. destruct SR1 as (_ & SR1 & _). apply srt_app in SR1. destruct SR1 as (SR1 & _). rewrite <- keys_app in SR1.
      destruct (base_val m1 L1 u p a b v k x B1 EL ltac:(lia) Na SR1) as (m2 & r & vs & E2 & B2 & R2 & SZ2 & OK2 & T2 & SH). rewrite E2, OK2.
      set (L2 := upd L1 c_vals vs) in *. assert (V2 : L2 c_vals = vs) by apply upd_same.
      assert (SL : spot L2 k x (r_itr r)).
      { pose proof (page_items _ _ _ _ _ _ _ _ (base_W _ _ B1) (ltac:(discriminate) : c_vals <> 0) EL) as (Ic & _). pose proof (base_good _ _ c_vals B1 ltac:(discriminate)) as G. rewrite EL in G. apply good_app in G. destruct G as (_ & G). apply good_cons in G. destruct G as (_ & G & _).
        change (t_cap (ts c_vals)) with (t_cap (t_vals s)) in G.
        apply (fresh_spot m2); [exact B2|]. eapply (insert_slot c_vals m1 L1 (u ++ [(p, a ++ b)]) v); [exact E2|apply base_W; auto|discriminate|rewrite <- app_assoc; exact EL|destruct u; discriminate|symmetry; apply last_pgs|lia| |apply zl_pos].
        cbn [i_page]. intros _. rewrite Ic. fold (zl (a ++ b)). pose proof (zl_pos (a ++ b)). lia. }
      assert (M2 : Mid m2 L2 n) by (apply (mid_vals m1); auto).
      assert (LO : forall d, d <> c_vals -> L2 d = L1 d) by (intros; apply upd_other; auto).
      assert (LLV : forall j, L2 (c_level j) = L1 (c_level j)). { intro j. destruct (level_pos j) as (_ & Q1 & _). auto. }
      assert (LBE : forall j, j <> O -> L2 (below j) = L1 (below j)). { intros [|j] Hj; [congruence|]. apply LLV. }
      assert (FV : flat vs = entries (put k x l)).
      { transitivity (flat u ++ (a ++ IVal k x :: b) ++ flat v); [|rewrite EPUT; unfold entries in *; rewrite map_app, El1; cbn [map]; rewrite El2, <- !app_assoc; reflexivity].
        destruct SH as [(-> & _)|(q & a1 & a2 & -> & EE & _)]; rewrite flat_app, !flat_cons; [reflexivity|]. rewrite <- EE, <- app_assoc. reflexivity. }
      assert (PP : forall kk, In kk (map fst (put k x l)) -> 0 <= kk).
      { rewrite EPUT, map_app. cbn [map fst]. intros kk Hkk. apply in_app_or in Hkk. rewrite El, map_app in Po. destruct Hkk as [H|[<-|H]]; auto; apply Po; apply in_or_app; auto. }
      assert (SP : srt (map fst (put k x l))). { rewrite <- keys_entries, <- FV. destruct SH as [(-> & _)|(q & a1 & a2 & -> & EE & _)]; rewrite flat_app, !flat_cons; [exact SRT|]. rewrite (app_assoc a1), EE. exact SRT. }
      assert (TO : top L1 n). { destruct To as [(E & _)|To]; auto. exfalso. rewrite E in El. symmetry in El. apply app_eq_nil in El. destruct El as (-> & _). cbn in El1. symmetry in El1. apply app_eq_nil in El1. tauto. }
      assert (IN : forall j, (0 < j < n)%nat -> indexed L2 j). { intros j Hj. unfold indexed. rewrite LLV, LBE by lia. apply Ix. lia. }
      destruct SH as [(EVS & G0 & G1)|(q & a1 & a2 & EVS & EE & N1 & N2 & Nq & G0 & G1)].
      * rewrite update_none by (rewrite ?G0, ?G1; reflexivity). cbn [cbind]. apply (DONE m2 L2 n (r_itr r)); [|congruence|lia|lia|apply get_none; auto|eauto].
        constructor; [exact M2|rewrite V2; exact FV|exact SP|exact PP| |].
        -- right. destruct TO as (r0 & i0 & ET). destruct (Nat.eq_dec n 0) as [->|Nn]; [|exists r0, i0; rewrite LBE by auto; exact ET].
           cbn [below] in ET. rewrite EL in ET. destruct u as [|? [|? ?]]; try discriminate. destruct v; try discriminate. unfold top. cbn [below]. rewrite V2, EVS. cbn [app]. eauto.
        -- intros j Hj. destruct (Nat.eq_dec j 0) as [->|Nj]; [|apply IN; lia]. unfold indexed. rewrite LLV. rewrite (Ix 0%nat Hj). cbn [below]. rewrite V2, EVS, EL, !index_app. cbn [index map fst snd]. do 3 f_equal. destruct a; [congruence|reflexivity].
      * destruct (update_ok m2 L2 n r u p a1 q a2 v P (IVal k x)) as (m3 & L3 & n3 & E3 & (M3 & V3 & P3 & R3 & SZ3 & I3 & T3 & Hn3)); auto.
        -- intros ->. destruct TO as (r0 & i0 & ET). cbn [below] in ET. rewrite EL in ET. destruct u as [|? [|? ?]]; try discriminate. destruct v; try discriminate. auto.
        -- intro Nn. rewrite LLV, (Ix 0%nat) by lia. cbn [below]. rewrite EL, index_app. cbn [index map fst snd]. do 3 f_equal. rewrite first_app by auto. destruct a as [|y a]; [congruence|]. destruct a1 as [|y1 a1]; [congruence|]. cbn [app] in EE. injection EE as -> _. reflexivity.
        -- intro Nn. destruct TO as (r0 & i0 & ET). exists r0, i0. rewrite LBE by auto. exact ET.
        -- rewrite V2, FV, keys_entries. exact SP.
        -- eapply links_ext; [|exact LK]. intro i0. rewrite LLV. unfold L1. symmetry. apply level_path.
        -- lia.
        -- rewrite E3. cbn [cbind]. apply (DONE m3 L3 n3 (r_itr r)); [|congruence|lia|lia|apply get_none; auto|exists x; unfold spot; rewrite V3; exact SL].
           constructor; auto. rewrite V3, V2. exact FV.
Qed.
Lemma insert_step m n l k x : Rest m n l -> fsize m + 2 * Z.of_nat n + 4 <= room m -> (forall m q x, junk m q x <> k) -> 0 <= k -> (l = [] \/ exists k0, In k0 (map fst l) /\ k0 <= k) ->
  exists m' n', mcall s junk m (MInsert k x) = Some (m', Inserted (if get k l then false else true)) /\ Rest m' n' (put k x l) /\ room m' = room m /\ fsize m <= fsize m' <= fsize m + 2 * Z.of_nat n + 4 /\ (n <= n' <= S n)%nat.
Proof.
  intros (L & M & EP) SZ HJ K0 HK. destruct (insert_full m L n l k x M EP SZ HJ K0 HK) as (m' & n' & i & L' & E & M' & EP' & _ & R' & SZ' & Hn). exists m', n'. cbn [mcall]. rewrite E.
  split; [reflexivity|]. split; [exists L'; auto|auto].
Qed.
Lemma visits_calm m : forall l i, visits (calm m) c_vals i l -> visits m c_vals i l.
Proof. induction l as [|x l IH]; intros i H; cbn [visits] in *; [exact H|]. destruct H as (H1 & H2 & H3 & H4). split; [exact H1|]. split; [exact H2|]. split; [exact H3|]. apply IH. exact H4. Qed.
Lemma visits_back_calm m : forall l i, visits_back (calm m) c_vals i l -> visits_back m c_vals i l.
Proof. induction l as [|x l IH]; intros i H; cbn [visits_back] in *; [exact H|]. destruct H as (H1 & H2 & H3 & H4). split; [exact H1|]. split; [exact H2|]. split; [exact H3|]. apply IH. exact H4. Qed.
Lemma rest_shows m n l : Rest m n l -> map_shows m l.
Proof.
  intros (L & M & _). pose proof (Inv_shows _ _ _ c_vals (b_inv _ _ (d_base _ _ _ (p_mid _ _ _ _ M))) ltac:(discriminate)) as S. rewrite (p_vals _ _ _ _ M) in S.
  destruct S as (S1 & S2 & S3 & S4 & S5 & S6). split; [exact S1|]. split; [exact S2|]. split; [exact S3|]. split; [exact S4|]. split; [apply visits_calm; exact S5|apply visits_back_calm; exact S6].
Qed.
Lemma rest_levels m n l : Rest m n l -> c_size c_keys m = Z.of_nat n.
Proof.
  intros (L & M & _). change (tots (calm m) c_keys = Z.of_nat n). rewrite (n_tot _ _ _ (b_inv _ _ (d_base _ _ _ (p_mid _ _ _ _ M)))) by discriminate. rewrite (d_stack _ _ _ (p_mid _ _ _ _ M)). unfold zl. rewrite states_len. reflexivity.
Qed.
Lemma rest_start rm : 2 <= rm <= 65535 -> Rest (map_mem V rm) 0 [].
Proof.
  intro Hr. exists (fun _ => []). split; [|reflexivity].
  assert (I : Inv ts (cont_mem (@IBlank V) rm) (fun _ => [])). { apply start_Inv; [lia|]. intros c _. apply ts_cap. }
  assert (B : Base (cont_mem (@IBlank V) rm) (fun _ => [])).
  { constructor; auto; [exists []; split; [split; reflexivity|split; [constructor|intros x []]]|intros z x k v E; discriminate]. }
  constructor; [constructor| | | | |].
  - apply (base_reset (cont_mem (@IBlank V) rm) (fun _ => []) c_path (mkState page_nil page_nil) 0 B eq_refl eq_refl).
  - cbn. lia.
  - reflexivity.
  - reflexivity.
  - reflexivity.
  - constructor.
  - intros k [].
  - left. auto.
  - intros j Hj. lia.
Qed.

(** * Histories *)
Lemma put_in k v (l : list (Z * V)) x : In x (map fst l) -> In x (map fst (put k v l)).
Proof.
  induction l as [|[j w] l IH]; cbn [put map fst]; intro H; [right; auto|]. destruct (k <? j); [right; exact H|]. destruct (k =? j); [exact H|]. destruct H as [<-|H]; [left; auto|right; auto].
Qed.
Lemma put_key k v (l : list (Z * V)) : In k (map fst (put k v l)).
Proof. induction l as [|[j w] l IH]; cbn [put]; [left; auto|]. destruct (k <? j); [left; auto|]. destruct (Z.eqb_spec k j) as [->|]; [left; auto|right; auto]. Qed.
Definition low (l : list (Z * V)) (h : list (mop V)) : Prop :=
  (l = [] /\ lowest_first (inserted h)) \/ exists k0, In k0 (map fst l) /\ forall k, In k (inserted h) -> k0 <= k.

Lemma history_ok h : forall m n l, Rest m n l -> no_erase h -> (forall k, In k (inserted h) -> 0 <= k) -> (forall k, In k (called h) -> forall m q x, junk m q x <> k) -> low l h -> roomy s junk m h ->
  exists m' n', mcalls s junk m h = Some (m', snd (ideal_map l h)) /\ Rest m' n' (fst (ideal_map l h)) /\ room m' = room m.
Proof.
  induction h as [|o h IH]; intros m n l HR HE HP HJ HL HM; [exists m, n; split; [reflexivity|auto]|].
  cbn [mcalls ideal_map]. destruct HM as (HM & HM'). rewrite (rest_levels _ _ _ HR) in HM.
  assert (HE' : no_erase h) by (intros k Hk'; apply (HE k); right; auto).
  assert (HJ' : forall k, In k (called h) -> forall m q x, junk m q x <> k) by (intros k Hk'; apply HJ; right; auto).
  destruct o as [k v|k|k]; [| |exfalso; apply (HE k); left; auto].
  - destruct (insert_step m n l k v HR) as (m1 & n1 & E1 & R1 & Rm1 & _ & _); [lia|apply HJ; left; auto|apply HP; left; auto| |].
    { destruct HL as [(-> & _)|(k0 & H1 & H2)]; [left; auto|right; exists k0; split; auto; apply H2; left; auto]. }
    rewrite E1 in HM' |- *. cbn [ideal_op].
    destruct (IH m1 n1 (put k v l) R1 HE') as (m2 & n2 & E2 & R2 & Rm2); auto.
    + intros k' Hk'. apply HP. right; auto.
    + right. destruct HL as [(-> & HL)|(k0 & H1 & H2)]; [exists k; split; [apply put_key|]; intros k' Hk'; apply (HL k'); right; auto|].
      exists k0. split; [apply put_in; auto|]. intros k' Hk'. apply H2. right; auto.
    + rewrite E2. destruct (ideal_map (put k v l) h) as [l' outs] eqn:EI. cbn [fst snd] in *. exists m2, n2. split; [reflexivity|]. split; [auto|congruence].
  - destruct (find_step m n l k HR) as (m1 & E1 & R1 & Rm1 & _); [lia|apply HJ; left; auto|].
    rewrite E1 in HM' |- *. cbn [ideal_op].
    destruct (IH m1 n l R1 HE') as (m2 & n2 & E2 & R2 & Rm2); auto.
    rewrite E2. destruct (ideal_map l h) as [l' outs] eqn:EI. cbn [fst snd] in *. exists m2, n2. split; [reflexivity|]. split; [auto|congruence].
Qed.
Lemma roomy_ok N h : forall m n l j, Rest m n l -> no_erase h -> (forall k, In k (inserted h) -> 0 <= k) -> (forall k, In k (called h) -> forall m q x, junk m q x <> k) -> low l h ->
  (n <= j)%nat -> (j + length h <= N)%nat -> fsize m <= 2 + Z.of_nat j * (2 * Z.of_nat N + 4) -> 2 + Z.of_nat N * (2 * Z.of_nat N + 4) <= room m -> roomy s junk m h.
Proof.
  induction h as [|o h IH]; intros m n l j HR HE HP HJ HL Hn Hj HF HM; [exact Logic.I|]. cbn [roomy length] in *. rewrite (rest_levels _ _ _ HR).
  assert (EM : fsize m + 2 * Z.of_nat n + 4 <= room m) by nia. split; [exact EM|].
  assert (HE' : no_erase h) by (intros k Hk'; apply (HE k); right; auto).
  assert (HJ' : forall k, In k (called h) -> forall m q x, junk m q x <> k) by (intros k Hk'; apply HJ; right; auto).
  destruct o as [k v|k|k]; [| |exfalso; apply (HE k); left; auto].
  - destruct (insert_step m n l k v HR) as (m1 & n1 & E1 & R1 & Rm1 & SZ1 & N1); [lia|apply HJ; left; auto|apply HP; left; auto| |].
    { destruct HL as [(-> & _)|(k0 & H1 & H2)]; [left; auto|right; exists k0; split; auto; apply H2; left; auto]. }
    rewrite E1. apply (IH m1 n1 (put k v l) (S j) R1 HE'); auto; try lia; try nia; [intros k' Hk'; apply HP; right; auto|].
    right. destruct HL as [(-> & HL)|(k0 & H1 & H2)]; [exists k; split; [apply put_key|]; intros k' Hk'; apply (HL k'); right; auto|].
    exists k0. split; [apply put_in; auto|]. intros k' Hk'. apply H2. right; auto.
  - destruct (find_step m n l k HR) as (m1 & E1 & R1 & Rm1 & SZ1); [lia|apply HJ; left; auto|].
    rewrite E1. apply (IH m1 n l (S j) R1 HE'); auto; try lia; try nia.
Qed.
End Map.

Lemma put_keys {V} k (v : V) l x : In x (map fst (put k v l)) <-> x = k \/ In x (map fst l).
Proof.
  induction l as [|[j w] l IH]; cbn [put map fst]; [cbn; intuition|]. destruct (k <? j); [cbn; intuition|]. destruct (Z.eqb_spec k j) as [->|]; cbn [map fst In]; [intuition|]. rewrite IH. intuition.
Qed.
Lemma put_srt {V} k (v : V) l : srt (map fst l) -> srt (map fst (put k v l)).
Proof.
  induction l as [|[j w] l IH]; intro H; cbn [put map fst]; [repeat constructor|]. destruct (Z.ltb_spec k j).
  - cbn [map fst] in *. apply srt_cons. split; auto. intros y [<-|Hy]; [auto|]. apply srt_cons in H. destruct H as (_ & H). specialize (H y Hy). lia.
  - destruct (Z.eqb_spec k j) as [->|]; [exact H|]. cbn [map fst] in *. apply srt_cons in H. destruct H as (H1 & H2). apply srt_cons. split; [auto|]. intros y Hy. apply put_keys in Hy. destruct Hy as [->|Hy]; [lia|auto].
Qed.
Lemma ideal_keys {V} (h : list (mop V)) : forall l x, no_erase h -> In x (map fst (fst (ideal_map l h))) <-> In x (map fst l) \/ In x (inserted h).
Proof.
  induction h as [|o h IH]; intros l x HE; [cbn; tauto|]. assert (HE' : no_erase h) by (intros k Hk'; apply (HE k); right; auto).
  cbn [ideal_map]. destruct o as [k v|k|k]; [| |exfalso; apply (HE k); left; auto]; cbn [ideal_op].
  - specialize (IH (put k v l) x HE'). destruct (ideal_map (put k v l) h) as [l' outs]. cbn [fst] in *. rewrite IH, put_keys. cbn [inserted flat_map app In]. change (flat_map _ h) with (inserted h). intuition.
  - specialize (IH l x HE'). destruct (ideal_map l h) as [l' outs]. cbn [fst] in *. rewrite IH. reflexivity.
Qed.
Lemma ideal_srt {V} (h : list (mop V)) : forall l, no_erase h -> srt (map fst l) -> srt (map fst (fst (ideal_map l h))).
Proof.
  induction h as [|o h IH]; intros l HE HS; [exact HS|]. assert (HE' : no_erase h) by (intros k Hk'; apply (HE k); right; auto).
  cbn [ideal_map]. destruct o as [k v|k|k]; [| |exfalso; apply (HE k); left; auto]; cbn [ideal_op].
  - specialize (IH (put k v l) HE' (put_srt k v l HS)). destruct (ideal_map (put k v l) h). exact IH.
  - specialize (IH l HE' HS). destruct (ideal_map l h). exact IH.
Qed.
Lemma two_caps s : two_on_page s -> 2 <= t_cap (t_vals s) <= 4069 /\ 2 <= t_cap (t_keys s) <= 4069.
Proof.
  intros (H1 & H2 & H3 & H4). assert (C : forall z, 1 <= z -> 2 * z <= 4069 -> 2 <= page_capacity z <= 4069) by (intros z Z1 Z2; split; [apply cap_two; lia|apply cap_ok; lia]).
  unfold t_vals, t_keys. cbn [t_cap]. split; apply C; lia.
Qed.
