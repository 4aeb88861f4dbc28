From Coq Require Import ZArith List Bool Lia.
From Verif Require Import Base Cache_Model Linked_Model Linked_Spec Linked_Proofs.
Import ListNotations.
Open Scope Z_scope.
Local Opaque page_nil.

Record Inv {A} (rm : Z) (m : mem A) (a : astate) : Prop := {
  iv_rep : forall c, rep0 m c (ch a c);
  iv_free : rep m 0 (ch a 0);
  iv_nd : forall c, NoDup (ch a c);
  iv_ndl : NoDup (loose a);
  iv_dis : forall c d x, c <> d -> In x (ch a c) -> In x (ch a d) -> False;
  iv_disl : forall c x, In x (ch a c) -> In x (loose a) -> False;
  iv_bnd : forall c x, In x (ch a c) -> 2 <= x < npages a;
  iv_bndl : forall x, In x (loose a) -> 2 <= x < npages a;
  iv_size : fsize m = npages a;
  iv_room : room m = rm;
  iv_rb : 2 <= npages a <= rm /\ rm < page_nil }.

Lemma keep {A} (m m' : mem A) c l L : rep0 m c l -> frame m m' L -> sts m' c = sts m c -> (forall x, In x l -> ~ In x L) -> rep0 m' c l.
Proof.
  intros R F S D. destruct R as [(S0 & G)|(-> & S0)].
  - left. split; [congruence|]. eapply seg_frame; eauto.
  - right. split; congruence.
Qed.
Lemma keep1 {A} (m m' : mem A) c l L : rep m c l -> frame m m' L -> sts m' c = sts m c -> (forall x, In x l -> ~ In x L) -> rep m' c l.
Proof. intros (S0 & G) F S D. split; [congruence|]. eapply seg_frame; eauto. Qed.

Lemma iv_bnd0 {A} rm (m : mem A) a c x : Inv rm m a -> In x (ch a c) -> 0 < x < page_nil.
Proof. intros I H. pose proof (iv_bnd _ _ _ I c x H). pose proof (iv_rb _ _ _ I). lia. Qed.
Lemma iv_bndl0 {A} rm (m : mem A) a x : Inv rm m a -> In x (loose a) -> 0 < x < page_nil.
Proof. intros I H. pose proof (iv_bndl _ _ _ I x H). pose proof (iv_rb _ _ _ I). lia. Qed.

Lemma init_inv {A} rm (m : mem A) a c : Inv rm m a -> Inv rm (l_init m c) a /\ rep (l_init m c) c (ch a c).
Proof.
  intro I. destruct (init_rep m c (ch a c)) as (R & F & S); [apply I|intros; eapply iv_bnd0; eauto|].
  split; [|exact R]. destruct I; constructor; auto.
  - intro d. destruct (Z.eq_dec d c) as [->|n]; [left; exact R|]. eapply keep; eauto.
  - destruct (Z.eq_dec 0 c) as [<-|n]; [exact R|]. eapply keep1; eauto.
  - destruct F as (E & _). congruence.
  - destruct F as (_ & E & _). congruence.
Qed.

Lemma mem_of_in x l : mem_of x l = true <-> In x l.
Proof. unfold mem_of. rewrite existsb_exists. split; [intros (y & H & E); apply Z.eqb_eq in E; subst; auto|intro H; exists x; split; auto; apply Z.eqb_refl]. Qed.
Lemma in_without x y l : In x (without y l) <-> In x l /\ x <> y.
Proof. unfold without. rewrite filter_In. rewrite negb_true_iff, Z.eqb_neq. tauto. Qed.
Lemma nodup_without y l : NoDup l -> NoDup (without y l).
Proof. apply NoDup_filter. Qed.
Lemma without_notin y l : ~ In y l -> without y l = l.
Proof. induction l; cbn; [auto|]. intro H. destruct (Z.eqb_spec a y); [subst; tauto|]. cbn. f_equal. apply IHl; tauto. Qed.
Lemma without_app y u v : without y (u ++ v) = without y u ++ without y v.
Proof. unfold without. apply filter_app. Qed.
Lemma without_mid y u v : NoDup (u ++ y :: v) -> without y (u ++ y :: v) = u ++ v.
Proof.
  intro H. apply nodup_split in H. destruct H as (H1 & H2 & _). rewrite without_app. cbn. rewrite Z.eqb_refl. cbn.
  fold (without y v). rewrite !without_notin; auto.
Qed.
Lemma before_mid q p u v : ~ In q u -> before q p (u ++ q :: v) = u ++ p :: q :: v.
Proof. induction u; cbn; intro H; [rewrite Z.eqb_refl; reflexivity|]. destruct (Z.eqb_spec a q); [subst; tauto|]. rewrite IHu; auto. Qed.
Lemma after_mid q u v : ~ In q u -> after q (u ++ q :: v) = hd page_nil v.
Proof. induction u; cbn; intro H; [rewrite Z.eqb_refl; reflexivity|]. destruct (Z.eqb_spec a q); [subst; tauto|]. rewrite IHu; auto. Qed.
Lemma upd_ch a c l d : ch (set_ch a c l) d = if d =? c then l else ch a d. Proof. reflexivity. Qed.

Lemma ins_step {A} rm (m : mem A) a c u v p : Inv rm m a -> In p (loose a) -> ch a c = u ++ v ->
  exists m', l_insert (l_init m c) c (at_hd v) p = Ok (m', mkL p E_none) /\ Inv rm m' (set_loose (set_ch a c (u ++ p :: v)) (without p (loose a))).
Proof.
  intros I0 Hp E. destruct (init_inv _ _ _ c I0) as (I & R). set (m0 := l_init m c) in *. clearbody m0. clear I0 m. rewrite E in R.
  assert (Np : ~ In p (u ++ v)). { rewrite <- E. intro H. eapply iv_disl; eauto. }
  destruct (insert_rep m0 c u v p R) as (m' & E1 & R' & F & S); auto.
  - rewrite <- E. apply I.
  - intros x [<-|H]; [eapply iv_bndl0; eauto|]. rewrite <- E in H. eapply iv_bnd0; eauto.
  - exists m'; split; [exact E1|].
    assert (Hin : forall x, In x (u ++ p :: v) <-> x = p \/ In x (ch a c)).
    { intro x. rewrite E, !in_app_iff. cbn. intuition. }
    constructor; cbn [set_loose set_ch loose ch npages].
    + intro d. rewrite upd_eq. destruct (Z.eqb_spec d c) as [->|n]; [left; exact R'|].
      eapply keep; [apply I|exact F|auto|]. intros x Hx [<-|Hx']; [eapply iv_disl; eauto|]. rewrite <- E in Hx'. eapply iv_dis; [exact I|exact n| |]; eauto.
    + rewrite upd_eq. destruct (Z.eqb_spec 0 c) as [<-|n]; [exact R'|].
      eapply keep1; [apply I|exact F|auto|]. intros x Hx [<-|Hx']; [eapply iv_disl; eauto|]. rewrite <- E in Hx'. eapply iv_dis; [exact I|exact n| |]; eauto.
    + intro d. rewrite upd_eq. destruct (Z.eqb_spec d c) as [->|n]; [|apply I].
      pose proof (iv_nd _ _ _ I c) as N. rewrite E in N. apply NoDup_Add with (a := p) (l := u ++ v); [apply Add_app|]; auto.
    + apply nodup_without. apply I.
    + intros d e x Hde. rewrite !upd_eq. destruct (Z.eqb_spec d c) as [->|]; destruct (Z.eqb_spec e c) as [->|]; rewrite ?Hin; try congruence.
      * intros [->|H] H'; [eapply iv_disl; eauto|eapply (iv_dis _ _ _ I c e); eauto].
      * intros H' [->|H]; [eapply iv_disl; eauto|eapply (iv_dis _ _ _ I d c); eauto].
      * intros; eapply (iv_dis _ _ _ I d e); eauto.
    + intros d x. rewrite upd_eq, in_without. destruct (Z.eqb_spec d c) as [->|]; rewrite ?Hin.
      * intros [->|H] []; [congruence|eapply iv_disl; eauto].
      * intros H []. eapply iv_disl; eauto.
    + intros d x. rewrite upd_eq. destruct (Z.eqb_spec d c) as [->|]; rewrite ?Hin; [|apply I]. intros [->|H]; [eapply iv_bndl; eauto|eapply iv_bnd; eauto].
    + intros x. rewrite in_without. intros []. eapply iv_bndl; eauto.
    + destruct F as (Q & _). rewrite Q. apply I.
    + destruct F as (_ & Q & _). rewrite Q. apply I.
    + apply I.
Qed.

Lemma ers_step {A} rm (m : mem A) a c u x v : Inv rm m a -> c <> 0 -> ch a c = u ++ x :: v ->
  exists m', l_erase (l_init m c) c (mkL x E_none) = Ok (m', at_hd v) /\ Inv rm m' (a_erase a c x).
Proof.
  intros I0 Hc E. destruct (init_inv _ _ _ c I0) as (I & R). set (m0 := l_init m c) in *. clearbody m0. clear I0 m. rewrite E in R.
  pose proof (iv_nd _ _ _ I c) as N. rewrite E in N.
  destruct (erase_rep m0 c u x v R N) as (m1 & m' & E1 & G1 & F1 & S1 & E2 & F2 & S2 & S3).
  { rewrite <- E. intros; eapply iv_bnd0; eauto. }
  exists m'; split; [exact E2|].
  pose proof (nodup_split _ _ _ N) as (Nxu & Nxv & Nuv).
  assert (Hx : In x (ch a c)) by (rewrite E; apply in_or_app; right; left; auto).
  assert (Huv : forall y, In y (u ++ v) <-> In y (ch a c) /\ y <> x).
  { intro y. rewrite E, !in_app_iff. cbn. split; [|intuition congruence]. intros [H|H]; split; auto; intros ->; tauto. }
  assert (R1 : rep m1 0 (ch a 0)).
  { eapply keep1; [apply (iv_free _ _ _ I)|exact F1|rewrite S1; reflexivity|]. intros y Hy Hy'. apply Huv in Hy'. eapply iv_dis with (c := 0) (d := c); eauto. apply Hy'. }
  destruct (free_rep m1 (ch a 0) x R1) as (R2 & F3 & S4).
  { apply I. } { intro H. eapply iv_dis with (c := 0) (d := c); eauto. }
  { intros y [<-|H]; eapply iv_bnd0; eauto. }
  set (m2 := free_page m1 x) in *. clearbody m2.
  assert (Fall : frame m0 m' ((u ++ v) ++ (x :: ch a 0))).
  { eapply frame_trans1; [eapply frame_trans; eassumption|]. eapply frame_mono; [|exact F2]. intros y []. }
  assert (Rc : rep m' c (u ++ v)).
  { split; [apply S3; rewrite S4 by auto; rewrite S1; reflexivity|].
    eapply seg_frame; [exact F2|intros y _ []|]. eapply seg_frame; [exact F3| |exact G1].
    intros y Hy. apply Huv in Hy. intros [<-|H]; [tauto|]. eapply iv_dis with (c := 0) (d := c); eauto. apply Hy. }
  assert (R0' : rep m' 0 (ch a 0 ++ [x])).
  { eapply keep1; [exact R2|exact F2|apply S2; auto|intros y _ []]. }
  unfold a_erase. rewrite E at 1. rewrite without_mid by auto.
  constructor; cbn [set_ch loose ch npages].
  - intro d. rewrite !upd_eq. destruct (Z.eqb_spec d 0) as [->|n0]; [left; exact R0'|]. destruct (Z.eqb_spec d c) as [->|n]; [left; exact Rc|].
    eapply keep; [apply I|exact Fall| |].
    + rewrite S2, S4, S1; auto.
    + intros y Hy H. rewrite in_app_iff, Huv in H. cbn in H. destruct H as [[H _]|[->|H]]; [|eapply iv_dis with (c := d) (d := c); eauto|eapply iv_dis with (c := d) (d := 0); eauto].
      eapply iv_dis with (c := d) (d := c); eauto.
  - rewrite upd_same. exact R0'.
  - intro d. rewrite !upd_eq. destruct (Z.eqb_spec d 0) as [->|n0].
    + apply nodup_app_intro; [apply I|constructor; [intros []|constructor]|]. intros y Hy [<-|[]]. eapply iv_dis with (c := 0) (d := c); eauto.
    + destruct (Z.eqb_spec d c) as [->|n]; [exact Nuv|apply I].
  - apply I.
  - assert (D : forall d y, d <> 0 -> In y (upd (ch a) c (u ++ v) d) -> In y (ch a d) /\ y <> x).
    { intros d y Hd. rewrite upd_eq. destruct (Z.eqb_spec d c) as [->|n]; [apply Huv|]. intro H; split; auto. intros ->. eapply iv_dis with (c := d) (d := c); eauto. }
    assert (D0 : forall y, In y (ch a 0 ++ [x]) -> In y (ch a 0) \/ y = x). { intro y. rewrite in_app_iff. cbn. intuition. }
    intros d e y Hde. rewrite (upd_eq _ 0 _ d), (upd_eq _ 0 _ e).
    destruct (Z.eqb_spec d 0) as [->|]; destruct (Z.eqb_spec e 0) as [->|]; try congruence; intros H H'.
    + apply D in H'; auto. apply D0 in H. destruct H as [H| ->]; [|tauto]. eapply iv_dis with (c := 0) (d := e); eauto. apply H'.
    + apply D in H; auto. apply D0 in H'. destruct H' as [H'| ->]; [|tauto]. eapply iv_dis with (c := 0) (d := d); eauto. apply H.
    + apply D in H; auto. apply D in H'; auto. eapply iv_dis with (c := d) (d := e); eauto; [apply H|apply H'].
  - intros d y. rewrite !upd_eq. destruct (Z.eqb_spec d 0) as [->|n0].
    + rewrite in_app_iff. intros [H|[<-|[]]] H'; eapply iv_disl; eauto.
    + destruct (Z.eqb_spec d c) as [->|n]; [rewrite Huv; intros [H _] H'|intros H H']; eapply iv_disl; eauto.
  - intros d y. rewrite !upd_eq. destruct (Z.eqb_spec d 0) as [->|n0].
    + rewrite in_app_iff. intros [H|[<-|[]]]; eapply iv_bnd; eauto.
    + destruct (Z.eqb_spec d c) as [->|n]; [rewrite Huv; intros [H _]|intros H]; eapply iv_bnd; eauto.
  - apply I.
  - destruct Fall as (Q & _). rewrite Q. apply I.
  - destruct Fall as (_ & Q & _). rewrite Q. apply I.
  - apply I.
Qed.

Lemma begin_rep {A} (m : mem A) c l : rep m c l -> (forall y, In y l -> 0 < y < page_nil) -> l_begin m c = at_hd l.
Proof.
  intros (S & _) B. unfold l_begin. rewrite S. cbn [front]. destruct l as [|x l]; [cbn [hd]; rewrite Z.eqb_refl; reflexivity|].
  cbn [hd at_hd]. assert (0 < x < page_nil) by (apply B; left; auto). destruct (Z.eqb_spec x page_nil); [lia|reflexivity].
Qed.
Lemma rend_rep {A} (m : mem A) c l x : rep m c (l ++ [x]) -> (forall y, In y (l ++ [x]) -> 0 < y < page_nil) -> l_rend m c = mkL x E_none.
Proof.
  intros (S & _) B. unfold l_rend. rewrite S. cbn [back]. rewrite last_snoc.
  assert (0 < x < page_nil) by (apply B; apply in_or_app; right; left; auto). destruct (Z.eqb_spec x page_nil); [lia|reflexivity].
Qed.

Lemma splice_step {A} rm (m : mem A) a c d : Inv rm m a -> rep m c (ch a c) -> rep m d (ch a d) -> c <> d -> d <> 0 -> (ch a c = [] -> ch a d = []) ->
  exists m', l_splice m c d = Ok m' /\ Inv rm m' (set_ch (set_ch a c (ch a c ++ ch a d)) d []).
Proof.
  intros I Rc Rd Hcd Hd H.
  destruct (splice_rep m c d (ch a c) (ch a d)) as (m' & E & R1 & R2 & F & S); auto.
  { apply nodup_app_intro; try apply I. intros x H1 H2. eapply iv_dis with (c := c) (d := d); eauto. }
  { intros y Hy. apply in_app_or in Hy. destruct Hy; eapply iv_bnd0; eauto. }
  exists m'; split; [exact E|]. constructor; cbn [set_ch loose ch npages].
  - intro e. rewrite !upd_eq. destruct (Z.eqb_spec e d) as [->|]; [left; exact R2|]. destruct (Z.eqb_spec e c) as [->|]; [left; exact R1|].
    eapply keep; [apply I|exact F|auto|]. intros x Hx Hx'. apply in_app_or in Hx'. destruct Hx'; [eapply iv_dis with (c := e) (d := c); eauto|eapply iv_dis with (c := e) (d := d); eauto].
  - rewrite !upd_eq. destruct (Z.eqb_spec 0 d) as [|]; [congruence|]. destruct (Z.eqb_spec 0 c) as [<-|]; [exact R1|].
    eapply keep1; [apply I|exact F|auto|]. intros x Hx Hx'. apply in_app_or in Hx'. destruct Hx'; [eapply iv_dis with (c := 0) (d := c); eauto|eapply iv_dis with (c := 0) (d := d); eauto].
  - intro e. rewrite !upd_eq. destruct (Z.eqb_spec e d) as [->|]; [constructor|]. destruct (Z.eqb_spec e c) as [->|]; [|apply I].
    apply nodup_app_intro; try apply I. intros x H1 H2. eapply iv_dis with (c := c) (d := d); eauto.
  - apply I.
  - intros e f x Hef. rewrite (upd_eq _ d _ e), (upd_eq _ d _ f).
    assert (D : forall e, e <> d -> In x (upd (ch a) c (ch a c ++ ch a d) e) -> In x (ch a e) \/ (e = c /\ In x (ch a d))).
    { intros e0 H0. rewrite upd_eq. destruct (Z.eqb_spec e0 c) as [->|]; [rewrite in_app_iff; tauto|tauto]. }
    destruct (Z.eqb_spec e d) as [->|]; [intros []|]. destruct (Z.eqb_spec f d) as [->|]; [intros _ []|].
    intros H1 H2. apply D in H1; auto. apply D in H2; auto. destruct H1 as [H1|[-> H1]]; destruct H2 as [H2|[-> H2]]; try congruence.
    + eapply iv_dis with (c := e) (d := f); eauto.
    + eapply iv_dis with (c := e) (d := d); eauto.
    + eapply iv_dis with (c := f) (d := d); eauto.
  - intros e x. rewrite !upd_eq. destruct (Z.eqb_spec e d) as [->|]; [intros []|]. destruct (Z.eqb_spec e c) as [->|]; [|apply I].
    rewrite in_app_iff. intros [H1|H1] H2; eapply iv_disl; eauto.
  - intros e x. rewrite !upd_eq. destruct (Z.eqb_spec e d) as [->|]; [intros []|]. destruct (Z.eqb_spec e c) as [->|]; [|apply I].
    rewrite in_app_iff. intros [H1|H1]; eapply iv_bnd; eauto.
  - apply I.
  - destruct F as (Q & _). rewrite Q. apply I.
  - destruct F as (_ & Q & _). rewrite Q. apply I.
  - apply I.
Qed.

Lemma alloc_step {A} rm (m : mem A) a a' r : Inv rm m a -> astep rm a OAlloc = Some (a', r) ->
  exists m', alloc_page m = (m', r) /\ Inv rm m' a'.
Proof.
  intros I H. cbn [astep] in H. unfold alloc_page. destruct (rev (ch a 0)) as [|p q] eqn:E.
  - apply (f_equal (@rev Z)) in E. rewrite rev_involutive in E. cbn in E.
    assert (Hpop : exists m0, pop_free m = (m0, page_nil) /\ Inv rm m0 a).
    { unfold pop_free. destruct (init_inv _ _ _ 0 I) as (I0 & R0). exists (l_init m 0). rewrite (l_empty_rep _ 0 (ch a 0)); [rewrite E; auto| |exact R0]. intros; eapply iv_bnd0; eauto. }
    destruct Hpop as (m0 & -> & I0). rewrite Z.eqb_refl. clear I m.
    unfold create_page. rewrite (iv_size _ _ _ I0), (iv_room _ _ _ I0). pose proof (iv_rb _ _ _ I0) as RB.
    destruct (npages a <? rm) eqn:El; injection H; intros; subst a' r.
    + eexists; split; [reflexivity|]. apply Z.ltb_lt in El.
      assert (K : forall c, forall x, In x (ch a c) -> x <> npages a). { intros c x Hx. apply (iv_bnd _ _ _ I0) in Hx. lia. }
      assert (Kl : forall x, In x (loose a) -> x <> npages a). { intros x Hx. apply (iv_bndl _ _ _ I0) in Hx. lia. }
      assert (KS : forall l p n, (forall x, In x l -> x <> npages a) -> seg (pages m0) p l n -> seg (upd (pages m0) (npages a) (mkPage 0 0 0 0 (fun _ => m_zero m0))) p l n).
      { intros l p n Hl. apply seg_same. intros x Hx. unfold same_links. rewrite upd_other; auto. }
      constructor; cbn [pages fsize room sts tots ch loose npages].
      * intro c. destruct (iv_rep _ _ _ I0 c) as [(S & G)|[E0 S]]; [left; split; [exact S|apply KS; eauto]|right; auto].
      * destruct (iv_free _ _ _ I0) as (S & G). split; [exact S|]. cbn [pages]. apply KS; eauto.
      * apply I0.
      * constructor; [|apply I0]. intro Hx. apply Kl in Hx. congruence.
      * apply I0.
      * intros c x Hx [<-|Hx']; [eapply K; eauto|eapply iv_disl; eauto].
      * intros c x Hx. apply (iv_bnd _ _ _ I0) in Hx. lia.
      * intros x [<-|Hx]; [lia|]. apply (iv_bndl _ _ _ I0) in Hx. lia.
      * reflexivity.
      * first [apply I0|reflexivity].
      * lia.
    + exists m0. split; [reflexivity|exact I0].
  - assert (E' : ch a 0 = rev q ++ [p]). { apply (f_equal (@rev Z)) in E. rewrite rev_involutive in E. exact E. }
    injection H; intros; subst a' r. clear H.
    pose proof (iv_free _ _ _ I) as R. rewrite E' in R. pose proof (iv_nd _ _ _ I 0) as N. rewrite E' in N.
    destruct (pop_free_rep m (rev q) p R N) as (m' & -> & R' & F & S).
    { rewrite <- E'. intros; eapply iv_bnd0; eauto. }
    assert (Hin : forall x, In x (ch a 0) <-> x = p \/ In x (rev q)). { intro x. rewrite E', in_app_iff. cbn. intuition. }
    assert (Hpb : 0 < p < page_nil). { eapply iv_bnd0 with (c := 0); [exact I|]. apply Hin; auto. }
    destruct (Z.eqb_spec p page_nil); [lia|]. exists m'; split; [reflexivity|].
    apply nodup_split in N. destruct N as (Np & _ & N). rewrite app_nil_r in N.
    constructor; cbn [set_loose set_ch loose ch npages].
    + intro c. rewrite upd_eq. destruct (Z.eqb_spec c 0) as [->|]; [left; exact R'|].
      eapply keep; [apply I|exact F|auto|]. intros x Hx Hx'. rewrite <- E' in Hx'. eapply iv_dis with (c := c) (d := 0); eauto.
    + rewrite upd_same. exact R'.
    + intro c. rewrite upd_eq. destruct (Z.eqb_spec c 0) as [->|]; [exact N|apply I].
    + constructor; [|apply I]. intro H. eapply iv_disl with (c := 0); [exact I| |exact H]. apply Hin; auto.
    + intros c d x Hcd. rewrite !upd_eq. destruct (Z.eqb_spec c 0) as [->|]; destruct (Z.eqb_spec d 0) as [->|]; try congruence; intros H1 H2.
      * eapply iv_dis with (c := 0) (d := d); eauto. apply Hin; auto.
      * eapply iv_dis with (c := c) (d := 0); eauto. apply Hin; auto.
      * eapply iv_dis with (c := c) (d := d); eauto.
    + intros c x. rewrite upd_eq. destruct (Z.eqb_spec c 0) as [->|]; intros H1 [<-|H2]; try congruence.
      * eapply iv_disl with (c := 0); [exact I| |exact H2]. apply Hin; auto.
      * eapply iv_dis with (c := c) (d := 0); eauto. apply Hin; auto.
      * eapply iv_disl; eauto.
    + intros c x. rewrite upd_eq. destruct (Z.eqb_spec c 0) as [->|]; intros H; [|eapply iv_bnd; eauto]. eapply iv_bnd with (c := 0); eauto. apply Hin; auto.
    + intros x [<-|H]; [|eapply iv_bndl; eauto]. eapply iv_bnd with (c := 0); eauto. apply Hin; auto.
    + destruct F as (Q & _). rewrite Q. apply I.
    + destruct F as (_ & Q & _). rewrite Q. apply I.
    + apply I.
Qed.

Lemma in_split_nd {B} (x : B) l : In x l -> NoDup l -> exists u v, l = u ++ x :: v /\ ~ In x u.
Proof. intros H N. apply in_split in H. destruct H as (u & v & ->). exists u, v. split; auto. apply nodup_split in N. tauto. Qed.
Lemma li_at_hd v : li_page (at_hd v) = hd page_nil v. Proof. destruct v; reflexivity. Qed.

Theorem step_ok {A} rm (m : mem A) a o a' r : Inv rm m a -> no_takeover a o -> astep rm a o = Some (a', r) ->
  exists m', exec m o = Ok (m', r) /\ Inv rm m' a'.
Proof.
  intros I NT H. destruct o as [|p|c p|c p|c q p|c q|c|c|c d|c]; cbn [exec].
  - destruct (alloc_step _ _ _ _ _ I H) as (m' & -> & I'). eauto.
  - cbn [astep] in H. destruct (mem_of p (loose a)) eqn:E; [|discriminate]. apply mem_of_in in E. injection H; intros; subst; clear H.
    destruct (ins_step rm m a 0 (ch a 0) [] p I E) as (m' & E' & I'); [rewrite app_nil_r; reflexivity|].
    exists m'. split; [|exact I']. unfold free_page. pose proof (iv_bndl0 _ _ _ _ I E). destruct (Z.eqb_spec p page_nil); [lia|].
    unfold l_push_back. cbn [at_hd] in E'. rewrite E'. reflexivity.
  - cbn [astep] in H. destruct (Z.eqb_spec c 0); [discriminate|]. cbn [negb andb] in H. destruct (mem_of p (loose a)) eqn:E; [|discriminate]. apply mem_of_in in E. injection H; intros; subst; clear H.
    destruct (ins_step rm m a c (ch a c) [] r I E) as (m' & E' & I'); [rewrite app_nil_r; reflexivity|].
    unfold l_push_back. cbn [at_hd] in E'. rewrite E'. exists m'; split; [reflexivity|exact I'].
  - cbn [astep] in H. destruct (Z.eqb_spec c 0); [discriminate|]. cbn [negb andb] in H. destruct (mem_of p (loose a)) eqn:E; [|discriminate]. apply mem_of_in in E. injection H; intros; subst; clear H.
    destruct (ins_step rm m a c [] (ch a c) r I E) as (m' & E' & I'); [reflexivity|].
    unfold l_push_front. rewrite (begin_rep _ c (ch a c)); [|apply (init_inv rm m a c I)|intros; eapply (iv_bnd0 _ _ _ _ _ I); eauto]. rewrite E'. exists m'; split; [reflexivity|exact I'].
  - cbn [astep] in H. destruct (Z.eqb_spec c 0); [discriminate|]. cbn [negb andb] in H. destruct (mem_of p (loose a)) eqn:E; [|discriminate]. destruct (mem_of q (ch a c)) eqn:E2; [|discriminate].
    apply mem_of_in in E, E2. cbn [andb] in H. injection H; intros; subst; clear H.
    destruct (in_split_nd _ _ E2 (iv_nd _ _ _ I c)) as (u & v & Eu & Nu).
    destruct (ins_step rm m a c u (q :: v) r I E Eu) as (m' & E' & I'). cbn [at_hd] in E'. rewrite E'. exists m'; split; [reflexivity|].
    rewrite Eu, before_mid by auto. exact I'.
  - cbn [astep] in H. destruct (Z.eqb_spec c 0); [discriminate|]. cbn [negb andb] in H. destruct (mem_of q (ch a c)) eqn:E2; [|discriminate].
    apply mem_of_in in E2. injection H; intros; subst; clear H.
    destruct (in_split_nd _ _ E2 (iv_nd _ _ _ I c)) as (u & v & Eu & Nu).
    destruct (ers_step rm m a c u q v I n Eu) as (m' & E' & I'). rewrite E'. exists m'; split; [|exact I']. rewrite Eu, after_mid, li_at_hd by auto. reflexivity.
  - cbn [astep] in H. destruct (rev (ch a c)) as [|q l] eqn:E; [discriminate|]. destruct (Z.eqb_spec c 0); [discriminate|]. cbn [negb] in H. injection H; intros; subst; clear H.
    assert (Eu : ch a c = rev l ++ [q]). { apply (f_equal (@rev Z)) in E. rewrite rev_involutive in E. exact E. }
    destruct (ers_step rm m a c _ _ _ I n Eu) as (m' & E' & I'). unfold l_pop_back.
    rewrite (rend_rep _ c (rev l) q); [|rewrite <- Eu; apply (init_inv rm m a c I)|rewrite <- Eu; intros; eapply (iv_bnd0 _ _ _ _ _ I); eauto]. rewrite E'. exists m'; split; [reflexivity|exact I'].
  - cbn [astep] in H. destruct (ch a c) as [|q l] eqn:E; [discriminate|]. destruct (Z.eqb_spec c 0); [discriminate|]. cbn [negb] in H. injection H; intros; subst; clear H.
    destruct (ers_step rm m a c [] q l I n E) as (m' & E' & I'). unfold l_pop_front.
    rewrite (begin_rep _ c (q :: l)); [|rewrite <- E; apply (init_inv rm m a c I)|rewrite <- E; intros; eapply (iv_bnd0 _ _ _ _ _ I); eauto]. cbn [at_hd]. rewrite E'. exists m'; split; [rewrite li_at_hd; reflexivity|exact I'].
  - cbn [astep] in H. destruct (Z.eqb_spec c 0); [discriminate|]. destruct (Z.eqb_spec d 0); [discriminate|]. destruct (Z.eqb_spec c d); [discriminate|]. cbn [negb andb] in H. injection H; intros; subst; clear H.
    destruct (init_inv rm m a c I) as (I1 & R1). destruct (init_inv rm _ a d I1) as (I2 & R2).
    assert (R1' : rep (l_init (l_init m c) d) c (ch a c)).
    { destruct (init_rep (l_init m c) d (ch a d)) as (_ & F & S); [apply I1|intros; eapply (iv_bnd0 _ _ _ _ _ I); eauto|]. eapply keep1; [exact R1|exact F|auto|intros x _ []]. }
    destruct (splice_step rm _ a c d I2 R1' R2) as (m' & E' & I'); auto. rewrite E'. eauto.
  - cbn [astep] in H. destruct (Z.eqb_spec c 0); [discriminate|]. cbn [negb andb] in H. injection H; intros; subst; clear H.
    destruct (init_inv rm m a c I) as (I1 & R1). destruct (init_inv rm _ a 0 I1) as (I2 & R2). unfold l_clear.
    assert (R1' : rep (l_init (l_init m c) 0) c (ch a c)).
    { destruct (init_rep (l_init m c) 0 (ch a 0)) as (_ & F & S); [apply I1|intros; eapply (iv_bnd0 _ _ _ _ _ I); eauto|]. eapply keep1; [exact R1|exact F|auto|intros x _ []]. }
    destruct (splice_step rm _ a 0 c I2 R2 R1') as (m' & E' & I'); auto. rewrite E'. eauto.
Qed.

Theorem run_ok {A} rm (m : mem A) a h a' rs : Inv rm m a -> no_takeovers rm a h -> arun rm a h = Some (a', rs) ->
  exists m', run m h = Ok (m', rs) /\ Inv rm m' a'.
Proof.
  revert m a rs. induction h as [|o h IH]; intros m a rs I NT H; cbn [arun run] in *.
  - injection H; intros; subst. eauto.
  - destruct NT as (NT1 & NT2). destruct (astep rm a o) as [[a1 r]|] eqn:E; [|discriminate].
    destruct (step_ok _ _ _ _ _ _ I NT1 E) as (m1 & -> & I1). destruct (arun rm a1 h) as [[a2 rs']|] eqn:E2; [|discriminate]. injection H; intros; subst.
    destruct (IH m1 a1 rs' I1 NT2 E2) as (m' & -> & I'). eauto.
Qed.

Lemma inv0 {A} (zero : A) rm : 2 <= rm < page_nil -> Inv rm (new_mem zero rm) a0.
Proof.
  intro H. constructor; cbn [a0 ch loose npages new_mem pages fsize room sts]; try (intros; exact (NoDup_nil _)); try (intros ? ? []); try (intros ? ? ? ? []); try (intros ? []); auto; try lia.
  - intro c. destruct (Z.eqb_spec c 0) as [->|n]; [left|right]; (split; [reflexivity|]); [exact Logic.I|]. cbn. apply Z.eqb_neq in n. rewrite n. reflexivity.
  - split; [reflexivity|exact Logic.I].
Qed.

Lemma seg_path_next {A} (P : Z -> page A) p l n : seg P p l n -> (forall x, In x l -> x <> page_nil) -> n = page_nil -> path (fun x => p_next (P x)) (hd n l) l.
Proof.
  revert p; induction l as [|x l IH]; intros p G B E; [exact E|]. cbn [path hd]. cbn [seg] in G. destruct G as (_ & _ & X & G).
  split; [reflexivity|]. split; [apply B; left; auto|]. rewrite X. eapply IH; eauto. intros; apply B; right; auto.
Qed.
Lemma seg_path_prev {A} (P : Z -> page A) l n : seg P page_nil l n -> (forall x, In x l -> x <> page_nil) -> path (fun x => p_prev (P x)) (last l page_nil) (rev l).
Proof.
  revert n; induction l as [|x l IH] using rev_ind; intros n G B; [reflexivity|]. rewrite rev_app_distr, last_snoc. cbn [rev app path].
  apply seg_app in G. destruct G as (G1 & G2). cbn [seg] in G2. destruct G2 as (_ & X & _).
  split; [reflexivity|]. split; [apply B; apply in_or_app; right; left; auto|]. rewrite X. eapply IH; eauto. intros; apply B; apply in_or_app; auto.
Qed.
Lemma inv_chain {A} rm (m : mem A) a c : Inv rm m a -> is_chain m c (ch a c).
Proof.
  intro I. assert (B : forall x, In x (ch a c) -> x <> page_nil) by (intros x Hx; pose proof (iv_bnd0 _ _ _ _ _ I Hx); lia).
  destruct (iv_rep _ _ _ I c) as [(S & G)|H]; [left|right; exact H]. rewrite S. cbn [front back]. split; [eapply seg_path_next; eauto|eapply seg_path_prev; eauto].
Qed.
Lemma inv_in_use {A} rm (m : mem A) a : Inv rm m a -> forall p, in_use a p -> 2 <= p < npages a /\ ~ In p (ch a 0).
Proof.
  intros I p [H|(c & Hc & H)]; (split; [first [eapply iv_bndl; eassumption|eapply iv_bnd; eassumption]|]); intro H0.
  - eapply iv_disl; eauto.
  - eapply iv_dis with (c := c) (d := 0); eauto.
Qed.
