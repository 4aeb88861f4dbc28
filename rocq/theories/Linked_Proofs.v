From Coq Require Import ZArith List Bool Lia.
From Verif Require Import Base Cache_Model Linked_Model Linked_Spec.
Import ListNotations.
Open Scope Z_scope.
Local Opaque page_nil.

Lemma upd_eq {B} (f : Z -> B) k v x : upd f k v x = if x =? k then v else f x. Proof. reflexivity. Qed.
Lemma upd_same {B} (f : Z -> B) k v : upd f k v k = v. Proof. rewrite upd_eq, Z.eqb_refl; reflexivity. Qed.
Lemma upd_other {B} (f : Z -> B) k v x : x <> k -> upd f k v x = f x.
Proof. intro H. rewrite upd_eq. apply Z.eqb_neq in H. rewrite H; reflexivity. Qed.

(** reads after writes *)
Section Reads.
Context {A : Type}.
Implicit Types m : mem A.
Lemma pos_set_pos m q v x : p_pos (pages (set_pos m q v) x) = if x =? q then v else p_pos (pages m x).
Proof. cbn. rewrite upd_eq. destruct (Z.eqb_spec x q); subst; reflexivity. Qed.
Lemma prev_set_pos m q v x : p_prev (pages (set_pos m q v) x) = p_prev (pages m x).
Proof. cbn. rewrite upd_eq. destruct (Z.eqb_spec x q); subst; reflexivity. Qed.
Lemma next_set_pos m q v x : p_next (pages (set_pos m q v) x) = p_next (pages m x).
Proof. cbn. rewrite upd_eq. destruct (Z.eqb_spec x q); subst; reflexivity. Qed.
Lemma pos_set_prev m q v x : p_pos (pages (set_prev m q v) x) = p_pos (pages m x).
Proof. cbn. rewrite upd_eq. destruct (Z.eqb_spec x q); subst; reflexivity. Qed.
Lemma prev_set_prev m q v x : p_prev (pages (set_prev m q v) x) = if x =? q then v else p_prev (pages m x).
Proof. cbn. rewrite upd_eq. destruct (Z.eqb_spec x q); subst; reflexivity. Qed.
Lemma next_set_prev m q v x : p_next (pages (set_prev m q v) x) = p_next (pages m x).
Proof. cbn. rewrite upd_eq. destruct (Z.eqb_spec x q); subst; reflexivity. Qed.
Lemma pos_set_next m q v x : p_pos (pages (set_next m q v) x) = p_pos (pages m x).
Proof. cbn. rewrite upd_eq. destruct (Z.eqb_spec x q); subst; reflexivity. Qed.
Lemma prev_set_next m q v x : p_prev (pages (set_next m q v) x) = p_prev (pages m x).
Proof. cbn. rewrite upd_eq. destruct (Z.eqb_spec x q); subst; reflexivity. Qed.
Lemma next_set_next m q v x : p_next (pages (set_next m q v) x) = if x =? q then v else p_next (pages m x).
Proof. cbn. rewrite upd_eq. destruct (Z.eqb_spec x q); subst; reflexivity. Qed.
Lemma pages_set_st m c s : pages (set_st m c s) = pages m. Proof. reflexivity. Qed.
Lemma pages_set_front m c s : pages (set_front m c s) = pages m. Proof. reflexivity. Qed.
Lemma pages_set_back m c s : pages (set_back m c s) = pages m. Proof. reflexivity. Qed.
Lemma sts_set_pos m q v : sts (set_pos m q v) = sts m. Proof. reflexivity. Qed.
Lemma sts_set_prev m q v : sts (set_prev m q v) = sts m. Proof. reflexivity. Qed.
Lemma sts_set_next m q v : sts (set_next m q v) = sts m. Proof. reflexivity. Qed.
Lemma sts_set_st m c s d : sts (set_st m c s) d = if d =? c then s else sts m d. Proof. reflexivity. Qed.
Lemma sts_set_front m c v d : sts (set_front m c v) d = if d =? c then mkState v (back (sts m c)) else sts m d. Proof. reflexivity. Qed.
Lemma sts_set_back m c v d : sts (set_back m c v) d = if d =? c then mkState (front (sts m c)) v else sts m d. Proof. reflexivity. Qed.
End Reads.
Global Hint Rewrite @pos_set_pos @prev_set_pos @next_set_pos @pos_set_prev @prev_set_prev @next_set_prev @pos_set_next @prev_set_next @next_set_next
  @pages_set_st @pages_set_front @pages_set_back @sts_set_pos @sts_set_prev @sts_set_next @sts_set_st @sts_set_front @sts_set_back : rd.

(** A part of a chain: [p] is the page before it, [n] the page after it. *)
Fixpoint seg {A} (P : Z -> page A) (p : Z) (l : list Z) (n : Z) : Prop :=
  match l with
  | [] => True
  | x :: l => p_pos (P x) = x /\ p_prev (P x) = p /\ p_next (P x) = hd n l /\ seg P x l n
  end.
Lemma seg_app {A} (P : Z -> page A) a b p n : seg P p (a ++ b) n <-> seg P p a (hd n b) /\ seg P (last a p) b n.
Proof.
  revert p; induction a as [|x a IH]; intros p.
  - cbn. tauto.
  - cbn [app seg]. rewrite IH.
    assert (E : last (x :: a) p = last a x). { destruct a; [reflexivity|]. cbn [last]. clear. revert z; induction a; intros; [reflexivity|]. cbn [last]. destruct a0; auto. }
    rewrite E. assert (E2 : hd n (a ++ b) = hd (hd n b) a) by (destruct a; reflexivity). rewrite E2. tauto.
Qed.
Definition same_links {A} (P Q : Z -> page A) (x : Z) : Prop :=
  p_pos (P x) = p_pos (Q x) /\ p_prev (P x) = p_prev (Q x) /\ p_next (P x) = p_next (Q x).
Lemma seg_same {A} (P Q : Z -> page A) l p n : (forall x, In x l -> same_links P Q x) -> seg P p l n -> seg Q p l n.
Proof.
  revert p; induction l as [|x l IH]; intros p H; [auto|]. cbn. intros (H1 & H2 & H3 & H4).
  destruct (H x) as (E1 & E2 & E3); [left; reflexivity|]. rewrite E1 in H1. rewrite E2 in H2. rewrite E3 in H3. split; [|split; [|split]]; auto.
  apply IH; auto. intros; apply H; right; auto.
Qed.
Lemma last_cons {B} (x : B) l d : last (x :: l) d = last l x.
Proof. revert x d; induction l; intros; [reflexivity|]. change (last (x :: a :: l) d) with (last (a :: l) d). rewrite IHl. symmetry; rewrite IHl; reflexivity. Qed.
Lemma last_snoc {B} (l : list B) x d : last (l ++ [x]) d = x.
Proof. induction l; [reflexivity|]. cbn [app]. rewrite last_cons. destruct l; [reflexivity|]. cbn [app] in *. rewrite last_cons in IHl. rewrite last_cons. exact IHl. Qed.
Lemma last_app {B} (a b : list B) d : last (a ++ b) d = last b (last a d).
Proof. revert d; induction a; intros; [reflexivity|]. cbn [app]. rewrite !last_cons. apply IHa. Qed.
Lemma hd_app {B} (a b : list B) d : hd d (a ++ b) = hd (hd d b) a. Proof. destruct a; reflexivity. Qed.
Lemma last_in {B} (l : list B) d : l <> [] -> In (last l d) l.
Proof. induction l using rev_ind; [congruence|]. intros _. rewrite last_snoc. apply in_or_app; right; left; reflexivity. Qed.
Lemma hd_in {B} (l : list B) d : l <> [] -> In (hd d l) l.
Proof. destruct l; [congruence|]. intros _; left; reflexivity. Qed.

(** The chain [c] holds the pages [l]. *)
Definition rep {A} (m : mem A) (c : Z) (l : list Z) : Prop :=
  sts m c = mkState (hd page_nil l) (last l page_nil) /\ seg (pages m) page_nil l page_nil.
(** Only the links of the pages [L] may differ; items never do. *)
Definition frame {A} (m m' : mem A) (L : list Z) : Prop :=
  fsize m' = fsize m /\ room m' = room m /\ tots m' = tots m /\ m_zero m' = m_zero m /\
  (forall x, ~ In x L -> pages m' x = pages m x) /\
  (forall x, p_cnt (pages m' x) = p_cnt (pages m x) /\ p_arr (pages m' x) = p_arr (pages m x)).
Lemma frame_refl {A} (m : mem A) L : frame m m L. Proof. unfold frame; auto 10. Qed.
Lemma frame_trans {A} (m m' m'' : mem A) L L' : frame m m' L -> frame m' m'' L' -> frame m m'' (L ++ L').
Proof.
  unfold frame. intros (A1 & A2 & A3 & A4 & A5 & A6) (B1 & B2 & B3 & B4 & B5 & B6).
  repeat split; try congruence.
  - intros x H. rewrite B5, A5; auto; intro; apply H; apply in_or_app; auto.
  - destruct (A6 x), (B6 x); congruence.
  - destruct (A6 x), (B6 x); congruence.
Qed.
Lemma frame_mono {A} (m m' : mem A) L L' : incl L L' -> frame m m' L -> frame m m' L'.
Proof. unfold frame. intros I (A1 & A2 & A3 & A4 & A5 & A6). repeat split; auto; try apply A6. Qed.
Lemma frame_trans1 {A} (m m' m'' : mem A) L : frame m m' L -> frame m' m'' L -> frame m m'' L.
Proof. intros H H'. eapply frame_mono; [|eapply frame_trans; eassumption]. intros x Hx; apply in_app_or in Hx; tauto. Qed.
Lemma frame_set_prev {A} (m : mem A) q v L : In q L -> frame m (set_prev m q v) L.
Proof. intro H. unfold frame. cbn. repeat split; auto; intros; rewrite upd_eq; destruct (Z.eqb_spec x q); subst; try tauto; reflexivity. Qed.
Lemma frame_set_next {A} (m : mem A) q v L : In q L -> frame m (set_next m q v) L.
Proof. intro H. unfold frame. cbn. repeat split; auto; intros; rewrite upd_eq; destruct (Z.eqb_spec x q); subst; try tauto; reflexivity. Qed.
Lemma frame_set_pos {A} (m : mem A) q v L : In q L -> frame m (set_pos m q v) L.
Proof. intro H. unfold frame. cbn. repeat split; auto; intros; rewrite upd_eq; destruct (Z.eqb_spec x q); subst; try tauto; reflexivity. Qed.
Lemma frame_set_st {A} (m : mem A) c s L : frame m (set_st m c s) L.
Proof. unfold frame; cbn; auto 10. Qed.
Lemma frame_set_front {A} (m : mem A) c s L : frame m (set_front m c s) L.
Proof. unfold frame; cbn; auto 10. Qed.
Lemma frame_set_back {A} (m : mem A) c s L : frame m (set_back m c s) L.
Proof. unfold frame; cbn; auto 10. Qed.
Ltac fr := first [apply frame_refl | apply frame_set_prev; fr_in | apply frame_set_next; fr_in | apply frame_set_pos; fr_in | apply frame_set_st | apply frame_set_front | apply frame_set_back
  | eapply frame_trans1; [|first [apply frame_set_prev; fr_in | apply frame_set_next; fr_in | apply frame_set_pos; fr_in | apply frame_set_st | apply frame_set_front | apply frame_set_back]]; fr ]
with fr_in := first [assumption | left; reflexivity | right; fr_in | apply in_or_app; left; fr_in | apply in_or_app; right; fr_in].

Lemma seg_frame {A} (m m' : mem A) L l p n : frame m m' L -> (forall x, In x l -> ~ In x L) -> seg (pages m) p l n -> seg (pages m') p l n.
Proof. intros (_ & _ & _ & _ & F & _) H. apply seg_same. intros x Hx. unfold same_links. rewrite F; auto. Qed.

Lemma l_init_noop {A} (m : mem A) c l : (forall x, In x l -> 0 < x < page_nil) -> rep m c l -> l_init m c = m \/ (l = [] /\ l_init m c = set_st m c (mkState page_nil page_nil)).
Proof.
  intros B (S & _). unfold l_init. rewrite S. cbn [front back]. destruct l as [|x l]; [right; split; [reflexivity|]; cbn; reflexivity|].
  left. cbn [hd]. assert (0 < x < page_nil) by (apply B; left; reflexivity).
  destruct (Z.eqb_spec x page_nil); [lia|]. destruct (Z.eqb_spec x 0); [lia|]. reflexivity.
Qed.
Lemma l_empty_rep {A} (m : mem A) c l : (forall x, In x l -> 0 < x < page_nil) -> rep m c l -> l_empty m c = match l with [] => true | _ => false end.
Proof.
  intros B (S & _). unfold l_empty. rewrite S. cbn [front back]. destruct l as [|x l]; [reflexivity|].
  assert (0 < x < page_nil) by (apply B; left; reflexivity).
  assert (In (last (x :: l) page_nil) (x :: l)) by (apply last_in; congruence). apply B in H0.
  apply orb_false_iff; split; apply Z.eqb_neq; cbn [hd]; lia.
Qed.

(** where an insertion before [b] points *)
Definition at_hd (b : list Z) : litr := match b with [] => l_end | x :: _ => mkL x E_none end.

Lemma insert_rep {A} (m : mem A) c a b pos :
  rep m c (a ++ b) -> NoDup (a ++ b) -> ~ In pos (a ++ b) -> (forall x, In x (pos :: a ++ b) -> 0 < x < page_nil) ->
  exists m', l_insert m c (at_hd b) pos = Ok (m', mkL pos E_none) /\ rep m' c (a ++ pos :: b) /\ frame m m' (pos :: a ++ b) /\
    (forall d, d <> c -> sts m' d = sts m d).
Proof.
  intros R ND NI B. pose proof R as (S & G).
  assert (Ba : forall x, In x (a ++ b) -> 0 < x < page_nil) by (intros; apply B; right; auto).
  assert (Bp : 0 < pos < page_nil) by (apply B; left; auto).
  pose proof (l_empty_rep m c _ Ba R) as EE.
  assert (Hth : (li_page (at_hd b) =? page_nil) && negb (edge_eqb (li_edge (at_hd b)) E_end) = false).
  { destruct b as [|y b]; [reflexivity|]. cbn. assert (0 < y < page_nil) by (apply Ba; apply in_or_app; right; left; auto).
    destruct (Z.eqb_spec y page_nil); [lia|]; reflexivity. }
  unfold l_insert. rewrite Hth. clear Hth. eexists; split; [reflexivity|].
  (* the pages *)
  unfold l_insert_nostate.
  set (m1 := set_next (set_prev (set_pos m pos pos) pos page_nil) pos page_nil).
  assert (E1 : l_empty m1 c = l_empty m c) by reflexivity. rewrite E1, EE. clear E1.
  assert (F1 : frame m m1 (pos :: a ++ b)) by (unfold m1; fr).
  assert (G1 : seg (pages m1) page_nil (a ++ b) page_nil).
  { eapply (seg_frame m m1 [pos]); [unfold m1; fr| |exact G]. intros x Hx [->|[]]; auto. }
  assert (P1 : p_pos (pages m1 pos) = pos /\ p_prev (pages m1 pos) = page_nil /\ p_next (pages m1 pos) = page_nil).
  { unfold m1. autorewrite with rd. rewrite Z.eqb_refl. auto. }
  assert (S1 : forall d, sts m1 d = sts m d) by reflexivity.
  clearbody m1. destruct P1 as (P1a & P1b & P1c).
  destruct (a ++ b) as [|z w] eqn:Eab.
  - (* empty *)
    apply app_eq_nil in Eab. destruct Eab; subst. cbn [at_hd li_page li_edge l_end edge_eqb app].
    rewrite S1, S. cbn [front back hd last]. rewrite Z.eqb_refl. cbn [orb]. rewrite !orb_true_r.
    split; [|split].
    + split; [autorewrite with rd; rewrite Z.eqb_refl; reflexivity|]. cbn [seg]. autorewrite with rd. auto.
    + eapply frame_trans1; [exact F1|]. autorewrite with rd. fr.
    + intros d Hd. apply Z.eqb_neq in Hd. autorewrite with rd. rewrite Hd. apply S1.
  - rewrite <- Eab in *.
    assert (Hne : a ++ b <> []) by (rewrite Eab; discriminate). clear z w Eab EE.
    assert (Hf : front (sts m c) = hd page_nil (a ++ b)) by (rewrite S; reflexivity).
    assert (Hb : back (sts m c) = last (a ++ b) page_nil) by (rewrite S; reflexivity).
    destruct b as [|y b].
    + (* at the end *)
      rewrite app_nil_r in *. cbn [at_hd li_page li_edge l_end edge_eqb app]. rewrite Z.eqb_refl.
      destruct (@exists_last _ a Hne) as (a' & z & ->). rewrite last_snoc in Hb. rewrite Hb.
      assert (Hz : 0 < z < page_nil) by (apply Ba; apply in_or_app; right; left; auto).
      assert (Hpz : pos <> z). { intro; subst; apply NI; apply in_or_app; right; left; auto. }
      set (m2 := set_prev (set_next m1 z pos) pos z).
      assert (S2 : forall d, sts m2 d = sts m d) by (intro; unfold m2; autorewrite with rd; apply S1).
      assert (F2 : frame m1 m2 (pos :: a' ++ [z])) by (unfold m2; fr).
      assert (G2 : seg (pages m2) page_nil ((a' ++ [z]) ++ [pos]) page_nil).
      { apply seg_app in G1. destruct G1 as (G1 & G1'). cbn [seg] in G1'. destruct G1' as (Q1 & Q2 & _ & _).
        cbn [hd] in G1. apply seg_app; split; [apply seg_app; split|].
        - apply (seg_frame m1 m2 [z; pos]); [unfold m2; fr| |exact G1].
          intros x Hx [->|[->|[]]]; [|apply NI; apply in_or_app; auto]. apply NoDup_remove_2 in ND. rewrite app_nil_r in ND. auto.
        - cbn [seg]. unfold m2; autorewrite with rd. rewrite !Z.eqb_refl. destruct (Z.eqb_spec z pos); [congruence|]. auto.
        - cbn [seg]. rewrite last_snoc. unfold m2; autorewrite with rd. rewrite !Z.eqb_refl. destruct (Z.eqb_spec pos z); [congruence|]. auto. }
      clearbody m2.
      assert (C1 : (front (sts m2 c) =? page_nil) || (front (sts m2 c) =? page_nil) = false).
      { rewrite S2, Hf. assert (0 < hd page_nil (a' ++ [z]) < page_nil) by (apply Ba; apply hd_in; auto). destruct (Z.eqb_spec (hd page_nil (a' ++ [z])) page_nil); [lia|]. reflexivity. }
      rewrite C1, orb_true_r.
      split; [|split].
      * split; [|autorewrite with rd; exact G2]. autorewrite with rd. rewrite Z.eqb_refl, S2, Hf. f_equal; [destruct a'; reflexivity|rewrite last_snoc; reflexivity].
      * eapply frame_trans1; [exact F1|]. eapply frame_trans1; [exact F2|]. fr.
      * intros d Hd. apply Z.eqb_neq in Hd. autorewrite with rd. rewrite Hd. apply S2.
    + (* before y *)
      cbn [at_hd li_page li_edge edge_eqb].
      assert (Hy : 0 < y < page_nil) by (apply Ba; apply in_or_app; right; left; auto).
      assert (Hpy : pos <> y). { intro; subst; apply NI; apply in_or_app; right; left; auto. }
      destruct (Z.eqb_spec y page_nil) as [|_]; [lia|].
      assert (Hbk : back (sts m c) =? page_nil = false).
      { rewrite Hb. assert (In (last (a ++ y :: b) page_nil) (a ++ y :: b)) by (apply last_in; auto). apply Ba in H. apply Z.eqb_neq; lia. }
      pose proof G1 as G1s. apply seg_app in G1s. destruct G1s as (Ga & Gb). cbn [seg hd] in Ga, Gb. destruct Gb as (Y1 & Y2 & Y3 & Y4).
      rewrite Y2.
      destruct a as [|a0 a'] eqn:Ea.
      * (* at the front *)
        cbn [last]. rewrite Z.eqb_refl. cbn [app] in *.
        set (m2 := set_prev (set_next m1 pos y) y pos).
        assert (S2 : forall d, sts m2 d = sts m d) by (intro; unfold m2; autorewrite with rd; apply S1).
        assert (F2 : frame m1 m2 (pos :: y :: b)) by (unfold m2; fr).
        assert (G2 : seg (pages m2) page_nil (pos :: y :: b) page_nil).
        { cbn [seg hd]. unfold m2; autorewrite with rd. rewrite !Z.eqb_refl. destruct (Z.eqb_spec y pos); [congruence|]. destruct (Z.eqb_spec pos y); [congruence|].
          repeat (split; auto). apply (seg_frame m1 _ [pos; y]); [fr| |exact Y4].
          intros x Hx [->|[->|[]]]; [apply NI; right; auto|]. inversion ND; auto. }
        clearbody m2. rewrite S2, Hf. cbn [hd]. rewrite Z.eqb_refl, orb_true_r. autorewrite with rd. rewrite Z.eqb_refl. cbn [back]. rewrite S2, Hbk. cbn [orb].
        split; [|split].
        -- split; [|autorewrite with rd; exact G2]. autorewrite with rd. rewrite Z.eqb_refl. cbn [hd]. rewrite S2, Hb. rewrite (last_cons pos). f_equal. rewrite !last_cons; reflexivity.
        -- eapply frame_trans1; [exact F1|]. eapply frame_trans1; [exact F2|]. fr.
        -- intros d Hd. apply Z.eqb_neq in Hd. autorewrite with rd. rewrite Hd. apply S2.
      * (* in the middle *)
        rewrite <- Ea in *. assert (Hane : a <> []) by (rewrite Ea; discriminate). clear Ea a0 a'.
        destruct (@exists_last _ a Hane) as (a' & z & ->). clear Hane. rewrite last_snoc.
        assert (Hz : 0 < z < page_nil) by (apply Ba; apply in_or_app; left; apply in_or_app; right; left; auto).
        assert (Hpz : pos <> z). { intro; subst; apply NI; apply in_or_app; left; apply in_or_app; right; left; auto. }
        destruct (Z.eqb_spec z page_nil) as [|_]; [lia|].
        assert (Hzy : z <> y). { rewrite <- app_assoc in ND. apply NoDup_remove_2 in ND. intros ->. apply ND. apply in_or_app; right; left; auto. }
        set (m2 := set_prev (set_next (set_prev (set_next m1 z pos) pos z) pos y) y pos).
        assert (S2 : forall d, sts m2 d = sts m d) by (intro; unfold m2; autorewrite with rd; apply S1).
        assert (F2 : frame m1 m2 (pos :: (a' ++ [z]) ++ y :: b)) by (unfold m2; fr).
        assert (G2 : seg (pages m2) page_nil ((a' ++ [z]) ++ pos :: y :: b) page_nil).
        { apply seg_app in Ga. destruct Ga as (Ga & Gz). cbn [seg hd] in Ga, Gz. destruct Gz as (Q1 & Q2 & _ & _).
          apply seg_app; split; [apply seg_app; split|].
          - apply (seg_frame m1 m2 [z; pos; y]); [unfold m2; fr| |exact Ga].
            rewrite <- app_assoc in ND. cbn [app] in ND.
            intros x Hx [->|[->|[->|[]]]].
            + apply NoDup_remove_2 in ND. apply ND. apply in_or_app; left; auto.
            + apply NI. rewrite <- app_assoc. apply in_or_app; auto.
            + change (a' ++ z :: x :: b) with (a' ++ [z] ++ x :: b) in ND. rewrite app_assoc in ND. apply NoDup_remove_2 in ND. apply ND. apply in_or_app; left. apply in_or_app; auto.
          - cbn [seg]. unfold m2; autorewrite with rd. rewrite !Z.eqb_refl. destruct (Z.eqb_spec z pos); [congruence|]. destruct (Z.eqb_spec z y); [congruence|]. auto.
          - rewrite last_snoc in *. cbn [seg hd]. unfold m2; autorewrite with rd. rewrite !Z.eqb_refl.
            destruct (Z.eqb_spec pos z); [congruence|]. destruct (Z.eqb_spec y pos); [congruence|]. destruct (Z.eqb_spec pos y); [congruence|]. destruct (Z.eqb_spec y z); [congruence|].
            repeat (split; auto). apply (seg_frame m1 _ [z; pos; y]); [fr| |exact Y4].
            intros x Hx [->|[->|[->|[]]]].
            + rewrite <- app_assoc in ND. apply NoDup_remove_2 in ND. apply ND. apply in_or_app; right; right; auto.
            + apply NI. apply in_or_app; right; right; auto.
            + apply NoDup_remove_2 in ND. apply ND. apply in_or_app; auto. }
        clearbody m2.
        assert (Hh : hd page_nil ((a' ++ [z]) ++ y :: b) = hd page_nil ((a' ++ [z]) ++ pos :: y :: b)) by (destruct a'; reflexivity).
        assert (Hfr : (front (sts m2 c) =? page_nil) || (front (sts m2 c) =? y) = false).
        { rewrite S2, Hf. assert (Hin : In (hd page_nil (a' ++ [z])) (a' ++ [z])) by (apply hd_in; destruct a'; discriminate).
          assert (E : hd page_nil ((a' ++ [z]) ++ y :: b) = hd page_nil (a' ++ [z])) by (destruct a'; reflexivity). rewrite E.
          assert (0 < hd page_nil (a' ++ [z]) < page_nil) by (apply Ba; apply in_or_app; auto).
          apply orb_false_iff; split; apply Z.eqb_neq; [lia|]. intro Q. rewrite Q in Hin. apply NoDup_remove_2 in ND. apply ND. apply in_or_app; auto. }
        rewrite Hfr, S2, Hbk. cbn [orb].
        split; [|split].
        -- split; [|exact G2]. rewrite S2, S. f_equal; [exact Hh|]. rewrite !last_app, !last_cons. reflexivity.
        -- eapply frame_trans1; [exact F1|]. exact F2.
        -- intros d Hd. apply S2.
Qed.

Lemma nodup_split {B} (a : list B) x b : NoDup (a ++ x :: b) -> ~ In x a /\ ~ In x b /\ NoDup (a ++ b).
Proof. intro H. pose proof (NoDup_remove_1 _ _ _ H). apply NoDup_remove_2 in H. split; [|split]; auto; intro; apply H; apply in_or_app; auto. Qed.
Lemma nodup_app_l {B} (a b : list B) : NoDup (a ++ b) -> NoDup a.
Proof. induction a; cbn; intro H; [constructor|]. inversion H; subst. constructor; auto. intro; apply H2; apply in_or_app; auto. Qed.
Lemma nodup_app_r {B} (a b : list B) : NoDup (a ++ b) -> NoDup b.
Proof. induction a; cbn; intro H; auto. inversion H; auto. Qed.
Lemma nodup_app_disj {B} (a b : list B) x : NoDup (a ++ b) -> In x a -> In x b -> False.
Proof. induction a; cbn; intros H K J; [auto|]. inversion H; subst. destruct K as [->|K]; [apply H2; apply in_or_app; auto|eauto]. Qed.
Lemma nodup_app_intro {B} (a b : list B) : NoDup a -> NoDup b -> (forall x, In x a -> In x b -> False) -> NoDup (a ++ b).
Proof. induction a; cbn; intros H J K; auto. inversion H; subst. constructor; [|apply IHa; eauto]. intro I; apply in_app_or in I; destruct I; [auto|eauto]. Qed.

(** src/x/vmem_linked.x.h:427-473: the part of erase_nostate before the page is freed *)
Definition unlink {A} (m : mem A) (pos : Z) : mem A * Z :=
  let m := if p_prev (pages m pos) =? page_nil then m else set_next m (p_prev (pages m pos)) (p_next (pages m pos)) in
  if p_next (pages m pos) =? page_nil then (m, p_prev (pages m pos))
  else (set_prev m (p_next (pages m pos)) (p_prev (pages m pos)), page_nil).
Lemma erase_nostate_unlink {A} (m : mem A) i : l_erase_nostate m i = let '(m, b) := unlink m (li_page i) in (free_page m (li_page i), b).
Proof. unfold l_erase_nostate, unlink. cbn zeta. destruct (_ =? page_nil); reflexivity. Qed.

Lemma unlink_seg {A} (m : mem A) a x b : seg (pages m) page_nil (a ++ x :: b) page_nil -> NoDup (a ++ x :: b) ->
  (forall y, In y (a ++ x :: b) -> 0 < y < page_nil) ->
  exists m1, unlink m x = (m1, match b with [] => last a page_nil | _ => page_nil end) /\
    seg (pages m1) page_nil (a ++ b) page_nil /\ frame m m1 (a ++ b) /\ sts m1 = sts m.
Proof.
  intros G ND B. pose proof (nodup_split _ _ _ ND) as (Nxa & Nxb & NDab).
  pose proof G as G0. apply seg_app in G0. destruct G0 as (Ga & Gx). cbn [seg hd] in Ga, Gx. destruct Gx as (X1 & X2 & X3 & Gb).
  unfold unlink. rewrite X2.
  set (m1 := if last a page_nil =? page_nil then m else set_next m (last a page_nil) (p_next (pages m x))).
  assert (P1 : pages m1 x = pages m x).
  { unfold m1. destruct (Z.eqb_spec (last a page_nil) page_nil); [reflexivity|]. cbn. rewrite upd_other; auto.
    intro; subst. apply Nxa. apply last_in. intros ->. apply n; reflexivity. }
  assert (F1 : frame m m1 (a ++ b)).
  { unfold m1. destruct (Z.eqb_spec (last a page_nil) page_nil) as [|n]; [fr|]. apply frame_set_next. apply in_or_app; left. apply last_in. intros ->. apply n; reflexivity. }
  assert (S1 : sts m1 = sts m). { unfold m1. destruct (_ =? _); reflexivity. }
  assert (Ga1 : seg (pages m1) page_nil a (hd page_nil b)).
  { unfold m1. destruct (Z.eqb_spec (last a page_nil) page_nil) as [E|n].
    - destruct a as [|y a]; [exact I|]. exfalso. assert (In (last (y :: a) page_nil) (y :: a)) by (apply last_in; discriminate).
      assert (0 < last (y :: a) page_nil < page_nil) by (apply B; apply in_or_app; auto). lia.
    - assert (Hne : a <> []) by (intros ->; apply n; reflexivity). destruct (@exists_last _ a Hne) as (a' & z & ->). rewrite last_snoc in *.
      apply seg_app in Ga. destruct Ga as (Ga & Gz). cbn [seg] in Gz. destruct Gz as (Q1 & Q2 & Q3 & _).
      apply seg_app; split.
      + apply (seg_frame m _ [z]); [fr| |exact Ga]. intros y Hy [->|[]]. apply nodup_app_l in ND. apply NoDup_remove_2 in ND. rewrite app_nil_r in ND. auto.
      + cbn [seg]. autorewrite with rd. rewrite Z.eqb_refl. rewrite X3. auto. }
  assert (Gb1 : seg (pages m1) x b page_nil).
  { apply (seg_frame m m1 a); [|intros y Hy Hy'|exact Gb].
    - unfold m1. destruct (Z.eqb_spec (last a page_nil) page_nil) as [|n]; [fr|]. apply frame_set_next. apply last_in. intros ->. apply n; reflexivity.
    - eapply nodup_app_disj; [exact NDab| |]; eauto. }
  clearbody m1. rewrite P1, X2, X3. destruct b as [|y b].
  - cbn [hd]. rewrite Z.eqb_refl. exists m1. rewrite app_nil_r in *. auto.
  - cbn [hd] in *. assert (0 < y < page_nil) by (apply B; apply in_or_app; right; right; left; auto).
    destruct (Z.eqb_spec y page_nil); [lia|]. eexists; split; [reflexivity|]. split; [|split].
    + cbn [seg] in Gb1. destruct Gb1 as (Y1 & Y2 & Y3 & Y4). apply seg_app; split.
      * cbn [hd]. apply (seg_frame m1 _ [y]); [fr| |exact Ga1]. intros z Hz [->|[]]. eapply nodup_app_disj; [exact NDab| |left]; eauto.
      * cbn [seg]. autorewrite with rd. rewrite Z.eqb_refl. repeat (split; auto).
        apply (seg_frame m1 _ [y]); [fr| |exact Y4]. intros z Hz [->|[]]. apply nodup_app_r in NDab. inversion NDab; auto.
    + eapply frame_trans1; [exact F1|]. apply frame_set_prev. apply in_or_app; right; left; auto.
    + autorewrite with rd. exact S1.
Qed.

Lemma next_rep {A} (m : mem A) c a x b : rep m c (a ++ x :: b) -> NoDup (a ++ x :: b) -> (forall y, In y (a ++ x :: b) -> 0 < y < page_nil) ->
  l_next m c (mkL x E_none) = at_hd b.
Proof.
  intros (S & G) ND B. unfold l_next.
  assert (Hx : 0 < x < page_nil) by (apply B; apply in_or_app; right; left; auto).
  assert (E1 : litr_eqb (mkL x E_none) l_end = false) by (unfold litr_eqb; cbn; apply andb_false_r).
  assert (E2 : litr_eqb (mkL x E_none) l_rbegin = false) by (unfold litr_eqb; cbn; apply andb_false_r).
  rewrite E1, E2. unfold l_rend. rewrite S. cbn [back].
  assert (Hl : In (last (a ++ x :: b) page_nil) (a ++ x :: b)) by (apply last_in; destruct a; discriminate).
  assert (0 < last (a ++ x :: b) page_nil < page_nil) by (apply B; auto).
  destruct (Z.eqb_spec (last (a ++ x :: b) page_nil) page_nil); [lia|].
  unfold litr_eqb. cbn [li_page li_edge edge_eqb]. rewrite andb_true_r.
  apply seg_app in G. destruct G as (_ & G). cbn [seg] in G. destruct G as (_ & _ & X3 & _).
  destruct b as [|y b].
  - rewrite last_snoc, Z.eqb_refl. reflexivity.
  - rewrite last_app, last_cons. destruct (Z.eqb_spec x (last (y :: b) x)) as [E|_].
    + exfalso. assert (In (last (y :: b) x) (y :: b)) by (apply last_in; discriminate). rewrite <- E in H0. apply nodup_split in ND. tauto.
    + destruct (Z.eqb_spec x page_nil); [lia|]. cbn [negb]. rewrite X3. cbn [hd at_hd].
      assert (0 < y < page_nil) by (apply B; apply in_or_app; right; right; left; auto). destruct (Z.eqb_spec y page_nil); [lia|]. reflexivity.
Qed.
Lemma prev_rep {A} (m : mem A) c a x b : rep m c (a ++ x :: b) -> NoDup (a ++ x :: b) -> (forall y, In y (a ++ x :: b) -> 0 < y < page_nil) ->
  l_prev m c (mkL x E_none) = match a with [] => l_rbegin | _ => mkL (last a page_nil) E_none end.
Proof.
  intros (S & G) ND B. unfold l_prev.
  assert (Hx : 0 < x < page_nil) by (apply B; apply in_or_app; right; left; auto).
  assert (E1 : litr_eqb (mkL x E_none) l_end = false) by (unfold litr_eqb; cbn; apply andb_false_r).
  assert (E2 : litr_eqb (mkL x E_none) l_rbegin = false) by (unfold litr_eqb; cbn; apply andb_false_r).
  rewrite E1, E2. unfold l_begin. rewrite S. cbn [front].
  assert (Hl : In (hd page_nil (a ++ x :: b)) (a ++ x :: b)) by (apply hd_in; destruct a; discriminate).
  assert (0 < hd page_nil (a ++ x :: b) < page_nil) by (apply B; auto).
  destruct (Z.eqb_spec (hd page_nil (a ++ x :: b)) page_nil); [lia|].
  unfold litr_eqb. cbn [li_page li_edge edge_eqb]. rewrite andb_true_r.
  apply seg_app in G. destruct G as (_ & G). cbn [seg] in G. destruct G as (_ & X2 & _).
  destruct a as [|y a].
  - cbn [app hd]. rewrite Z.eqb_refl. reflexivity.
  - cbn [app hd]. destruct (Z.eqb_spec x y) as [E|_].
    + exfalso. subst. apply nodup_split in ND. destruct ND as (ND & _). apply ND; left; auto.
    + destruct (Z.eqb_spec x page_nil); [lia|]. cbn [negb]. rewrite X2.
      assert (In (last (y :: a) page_nil) (y :: a)) by (apply last_in; discriminate).
      assert (0 < last (y :: a) page_nil < page_nil) by (apply B; apply in_or_app; auto). destruct (Z.eqb_spec (last (y :: a) page_nil) page_nil); [lia|]. reflexivity.
Qed.

(** A state that was never used is all zeroes. *)
Definition rep0 {A} (m : mem A) (c : Z) (l : list Z) : Prop := rep m c l \/ (l = [] /\ sts m c = mkState 0 0).
Lemma init_rep {A} (m : mem A) c l : rep0 m c l -> (forall y, In y l -> 0 < y < page_nil) ->
  rep (l_init m c) c l /\ frame m (l_init m c) [] /\ (forall d, d <> c -> sts (l_init m c) d = sts m d).
Proof.
  intros R B. destruct R as [R|[-> S]].
  - destruct (l_init_noop m c l B R) as [E|[-> E]]; rewrite E.
    + repeat split; auto; apply R.
    + split; [|split; [fr|]].
      * destruct R as (S & G). split; [|exact G]. autorewrite with rd. rewrite Z.eqb_refl. reflexivity.
      * intros d Hd. autorewrite with rd. apply Z.eqb_neq in Hd. rewrite Hd. reflexivity.
  - unfold l_init. rewrite S. cbn [front back]. rewrite Z.eqb_refl. rewrite orb_true_r. split; [|split; [fr|]].
    + split; [|exact I]. autorewrite with rd. rewrite Z.eqb_refl. reflexivity.
    + intros d Hd. autorewrite with rd. apply Z.eqb_neq in Hd. rewrite Hd. reflexivity.
Qed.

Lemma free_rep {A} (m : mem A) F x : rep m 0 F -> NoDup F -> ~ In x F -> (forall y, In y (x :: F) -> 0 < y < page_nil) ->
  rep (free_page m x) 0 (F ++ [x]) /\ frame m (free_page m x) (x :: F) /\ (forall d, d <> 0 -> sts (free_page m x) d = sts m d).
Proof.
  intros R ND NI B. unfold free_page. assert (0 < x < page_nil) by (apply B; left; auto). destruct (Z.eqb_spec x page_nil); [lia|].
  destruct (init_rep m 0 F) as (R0 & F0 & S0); [left; auto|intros; apply B; right; auto|].
  set (m0 := l_init m 0) in *. clearbody m0. unfold l_push_back.
  destruct (insert_rep m0 0 F [] x) as (m' & E & R' & F' & S'); rewrite ?app_nil_r; auto.
  cbn [at_hd] in E. rewrite E. split; [exact R'|]. split.
  - rewrite app_nil_r in F'. eapply frame_trans1; [|exact F']. eapply frame_mono; [|exact F0]. intros y [].
  - intros d Hd. rewrite S', S0; auto.
Qed.

(** Erasure from a chain that is not the free list, whatever the state of the free list. *)
Lemma erase_rep {A} (m : mem A) c a x b :
  rep m c (a ++ x :: b) -> NoDup (a ++ x :: b) -> (forall y, In y (a ++ x :: b) -> 0 < y < page_nil) ->
  exists m1 m', unlink m x = (m1, match b with [] => last a page_nil | _ => page_nil end) /\
    seg (pages m1) page_nil (a ++ b) page_nil /\ frame m m1 (a ++ b) /\ sts m1 = sts m /\
    l_erase m c (mkL x E_none) = Ok (m', at_hd b) /\
    frame (free_page m1 x) m' [] /\
    (forall d, d <> c -> sts m' d = sts (free_page m1 x) d) /\
    (sts (free_page m1 x) c = sts m c -> sts m' c = mkState (hd page_nil (a ++ b)) (last (a ++ b) page_nil)).
Proof.
  intros R ND B. pose proof R as (S & G). destruct (unlink_seg m a x b G ND B) as (m1 & E & G1 & F1 & S1).
  assert (Hx : 0 < x < page_nil) by (apply B; apply in_or_app; right; left; auto).
  exists m1. unfold l_erase. cbn [li_page li_edge edge_eqb negb]. destruct (Z.eqb_spec x page_nil); [lia|]. cbn [orb].
  rewrite (next_rep m c a x b); auto. rewrite erase_nostate_unlink. cbn [li_page]. rewrite E.
  eexists; split; [reflexivity|]. split; [auto|]. split; [auto|]. split; [auto|]. split; [reflexivity|].
  remember (free_page m1 x) as m2. remember (match b with [] => last a page_nil | _ => page_nil end) as bp.
  split; [|split].
  - destruct (front (sts m2 c) =? x); destruct (back (sts _ c) =? x); fr.
  - intros d Hd. apply Z.eqb_neq in Hd. destruct (front (sts m2 c) =? x); destruct (back (sts _ c) =? x); autorewrite with rd; rewrite ?Hd; reflexivity.
  - intros S2. assert (Hf : front (sts m2 c) = hd page_nil (a ++ x :: b)) by (rewrite S2, S; reflexivity).
    assert (Hb : back (sts m2 c) = last (a ++ x :: b) page_nil) by (rewrite S2, S; reflexivity).
    assert (Hfx : (front (sts m2 c) =? x) = match a with [] => true | _ => false end).
    { rewrite Hf. destruct a as [|y a]; cbn [app hd]; [apply Z.eqb_refl|]. apply Z.eqb_neq. intros ->. apply nodup_split in ND. destruct ND as (ND & _). apply ND; left; auto. }
    assert (Hbx : (back (sts m2 c) =? x) = match b with [] => true | _ => false end).
    { rewrite Hb. destruct b as [|y b]; [rewrite last_snoc; apply Z.eqb_refl|]. rewrite last_app, last_cons. apply Z.eqb_neq. intro Q.
      assert (In (last (y :: b) x) (y :: b)) by (apply last_in; discriminate). rewrite Q in H. apply nodup_split in ND. tauto. }
    rewrite Hfx. subst bp.
    assert (Hlp : li_page (at_hd b) = hd page_nil b) by (destruct b; reflexivity). rewrite Hlp.
    assert (Hlb : b <> [] -> forall p q, last b p = last b q) by (destruct b; [congruence|]; intros; rewrite !last_cons; reflexivity).
    destruct a as [|y a].
    + autorewrite with rd. rewrite Z.eqb_refl. cbn [back]. rewrite Hbx. destruct b as [|z b]; cbn [app hd]; autorewrite with rd; rewrite ?Z.eqb_refl; cbn [front back]; [reflexivity|].
      f_equal. rewrite Hb. cbn [app]. rewrite !last_cons. reflexivity.
    + rewrite Hbx. destruct b as [|z b].
      * rewrite app_nil_r. autorewrite with rd. rewrite Z.eqb_refl. rewrite Hf. reflexivity.
      * destruct (sts m2 c) as [f k] eqn:Es. cbn [front back] in *. subst. f_equal. rewrite !last_app, !last_cons. reflexivity.
Qed.

Lemma pop_free_rep {A} (m : mem A) F x : rep m 0 (F ++ [x]) -> NoDup (F ++ [x]) -> (forall y, In y (F ++ [x]) -> 0 < y < page_nil) ->
  exists m', pop_free m = (m', x) /\ rep m' 0 F /\ frame m m' (F ++ [x]) /\ (forall d, d <> 0 -> sts m' d = sts m d).
Proof.
  intros R ND B. unfold pop_free. destruct (init_rep m 0 _ (or_introl R) B) as (R0 & F0 & S0).
  set (m0 := l_init m 0) in *. clearbody m0. rewrite (l_empty_rep m0 0 _ B R0).
  destruct (F ++ [x]) as [|z w] eqn:Efx; [destruct F; discriminate|]. rewrite <- Efx in *. clear Efx z w.
  pose proof R0 as (S & G).
  assert (Hx : 0 < x < page_nil) by (apply B; apply in_or_app; right; left; auto).
  assert (Er : l_rend m0 0 = mkL x E_none).
  { unfold l_rend. rewrite S. cbn [back]. rewrite last_snoc. destruct (Z.eqb_spec x page_nil); [lia|reflexivity]. }
  unfold l_back, l_pop_back. rewrite Er. cbn [li_page].
  assert (Hp : p_pos (pages m0 x) = x). { apply seg_app in G. destruct G as (_ & G). cbn [seg] in G. tauto. }
  rewrite Hp. clear Hp.
  destruct (erase_rep m0 0 F x [] R0 ND B) as (m1 & m' & E1 & G1 & F1 & S1 & E2 & Fm & Sm & _).
  rewrite app_nil_r in G1, F1. clear E2.
  unfold l_erase. cbn [li_page li_edge edge_eqb negb]. destruct (Z.eqb_spec x page_nil); [lia|]. cbn [orb].
  rewrite (next_rep m0 0 F x []); auto. rewrite erase_nostate_unlink. cbn [li_page]. rewrite E1. cbn [at_hd].
  (* the page is pushed again while the state still says it is at the back *)
  assert (Hsx : sts m1 0 = mkState (hd page_nil (F ++ [x])) x). { rewrite S1, S. rewrite last_snoc. reflexivity. }
  assert (Hh : 0 < hd page_nil (F ++ [x]) < page_nil). { apply B. apply hd_in. destruct F; discriminate. }
  assert (H2 : exists m2, free_page m1 x = m2 /\ frame m1 m2 [x] /\ sts m2 0 = sts m1 0 /\ (forall d, d <> 0 -> sts m2 d = sts m1 d)).
  { unfold free_page. destruct (Z.eqb_spec x page_nil); [lia|].
    assert (Ei : l_init m1 0 = m1). { unfold l_init. rewrite Hsx. cbn [front back]. destruct (Z.eqb_spec x page_nil); [lia|]. destruct (Z.eqb_spec x 0); [lia|]. rewrite !andb_false_r. reflexivity. }
    rewrite Ei. unfold l_push_back, l_insert. cbn [l_end li_page li_edge edge_eqb negb]. rewrite Z.eqb_refl. cbn [andb].
    rewrite Hsx. cbn [back]. unfold l_insert_nostate.
    assert (Ee : forall m' : mem A, sts m' = sts m1 -> l_empty m' 0 = false).
    { intros m3 E3. unfold l_empty. rewrite E3, Hsx. cbn [front back]. destruct (Z.eqb_spec (hd page_nil (F ++ [x])) page_nil); [lia|]. destruct (Z.eqb_spec x page_nil); [lia|]. reflexivity. }
    rewrite Ee by reflexivity. cbn [l_end li_page]. rewrite Z.eqb_refl. autorewrite with rd.
    rewrite Hsx. cbn [front back]. destruct (Z.eqb_spec (hd page_nil (F ++ [x])) page_nil); [lia|]. cbn [orb]. rewrite orb_true_r.
    eexists; split; [reflexivity|]. split; [fr|]. split.
    - autorewrite with rd. rewrite Z.eqb_refl, Hsx. reflexivity.
    - intros d Hd. apply Z.eqb_neq in Hd. autorewrite with rd. rewrite Hd. reflexivity. }
  destruct H2 as (m2 & -> & F2 & S2 & S2'). rewrite S2, Hsx. cbn [front].
  assert (Nx : ~ In x F). { apply nodup_split in ND. tauto. }
  assert (Hfx : (hd page_nil (F ++ [x]) =? x) = match F with [] => true | _ => false end).
  { destruct F as [|y F]; cbn [app hd]; [apply Z.eqb_refl|]. apply Z.eqb_neq. intros ->. apply Nx; left; auto. }
  rewrite Hfx.
  assert (G2 : seg (pages m2) page_nil F page_nil). { apply (seg_frame m1 m2 [x]); auto. intros y Hy [->|[]]; auto. }
  assert (F02 : frame m m2 (F ++ [x])).
  { eapply frame_trans1; [eapply frame_mono; [|exact F0]; intros y []|]. eapply frame_trans1; [eapply frame_mono; [|exact F1]; intros y Hy; apply in_or_app; auto|].
    eapply frame_mono; [|exact F2]. intros y Hy; apply in_or_app; auto. }
  destruct F as [|y F].
  - autorewrite with rd. rewrite Z.eqb_refl. cbn [back]. rewrite S2, Hsx. cbn [back]. rewrite Z.eqb_refl.
    eexists; split; [reflexivity|]. split; [|split].
    + split; [|exact G2]. autorewrite with rd. rewrite Z.eqb_refl. reflexivity.
    + eapply frame_trans1; [exact F02|]. fr.
    + intros d Hd. rewrite <- S0, <- S1, <- S2' by auto. apply Z.eqb_neq in Hd. autorewrite with rd. rewrite Hd. reflexivity.
  - rewrite S2, Hsx. cbn [back]. rewrite Z.eqb_refl. eexists; split; [reflexivity|]. split; [|split].
    + split; [|autorewrite with rd; exact G2]. autorewrite with rd. rewrite Z.eqb_refl. rewrite S2, Hsx. reflexivity.
    + eapply frame_trans1; [exact F02|]. fr.
    + intros d Hd. rewrite <- S0, <- S1, <- S2' by auto. apply Z.eqb_neq in Hd. autorewrite with rd. rewrite Hd. reflexivity.
Qed.

Lemma splice_rep {A} (m : mem A) c d a b : rep m c a -> rep m d b -> c <> d -> (a = [] -> b = []) -> NoDup (a ++ b) -> (forall y, In y (a ++ b) -> 0 < y < page_nil) ->
  exists m', l_splice m c d = Ok m' /\ rep m' c (a ++ b) /\ rep m' d [] /\ frame m m' (a ++ b) /\ (forall e, e <> c -> e <> d -> sts m' e = sts m e).
Proof.
  intros Ra Rb Hcd Hab ND B. unfold l_splice. destruct (Z.eqb_spec c d); [congruence|].
  rewrite (l_empty_rep m d b), (l_empty_rep m c a); auto; try (intros; apply B; apply in_or_app; auto).
  destruct b as [|y b].
  - rewrite app_nil_r. exists m. repeat split; auto; try apply Ra. apply Rb.
  - destruct a as [|a0 a']; [discriminate (Hab eq_refl)|]. set (a := a0 :: a') in *.
    destruct Ra as (Sc & Ga). destruct Rb as (Sd & Gb).
    assert (Hne : a <> []) by discriminate. clearbody a. destruct (@exists_last _ a Hne) as (w & z & ->). clear Hab Hne a0 a'.
    autorewrite with rd. rewrite Sc, Sd. cbn [front back hd]. rewrite last_snoc.
    eexists; split; [reflexivity|].
    assert (Hzy : z <> y). { intros ->. eapply nodup_app_disj; [exact ND| |left; reflexivity]. apply in_or_app; right; left; auto. }
    split; [|split; [|split]].
    + split.
      * autorewrite with rd. destruct (Z.eqb_spec c d); [congruence|]. rewrite Z.eqb_refl, Sc. cbn [front]. f_equal; [destruct w; reflexivity|]. rewrite last_app, !last_cons. reflexivity.
      * autorewrite with rd. apply seg_app in Ga. destruct Ga as (Ga & Gz). cbn [seg] in Gz, Gb. destruct Gz as (Q1 & Q2 & _). destruct Gb as (Y1 & Y2 & Y3 & Y4).
        apply seg_app; split; [apply seg_app; split|].
        -- apply (seg_frame m _ [z; y]); [fr| |exact Ga]. intros x Hx [->|[->|[]]].
           ++ apply nodup_app_l in ND. apply NoDup_remove_2 in ND. rewrite app_nil_r in ND; auto.
           ++ eapply nodup_app_disj; [exact ND| |left; reflexivity]. apply in_or_app; auto.
        -- cbn [seg hd]. autorewrite with rd. rewrite Z.eqb_refl. destruct (Z.eqb_spec z y); [congruence|]. auto.
        -- rewrite last_snoc. cbn [seg]. autorewrite with rd. rewrite Z.eqb_refl. destruct (Z.eqb_spec y z); [congruence|]. repeat (split; auto).
           apply (seg_frame m _ [z; y]); [fr| |exact Y4]. intros x Hx [->|[->|[]]].
           ++ eapply nodup_app_disj; [exact ND| |right; exact Hx]. apply in_or_app; right; left; auto.
           ++ apply nodup_app_r in ND. inversion ND; auto.
    + split; [|exact I]. autorewrite with rd. rewrite Z.eqb_refl. reflexivity.
    + fr.
    + intros e H1 H2. apply Z.eqb_neq in H1, H2. autorewrite with rd. rewrite H1, H2. reflexivity.
Qed.
