(** Proofs about containers: the layout of items over pages. *)

From Coq Require Import ZArith List Bool Lia.
From Verif Require Import Base Cache_Model Linked_Model Linked_Proofs Cont_Model.
Import ListNotations.
Open Scope Z_scope.
Local Opaque page_nil.

(** * Item arrays as lists *)
Definition tab {A} (f : Z -> A) (n : nat) : list A := map (fun k => f (Z.of_nat k)) (seq 0 n).
Lemma tab_length {A} (f : Z -> A) n : length (tab f n) = n.
Proof. unfold tab. rewrite map_length, seq_length. reflexivity. Qed.
Lemma tab_ext {A} (f g : Z -> A) n : (forall k, 0 <= k < Z.of_nat n -> f k = g k) -> tab f n = tab g n.
Proof. intro H. unfold tab. apply map_ext_in. intros k Hk. apply in_seq in Hk. apply H. lia. Qed.
Lemma seq_shift' a b s : seq (s + a) b = map (fun k => (k + a)%nat) (seq s b).
Proof. revert s; induction b; intros; cbn; [reflexivity|]. f_equal. apply (IHb (S s)). Qed.
Lemma tab_app {A} (f : Z -> A) a b : tab f (a + b) = tab f a ++ tab (fun k => f (k + Z.of_nat a)) b.
Proof.
  unfold tab. rewrite seq_app, map_app. f_equal. cbn [Nat.add].
  change a with (0 + a)%nat at 1. rewrite seq_shift', map_map. apply map_ext. intro k. f_equal. lia.
Qed.
Lemma tab_split {A} (f : Z -> A) a b : tab f (length (a ++ b)) = a ++ b ->
  tab f (length a) = a /\ tab (fun k => f (k + Z.of_nat (length a))) (length b) = b.
Proof.
  rewrite app_length, tab_app. intro H.
  pose proof (f_equal (firstn (length a)) H) as H1. pose proof (f_equal (skipn (length a)) H) as H2.
  rewrite !firstn_app, !tab_length, Nat.sub_diag, !firstn_O, !app_nil_r in H1.
  rewrite (firstn_all2 (tab f (length a))) in H1 by (rewrite tab_length; lia). rewrite firstn_all in H1.
  rewrite !skipn_app, !tab_length, Nat.sub_diag, !skipn_O in H2.
  rewrite skipn_all2 in H2 by (rewrite tab_length; lia). rewrite skipn_all in H2. cbn [app] in H2. auto.
Qed.
Lemma tab_one {A} (f : Z -> A) : tab f 1 = [f 0]. Proof. reflexivity. Qed.
Lemma tab_nth {A} (f : Z -> A) a x b : tab f (length (a ++ x :: b)) = a ++ x :: b -> f (Z.of_nat (length a)) = x.
Proof.
  intro H. apply tab_split in H. destruct H as [_ H]. cbn [length] in H.
  change (S (length b)) with (1 + length b)%nat in H. rewrite tab_app, tab_one in H. cbn [app] in H. inversion H. f_equal.
Qed.
Lemma tab_join {A} (f : Z -> A) a b : tab f (length a) = a -> tab (fun k => f (k + Z.of_nat (length a))) (length b) = b -> tab f (length (a ++ b)) = a ++ b.
Proof. intros H K. rewrite app_length, tab_app. congruence. Qed.

(** The page [p] holds the items [l]. *)
Definition holds {A} (p : page A) (l : list A) : Prop := p_cnt p = Z.of_nat (length l) /\ tab (p_arr p) (length l) = l.

Lemma moved_in {A} (d : Z -> A) i s j n k : i <= k < i + n -> moved d i s j n k = s (k - i + j).
Proof. intro H. unfold moved. destruct (Z.leb_spec i k), (Z.ltb_spec k (i + n)); try lia; reflexivity. Qed.
Lemma moved_out {A} (d : Z -> A) i s j n k : ~ (i <= k < i + n) -> moved d i s j n k = d k.
Proof. intro H. unfold moved. destruct (Z.leb_spec i k), (Z.ltb_spec k (i + n)); try lia; reflexivity. Qed.

Lemma tab_insert {A} (f : Z -> A) a x b : tab f (length (a ++ b)) = a ++ b ->
  tab (upd (moved f (Z.of_nat (length a) + 1) f (Z.of_nat (length a)) (Z.of_nat (length b))) (Z.of_nat (length a)) x) (length (a ++ x :: b)) = a ++ x :: b.
Proof.
  intro H. apply tab_split in H. destruct H as [Ha Hb].
  apply tab_join.
  - etransitivity; [|exact Ha]. apply tab_ext. intros k Hk. rewrite upd_other by lia. apply moved_out; lia.
  - change (length (x :: b)) with (1 + length b)%nat. rewrite tab_app, tab_one. cbn [app]. f_equal; [rewrite Z.add_0_l; apply upd_same|].
    etransitivity; [|exact Hb]. apply tab_ext. intros k Hk. rewrite upd_other by lia. rewrite moved_in by lia. f_equal. lia.
Qed.
Lemma tab_erase {A} (f : Z -> A) a x b : tab f (length (a ++ x :: b)) = a ++ x :: b ->
  tab (moved f (Z.of_nat (length a)) f (Z.of_nat (length a) + 1) (Z.of_nat (length b))) (length (a ++ b)) = a ++ b.
Proof.
  intro H. apply tab_split in H. destruct H as [Ha Hb].
  change (length (x :: b)) with (1 + length b)%nat in Hb. rewrite tab_app, tab_one in Hb. cbn [app] in Hb. injection Hb as _ Hb.
  apply tab_join.
  - etransitivity; [|exact Ha]. apply tab_ext. intros k Hk. apply moved_out; lia.
  - etransitivity; [|exact Hb]. apply tab_ext. intros k Hk. rewrite moved_in by lia. f_equal. lia.
Qed.
Lemma tab_append {A} (f g : Z -> A) a b : tab f (length a) = a -> tab g (length b) = b ->
  tab (moved f (Z.of_nat (length a)) g 0 (Z.of_nat (length b))) (length (a ++ b)) = a ++ b.
Proof.
  intros Ha Hb. apply tab_join.
  - etransitivity; [|exact Ha]. apply tab_ext. intros k Hk. apply moved_out; lia.
  - etransitivity; [|exact Hb]. apply tab_ext. intros k Hk. rewrite moved_in by lia. f_equal. lia.
Qed.

(** * Layouts *)
Definition layout (A : Type) := Z -> list (Z * list A).
Definition pgs {A} (l : list (Z * list A)) : list Z := map fst l.
Definition flat {A} (l : list (Z * list A)) : list A := concat (map snd l).
Lemma pgs_app {A} (a b : list (Z * list A)) : pgs (a ++ b) = pgs a ++ pgs b. Proof. apply map_app. Qed.
Lemma flat_app {A} (a b : list (Z * list A)) : flat (a ++ b) = flat a ++ flat b. Proof. unfold flat. rewrite map_app, concat_app. reflexivity. Qed.
Lemma flat_cons {A} p i (b : list (Z * list A)) : flat ((p, i) :: b) = i ++ flat b. Proof. reflexivity. Qed.

(** The free list as a chain of pages that are not used. *)
Definition proper {A} (m : mem A) (used : Z -> Prop) : Prop :=
  exists F, rep m 0 F /\ NoDup F /\ forall x, In x F -> 2 <= x < fsize m /\ ~ used x.
(** The free list, as container operations leave it: unused, or a chain, or its back page is a page linked to itself,
    because erase_page frees a page twice. *)
Definition free_ok {A} (m : mem A) (used : Z -> Prop) : Prop :=
  back (sts m 0) = page_nil \/ proper m used \/
  (front (sts m 0) <> page_nil /\ exists b, back (sts m 0) = b /\ p_pos (pages m b) = b /\ p_prev (pages m b) = b /\ p_next (pages m b) = b /\ 2 <= b < fsize m /\ ~ used b).
Lemma proper_keep {A} (m m' : mem A) (u u' : Z -> Prop) : proper m u -> sts m' 0 = sts m 0 -> fsize m <= fsize m' ->
  (forall x, 2 <= x < fsize m -> ~ u x -> same_links (pages m) (pages m') x) -> (forall x, u' x -> u x) -> proper m' u'.
Proof.
  intros (F & (R & G) & N & B) ES EF HL HU. exists F. split; [|split; [exact N|]].
  - split; [congruence|]. eapply seg_same; [|exact G]. intros x Hx. destruct (B x Hx). auto.
  - intros x Hx. destruct (B x Hx) as (B1 & B2). split; [lia|auto].
Qed.
Lemma free_keep {A} (m m' : mem A) (u u' : Z -> Prop) : free_ok m u -> sts m' 0 = sts m 0 -> fsize m <= fsize m' ->
  (forall x, 2 <= x < fsize m -> ~ u x -> same_links (pages m) (pages m') x) -> (forall x, u' x -> u x) -> free_ok m' u'.
Proof.
  intros FO ES EF HL HU. unfold free_ok. rewrite ES. destruct FO as [F|[F|(F & b & B1 & B2 & B3 & B4 & B5 & B6)]]; [left; auto|right; left; eapply proper_keep; eauto|].
  right; right. split; auto. exists b. destruct (HL b B5 B6) as (L1 & L2 & L3). rewrite <- L1, <- L2, <- L3. repeat split; auto; lia.
Qed.

Definition used {A} (L : layout A) (X : list Z) (p : Z) : Prop := In p X \/ exists c, c <> 0 /\ In p (pgs (L c)).

(** The memory [m] holds the layout [L]; the pages [X] are allocated but in no container. *)
Record W {A} (m : mem A) (L : layout A) (X : list Z) : Prop := mkW {
  w_rep : forall c, c <> 0 -> rep m c (pgs (L c));
  w_items : forall c p i, c <> 0 -> In (p, i) (L c) -> holds (pages m p) i;
  w_nd : forall c, c <> 0 -> NoDup (pgs (L c));
  w_dis : forall c d p, c <> 0 -> d <> 0 -> c <> d -> In p (pgs (L c)) -> In p (pgs (L d)) -> False;
  w_bnd : forall p, used L X p -> 2 <= p < fsize m;
  w_ndX : NoDup X;
  w_loose : forall p c, In p X -> c <> 0 -> In p (pgs (L c)) -> False;
  w_free : free_ok m (used L X);
  w_sz : 2 <= fsize m <= room m /\ room m < page_nil }.

Lemma W_ext {A} (m : mem A) L L' X : (forall c, c <> 0 -> L c = L' c) -> W m L X -> W m L' X.
Proof.
  intros E [R It Nd Di Bn NX Lo Fr Sz].
  assert (U : forall p, used L X p <-> used L' X p).
  { intro p. unfold used. split; intros [H|(c & Hc & H)]; auto; right; exists c; split; auto; [rewrite <- E|rewrite E]; auto. }
  constructor; auto.
  - intros c Hc. rewrite <- E; auto.
  - intros c p i Hc. rewrite <- E; eauto.
  - intros c Hc. rewrite <- E; auto.
  - intros c d p Hc Hd. rewrite <- !E; eauto.
  - intros p Hp. apply Bn. apply U; auto.
  - intros p c Hp Hc. rewrite <- E; eauto.
  - eapply free_keep; eauto; try lia. { intros; repeat split. } { intros x Hx. apply U; auto. }
Qed.

(** ** Changing the items of a page *)
Lemma upd_used {A} (L : layout A) X c ps p : c <> 0 -> used (upd L c ps) X p -> used L X p \/ In p (pgs ps).
Proof.
  intros Hc [H|(d & Hd & H)]; [left; left; auto|]. rewrite upd_eq in H. destruct (Z.eqb_spec d c); [right; auto|left; right; eauto].
Qed.
Lemma rep_same {A} (m m' : mem A) c l : sts m' c = sts m c -> (forall x, In x l -> same_links (pages m) (pages m') x) -> rep m c l -> rep m' c l.
Proof. intros E H (S & G). split; [congruence|]. eapply seg_same; eauto. Qed.
Lemma links_refl {A} (P : Z -> page A) x : same_links P P x. Proof. repeat split. Qed.

Lemma W_items_of {A} (m m' : mem A) L X c u p i j v :
  W m L X -> c <> 0 -> L c = u ++ (p, i) :: v ->
  (forall q, q <> p -> pages m' q = pages m q) -> same_links (pages m) (pages m') p -> holds (pages m' p) j ->
  sts m' = sts m -> fsize m' = fsize m -> room m' = room m ->
  W m' (upd L c (u ++ (p, j) :: v)) X.
Proof.
  intros Wm Hc EL Hq Hp Hj Es Ef Er. pose proof Wm as [R It Nd Di Bn NX Lo Fr Sz].
  assert (P0 : pgs (u ++ (p, j) :: v) = pgs (L c)) by (rewrite EL, !pgs_app; reflexivity).
  assert (PP : forall d, pgs (upd L c (u ++ (p, j) :: v) d) = pgs (L d)).
  { intro d. rewrite upd_eq. destruct (Z.eqb_spec d c); subst; auto. }
  assert (LK : forall x, same_links (pages m) (pages m') x).
  { intro x. destruct (Z.eq_dec x p) as [->|N]; auto. unfold same_links. rewrite Hq; auto. }
  assert (U : forall q, used (upd L c (u ++ (p, j) :: v)) X q <-> used L X q).
  { intro q. unfold used. split; (intros [H|(d & Hd & H)]; [left; auto|right; exists d; split; auto]); [rewrite PP in H; auto|rewrite PP; auto]. }
  assert (ND : NoDup (pgs (u ++ (p, i) :: v))) by (rewrite <- EL; auto).
  rewrite pgs_app in ND. cbn in ND. apply nodup_split in ND. destruct ND as (Nu & Nv & _).
  constructor; auto.
  - intros d Hd. rewrite PP. eapply rep_same; [rewrite Es; reflexivity| |apply R; auto]. auto.
  - intros d q k Hd Hi. rewrite upd_eq in Hi. destruct (Z.eqb_spec d c).
    + apply in_app_or in Hi. destruct Hi as [Hi|[E|Hi]].
      * rewrite Hq; [apply (It c); auto; rewrite EL; apply in_or_app; auto|]. intro; subst. apply Nu. apply (in_map fst) in Hi. exact Hi.
      * inversion E; subst; auto.
      * rewrite Hq; [apply (It c); auto; rewrite EL; apply in_or_app; right; right; auto|]. intro; subst. apply Nv. apply (in_map fst) in Hi. exact Hi.
    + rewrite Hq; [eapply (It d); eauto|]. intro; subst q. eapply (Di d c p); auto; [apply (in_map fst) in Hi; exact Hi|].
      rewrite EL, pgs_app. apply in_or_app; right; left; reflexivity.
  - intros d Hd. rewrite PP. auto.
  - intros d e q Hd He. rewrite !PP. eauto.
  - intros q Hu. rewrite Ef. apply Bn. apply U; auto.
  - intros q d Hx Hd. rewrite PP. eauto.
  - eapply free_keep; eauto; try lia. { rewrite Es. reflexivity. } { intros x Hx. apply U; auto. }
  - lia.
Qed.
Lemma links_set_cnt {A} (m : mem A) p v x : same_links (pages m) (pages (set_cnt m p v)) x.
Proof. unfold same_links, set_cnt. cbn. rewrite upd_eq. destruct (Z.eqb_spec x p); subst; auto. Qed.
Lemma links_set_arr {A} (m : mem A) p v x : same_links (pages m) (pages (set_arr m p v)) x.
Proof. unfold same_links, set_arr. cbn. rewrite upd_eq. destruct (Z.eqb_spec x p); subst; auto. Qed.
Lemma cnt_set_cnt {A} (m : mem A) p v x : p_cnt (pages (set_cnt m p v) x) = if x =? p then v else p_cnt (pages m x).
Proof. cbn. rewrite upd_eq. destruct (x =? p); reflexivity. Qed.
Lemma arr_set_cnt {A} (m : mem A) p v x : p_arr (pages (set_cnt m p v) x) = p_arr (pages m x).
Proof. cbn. rewrite upd_eq. destruct (Z.eqb_spec x p); subst; reflexivity. Qed.
Lemma cnt_set_arr {A} (m : mem A) p v x : p_cnt (pages (set_arr m p v) x) = p_cnt (pages m x).
Proof. cbn. rewrite upd_eq. destruct (Z.eqb_spec x p); subst; reflexivity. Qed.
Lemma arr_set_arr {A} (m : mem A) p v x : p_arr (pages (set_arr m p v) x) = if x =? p then v else p_arr (pages m x).
Proof. cbn. rewrite upd_eq. destruct (x =? p); reflexivity. Qed.
Lemma other_set_cnt {A} (m : mem A) p v x : x <> p -> pages (set_cnt m p v) x = pages m x.
Proof. intro. cbn. apply upd_other; auto. Qed.
Lemma other_set_arr {A} (m : mem A) p v x : x <> p -> pages (set_arr m p v) x = pages m x.
Proof. intro. cbn. apply upd_other; auto. Qed.

(** what never changes except in the places mentioned *)
Definition steady {A} (m m' : mem A) : Prop := tots m' = tots m /\ room m' = room m /\ m_zero m' = m_zero m.
Lemma steady_refl {A} (m : mem A) : steady m m. Proof. repeat split. Qed.
Lemma steady_trans {A} (m m' m'' : mem A) : steady m m' -> steady m' m'' -> steady m m''.
Proof. intros (A1 & A2 & A3) (B1 & B2 & B3). repeat split; congruence. Qed.
Lemma steady_frame {A} (m m' : mem A) L : frame m m' L -> steady m m'. Proof. intros (A1 & A2 & A3 & A4 & _). repeat split; congruence. Qed.

(** ** Allocation *)
Definition fl_ok {A} (m : mem A) : Prop := back (sts m 0) = page_nil \/ 2 <= back (sts m 0).
Lemma free_fl {A} (m : mem A) u : free_ok m u -> fl_ok m.
Proof.
  intros [F|[(F & (R & _) & _ & B)|(F & b & B1 & _ & _ & _ & B5 & _)]]; [left; auto| |right; lia].
  unfold fl_ok. rewrite R. cbn [back]. destruct F as [|x F]; [left; auto|right]. destruct (B (last (x :: F) page_nil)); [apply last_in; discriminate|lia].
Qed.
Lemma free_init {A} (m : mem A) : fl_ok m -> l_init m 0 = m \/ (sts m 0 = mkState page_nil page_nil /\ l_init m 0 = set_st m 0 (mkState page_nil page_nil)).
Proof.
  intros F. unfold l_init. destruct ((front (sts m 0) =? page_nil) && (back (sts m 0) =? page_nil)) eqn:E1; cbn [orb].
  - right. apply andb_true_iff in E1. destruct E1 as [E1 E2]. apply Z.eqb_eq in E1, E2. split; auto. destruct (sts m 0); cbn in *; congruence.
  - left. destruct ((front (sts m 0) =? 0) && (back (sts m 0) =? 0)) eqn:E2; [|reflexivity]. exfalso.
    apply andb_true_iff in E2. destruct E2 as [E2 E3]. apply Z.eqb_eq in E2, E3.
    destruct F as [F|F]; [|lia]. rewrite F in E3. discriminate.
Qed.
Lemma free_init' {A} (m : mem A) : fl_ok m -> pages (l_init m 0) = pages m /\ (forall d, sts (l_init m 0) d = sts m d) /\ fsize (l_init m 0) = fsize m /\ steady m (l_init m 0).
Proof.
  intro F. destruct (free_init m F) as [E|[S E]]; rewrite E; repeat split; auto.
  intro d. rewrite sts_set_st. destruct (Z.eqb_spec d 0); subst; auto.
Qed.
(** free_page on such a free list *)
Lemma free_page_gen {A} (m : mem A) x : fl_ok m -> 2 <= x < page_nil ->
  let e := l_empty m 0 in let b := back (sts m 0) in
  frame m (free_page m x) (x :: if e then [] else [b]) /\
  sts (free_page m x) 0 = mkState (if front (sts m 0) =? page_nil then x else front (sts m 0)) x /\
  (forall d, d <> 0 -> sts (free_page m x) d = sts m d) /\
  p_pos (pages (free_page m x) x) = x /\
  p_prev (pages (free_page m x) x) = (if e then page_nil else b) /\
  p_next (pages (free_page m x) x) = (if e then page_nil else if b =? x then x else page_nil).
Proof.
  intros F Hx e b. unfold free_page. destruct (Z.eqb_spec x page_nil) as [E|_]; [lia|].
  destruct (free_init' m F) as (P0 & S0 & Z0 & (T0 & R0 & M0)).
  assert (F0 : frame m (l_init m 0) []) by (unfold frame; rewrite P0; repeat split; auto).
  assert (Ee : e = l_empty (l_init m 0) 0) by (unfold e, l_empty; rewrite !S0; reflexivity).
  assert (Eb : b = back (sts (l_init m 0) 0)) by (unfold b; rewrite S0; reflexivity).
  assert (Ef : front (sts m 0) = front (sts (l_init m 0) 0)) by (rewrite S0; reflexivity).
  rewrite Ef. clearbody e b. clear Ef. subst e b.
  assert (SS : forall d, sts m d = sts (l_init m 0) d) by (intro; symmetry; auto).
  set (m0 := l_init m 0) in *. clearbody m0.
  unfold l_push_back, l_insert. cbn [li_page li_edge l_end edge_eqb negb andb].
  rewrite Z.eqb_refl. cbn [andb].
  unfold l_insert_nostate. set (m1 := set_next (set_prev (set_pos m0 x x) x page_nil) x page_nil).
  change (l_empty m1 0) with (l_empty m0 0). cbn [li_page l_end]. rewrite Z.eqb_refl.
  set (m2 := if l_empty m0 0 then m1 else set_prev (set_next m1 (back (sts m0 0)) x) x (back (sts m0 0))).
  assert (F2 : frame m0 m2 (x :: (if l_empty m0 0 then [] else [back (sts m0 0)]))).
  { unfold m2, m1. destruct (l_empty m0 0); fr. }
  assert (S2 : sts m2 = sts m0) by (unfold m2, m1; destruct (l_empty m0 0); reflexivity).
  assert (Q : p_pos (pages m2 x) = x /\ p_prev (pages m2 x) = (if l_empty m0 0 then page_nil else back (sts m0 0)) /\
     p_next (pages m2 x) = (if l_empty m0 0 then page_nil else if back (sts m0 0) =? x then x else page_nil)).
  { unfold m2, m1. destruct (l_empty m0 0); autorewrite with rd; rewrite !Z.eqb_refl; auto. rewrite Z.eqb_sym. auto. }
  rewrite S2. rewrite orb_true_r. replace (front (sts m0 0) =? page_nil) with (front (sts m0 0) =? page_nil) by reflexivity.
  set (m3 := if (front (sts m0 0) =? page_nil) || (front (sts m0 0) =? page_nil) then set_front m2 0 x else m2).
  assert (E3 : pages m3 = pages m2 /\ sts m3 0 = mkState (if front (sts m0 0) =? page_nil then x else front (sts m0 0)) (back (sts m0 0)) /\ (forall d, d <> 0 -> sts m3 d = sts m0 d)).
  { unfold m3. destruct (front (sts m0 0) =? page_nil) eqn:E; cbn [orb]; autorewrite with rd; rewrite ?Z.eqb_refl, ?S2; repeat split; auto.
    - intros d Hd. rewrite sts_set_front. destruct (Z.eqb_spec d 0); [lia|]. rewrite S2; auto.
    - destruct (sts m0 0); reflexivity. }
  destruct E3 as (P3 & S3 & D3). rewrite P3 || idtac.
  split; [|split; [|split; [|]]].
  - eapply frame_trans1; [eapply frame_mono; [|exact F0]; intros ? []|]. eapply frame_trans1; [exact F2|].
    eapply frame_trans1; [|apply frame_set_back]. unfold m3. destruct (_ || _); fr.
  - rewrite sts_set_back, Z.eqb_refl, S3. reflexivity.
  - intros d Hd. rewrite sts_set_back. destruct (Z.eqb_spec d 0); [lia|]. rewrite D3, SS; auto.
  - rewrite pages_set_back, P3. exact Q.
Qed.

Lemma W_keep {A} (m m' : mem A) L X X' : W m L X ->
  (forall q d, d <> 0 -> In q (pgs (L d)) -> pages m' q = pages m q) ->
  (forall d, d <> 0 -> sts m' d = sts m d) -> fsize m <= fsize m' -> room m' = room m -> fsize m' <= room m' ->
  NoDup X' -> (forall x, In x X' -> 2 <= x < fsize m') -> (forall p c, In p X' -> c <> 0 -> In p (pgs (L c)) -> False) ->
  free_ok m' (used L X') -> W m' L X'.
Proof.
  intros [R It Nd Di Bn NX Lo Fr Sz] HP HS HF HR HR' ND B LO FO.
  constructor; auto.
  - intros c Hc. eapply rep_same; [apply HS; auto| |apply R; auto]. intros x Hx. unfold same_links. rewrite (HP x c); auto.
  - intros c p i Hc Hi. rewrite (HP p c); auto; [eapply It; eauto|]. apply (in_map fst) in Hi. exact Hi.
  - intros p [Hp|(c & Hc & Hp)]; [apply B; auto|]. assert (2 <= p < fsize m); [|lia]. apply Bn. right; eauto.
  - lia.
Qed.

(** Slots of pages are left alone, or cleared. *)
Definition slots_kept {A} (m m' : mem A) : Prop := forall q k, p_arr (pages m' q) k = p_arr (pages m q) k \/ p_arr (pages m' q) k = m_zero m.
Lemma slots_refl {A} (m : mem A) : slots_kept m m. Proof. intros q k; auto. Qed.
Lemma slots_frame {A} (m m' : mem A) l : frame m m' l -> slots_kept m m'.
Proof. intros (_ & _ & _ & _ & _ & G) q k. left. rewrite (proj2 (G q)). reflexivity. Qed.
Lemma slots_trans {A} (m m' m'' : mem A) : slots_kept m m' -> slots_kept m' m'' -> m_zero m' = m_zero m -> slots_kept m m''.
Proof. intros H K Z q k. destruct (K q k) as [E|E]; rewrite E; [apply H|right; auto]. Qed.
Lemma used_one {A} (L : layout A) p x : used L [p] x -> p = x \/ used L [] x.
Proof. intros [[->|[]]|H]; [left; auto|right; right; auto]. Qed.
Lemma loop_improper {A} (m : mem A) u b : proper m u -> back (sts m 0) = b -> p_prev (pages m b) = b -> b <> page_nil -> False.
Proof.
  intros (F & (R & G) & N & B) E P Hb. rewrite R in E. cbn [back] in E. destruct F as [|x F' _] using rev_ind; [cbn in E; congruence|].
  rewrite last_snoc in E. subst x. apply seg_app in G. destruct G as (_ & G). cbn [seg] in G. destruct G as (_ & G & _). rewrite P in G.
  apply nodup_split in N. destruct N as (N & _). destruct F' as [|y F']; [cbn in G; congruence|]. apply N. rewrite G. apply last_in. discriminate.
Qed.
Lemma nil_proper {A} (m m' : mem A) u u' : proper m u -> back (sts m 0) = page_nil -> sts m' 0 = sts m 0 -> room m < page_nil -> fsize m <= room m -> proper m' u'.
Proof.
  intros (F & (R & G) & N & B) E ES Hr Hf. rewrite R in E. cbn [back] in E. exists [].
  assert (F = []) as ->. { destruct F as [|x F]; auto. exfalso. destruct (B (last (x :: F) page_nil)); [apply last_in; discriminate|]. cbn [last] in *. lia. }
  split; [split; [congruence|exact Logic.I]|]. split; [constructor|intros x []].
Qed.
Lemma alloc_W {A} (m : mem A) L : W m L [] ->
  exists m' p, alloc_page m = (m', p) /\ steady m m' /\ fsize m <= fsize m' <= fsize m + 1 /\
    ((p = page_nil /\ W m' L [] /\ fsize m' = room m /\ fsize m = room m) \/
     (p <> page_nil /\ W m' L [p] /\ ~ used L [] p /\ (proper m (used L []) -> proper m' (used L [p])))) /\
    slots_kept m m'.
Proof.
  intro Wm. pose proof Wm as [R It Nd Di Bn NX Lo Fr Sz].
  unfold alloc_page, pop_free.
  destruct (free_init' m (free_fl _ _ Fr)) as (P0 & S0 & Z0 & ST0). pose proof ST0 as (T0 & R0 & M0).
  assert (Fr0 : free_ok (l_init m 0) (used L [])) by (eapply free_keep; eauto; try lia; intros x _ _; unfold same_links; rewrite P0; auto).
  assert (W0 : W (l_init m 0) L []).
  { apply (W_keep m _ L [] []); auto; try lia; try (intros; rewrite P0; reflexivity); try (intros x []); try (intros p c []). }
  set (m0 := l_init m 0) in *. 
  assert (P00 : proper m (used L []) -> proper m0 (used L [])).
  { intro P. eapply proper_keep; eauto; try lia. intros x _ _. unfold same_links. rewrite P0. auto. }
  assert (SK0 : slots_kept m m0) by (intros q k; left; rewrite P0; reflexivity).
  assert (Fr1 : back (sts m0 0) = page_nil \/ (exists F x, rep m0 0 (F ++ [x]) /\ NoDup (F ++ [x]) /\ forall y, In y (F ++ [x]) -> 2 <= y < fsize m0 /\ ~ used L [] y) \/
    (front (sts m0 0) <> page_nil /\ exists b, back (sts m0 0) = b /\ p_pos (pages m0 b) = b /\ p_prev (pages m0 b) = b /\ p_next (pages m0 b) = b /\ 2 <= b < fsize m0 /\ ~ used L [] b)).
  { destruct Fr0 as [F|[(F & R1 & N1 & B1)|F]]; [left; auto| |right; right; auto]. destruct F as [|x F' _] using rev_ind; [left; destruct R1 as (R1 & _); rewrite R1; reflexivity|right; left; eauto]. }
  clear Fr0. destruct Fr1 as [F|[(F & x & RF & NF & BF)|(F & b & B1 & B2 & B3 & B4 & B5 & B6)]].
  - assert (E : l_empty m0 0 = true) by (unfold l_empty; rewrite F, Z.eqb_refl; apply orb_true_r).
    rewrite E. rewrite Z.eqb_refl. unfold create_page. destruct (Z.ltb_spec (fsize m0) (room m0)) as [H|H].
    + set (m' := mkMem _ _ _ _ _ _). exists m', (fsize m0). split; [reflexivity|].
      assert (NU : ~ used L [] (fsize m0)) by (intro U; apply Bn in U; lia).
      split; [|split; [|split]].
      * repeat split; cbn; auto.
      * cbn. lia.
      * right. split; [lia|]. split; [|split; [exact NU|intro P; eapply (nil_proper m0 m'); eauto; lia]]. eapply (W_keep m0 m' L []); auto; cbn; try lia.
        -- intros q d Hd Hq. apply upd_other. assert (2 <= q < fsize m0); [|lia]. rewrite Z0. apply Bn. right; eauto.
        -- constructor; [intros []|constructor].
        -- intros p c [<-|[]] Hc Hp. assert (2 <= fsize m0 < fsize m); [|lia]. apply Bn. right; eauto.
        -- left. cbn. exact F.
      * intros q k. cbn. rewrite upd_eq. destruct (q =? fsize m0); [right; cbn; congruence|rewrite P0; auto].
    + exists m0, page_nil. split; [reflexivity|]. split; [exact ST0|]. split; [lia|]. split; [left; split; [reflexivity|split; [exact W0|split; lia]]|exact SK0].
  - assert (BF' : forall y, In y (F ++ [x]) -> 0 < y < page_nil) by (intros y Hy; destruct (BF y Hy); lia).
    destruct (pop_free_rep m0 F x RF NF BF') as (m1 & E1 & R1 & F1 & S1).
    assert (EM : l_init m0 0 = m0). { destruct (l_init_noop m0 0 _ BF' RF) as [E|[E _]]; [exact E|destruct F; discriminate]. }
    unfold pop_free in E1. rewrite EM in E1. rewrite E1.
    assert (Hx : 2 <= x < fsize m0 /\ ~ used L [] x) by (apply BF; apply in_or_app; right; left; auto). destruct Hx as (Hx & Ux).
    destruct (Z.eqb_spec x page_nil); [lia|]. exists m1, x. split; [reflexivity|].
    pose proof F1 as (G1 & G2 & G3 & G4 & G5 & G6).
    split; [eapply steady_trans; [exact ST0|eapply steady_frame; exact F1]|]. split; [lia|].
    assert (NFx := nodup_split _ _ _ NF). destruct NFx as (NFx & _ & NF'). rewrite app_nil_r in NF'.
    assert (PR : proper m1 (used L [x])).
    { exists F. split; [auto|split; [auto|]]. intros y Hy. destruct (BF y) as (Y1 & Y2); [apply in_or_app; auto|]. split; [lia|]. intro U. apply used_one in U. destruct U as [->|U]; auto. }
    split; [|eapply slots_trans; [exact SK0|eapply slots_frame; exact F1|exact M0]].
    right. split; [lia|]. split; [|split; [exact Ux|intros _; exact PR]]. eapply (W_keep m0 m1 L []); auto; try lia.
    + intros q d Hd Hq. apply G5. intro Hin. apply (proj2 (BF q Hin)). right; eauto.
    + constructor; [intros []|constructor].
    + intros y [<-|[]]. lia.
    + intros p c [<-|[]] Hc Hp. apply Ux. right; eauto.
    + right; left. exact PR.
  - assert (Hb : 2 <= b < page_nil) by lia.
    assert (E : l_empty m0 0 = false).
    { unfold l_empty. rewrite B1. apply orb_false_iff. split; apply Z.eqb_neq; auto; lia. }
    rewrite E. assert (ERE : l_rend m0 0 = mkL b E_none). { unfold l_rend. rewrite B1. destruct (Z.eqb_spec b page_nil); [lia|reflexivity]. }
    assert (EB : l_back m0 0 = b) by (unfold l_back; rewrite ERE; cbn [li_page]; auto).
    rewrite EB. unfold l_pop_back, l_erase. rewrite ERE. cbn [li_page li_edge edge_eqb negb].
    destruct (Z.eqb_spec b page_nil); [lia|]. cbn [orb].
    rewrite erase_nostate_unlink. cbn [li_page]. unfold unlink. rewrite B3. destruct (Z.eqb_spec b page_nil); [lia|]. rewrite B4.
    set (m1 := set_next m0 b b).
    assert (E1 : p_next (pages m1 b) = b /\ p_prev (pages m1 b) = b) by (unfold m1; autorewrite with rd; rewrite Z.eqb_refl; auto).
    destruct E1 as (E1 & E1'). rewrite E1, E1'. destruct (Z.eqb_spec b page_nil); [lia|].
    set (m2 := set_prev m1 b b). assert (FR2 : frame m0 m2 [b]) by (unfold m2, m1; fr).
    assert (S2 : forall d, sts m2 d = sts m0 d) by reflexivity.
    assert (FO2 : free_ok m2 (used L [])).
    { right; right. rewrite S2. split; auto. exists b. unfold m2, m1. autorewrite with rd. rewrite Z.eqb_refl. cbn. repeat split; auto; lia. }
    destruct (free_page_gen m2 b (free_fl _ _ FO2) Hb) as (FR3 & S3 & D3 & _).
    rewrite S2 in FR3, S3; rewrite B1 in FR3. set (m3 := free_page m2 b) in *.
    assert (FR : frame m0 m3 [b]).
    { eapply frame_trans1; [exact FR2|]. eapply frame_mono; [|exact FR3]. intros z Hz. destruct (l_empty m2 0); cbn in Hz; destruct Hz as [<-|Hz]; try (left; reflexivity); [destruct Hz|]. destruct Hz as [<-|[]]; left; reflexivity. }
    rewrite S3. cbn [front].
    set (m4 := if _ =? b then set_front m3 0 _ else m3).
    assert (E4 : pages m4 = pages m3 /\ back (sts m4 0) = b /\ (forall d, d <> 0 -> sts m4 d = sts m0 d) /\ frame m0 m4 [b]).
    { unfold m4. destruct (_ =? b).
      - split; [reflexivity|]. split; [rewrite sts_set_front, Z.eqb_refl, S3; reflexivity|]. split; [intros d Hd; rewrite sts_set_front; destruct (Z.eqb_spec d 0); [lia|]; rewrite D3; auto|]. eapply frame_trans1; [exact FR|fr].
      - split; [reflexivity|]. split; [rewrite S3; reflexivity|]. split; [intros; rewrite D3; auto|exact FR]. }
    destruct E4 as (P4 & S4 & D4 & FR4). rewrite S4, Z.eqb_refl. cbn [fst].
    destruct (Z.eqb_spec b page_nil); [lia|].
    exists (set_back m4 0 page_nil), b. split; [reflexivity|].
    assert (FR5 : frame m0 (set_back m4 0 page_nil) [b]) by (eapply frame_trans1; [exact FR4|fr]).
    pose proof FR5 as (G1 & G2 & G3 & G4 & G5 & G6).
    split; [eapply steady_trans; [exact ST0|eapply steady_frame; exact FR5]|]. split; [lia|]. split.
    + right. split; [lia|]. split; [|split; [exact B6|intro P; exfalso; eapply (loop_improper m0 _ b); eauto; lia]]. eapply (W_keep m0 _ L []); auto; try lia.
      * intros q d Hd Hq. apply G5. intros [<-|[]]. apply B6. right; eauto.
      * intros d Hd. rewrite sts_set_back. destruct (Z.eqb_spec d 0); [lia|]. auto.
      * constructor; [intros []|constructor].
      * intros x [<-|[]]. lia.
      * intros p c [<-|[]] Hc Hp. apply B6. right; eauto.
      * left. rewrite sts_set_back, Z.eqb_refl. reflexivity.
    + eapply slots_trans; [exact SK0|eapply slots_frame; exact FR5|exact M0].
Qed.

Lemma W_chain {A} (m m' : mem A) L X c ps : W m L X -> c <> 0 ->
  (forall d q, d <> 0 -> d <> c -> In q (pgs (L d)) -> pages m' q = pages m q) ->
  rep m' c (pgs ps) -> NoDup (pgs ps) -> (forall q i, In (q, i) ps -> holds (pages m' q) i) ->
  (forall q, In q (pgs ps) -> In q (pgs (L c)) \/ In q X) ->
  (forall d, d <> 0 -> d <> c -> sts m' d = sts m d) -> fsize m' = fsize m -> room m' = room m ->
  free_ok m' (used (upd L c ps) []) -> W m' (upd L c ps) [].
Proof.
  intros [R It Nd Di Bn NX Lo Fr Sz] Hc HP HR HN HI HIn HS HF HRm FO.
  constructor; auto.
  - intros d Hd. rewrite upd_eq. destruct (Z.eqb_spec d c); [subst; auto|].
    eapply rep_same; [apply HS; auto| |apply R; auto]. intros x Hx. unfold same_links. rewrite (HP d x); auto.
  - intros d p i Hd. rewrite upd_eq. destruct (Z.eqb_spec d c); [subst; auto|]. intro Hi. rewrite (HP d p); auto; [eapply It; eauto|]. apply (in_map fst) in Hi. exact Hi.
  - intros d Hd. rewrite upd_eq. destruct (Z.eqb_spec d c); auto.
  - assert (K : forall d p, d <> 0 -> d <> c -> In p (pgs (L d)) -> In p (pgs ps) -> False).
    { intros d p Hd Hdc H1 H2. destruct (HIn p H2) as [H3|H3]; [eapply (Di d c p); eauto|eapply (Lo p d); eauto]. }
    intros d e p Hd He Hde. rewrite !upd_eq. destruct (Z.eqb_spec d c), (Z.eqb_spec e c); subst; try congruence; intros; eauto.
  - intros p Hp. rewrite HF. apply (upd_used L [] c ps p Hc) in Hp. apply Bn. destruct Hp as [[[]|Hp]|Hp]; [right; auto|].
    destruct (HIn p Hp); [right; eauto|left; auto].
  - constructor.
  - lia.
Qed.
Lemma pgs_bnd {A} (m : mem A) L X c q : W m L X -> c <> 0 -> In q (pgs (L c)) -> 2 <= q < fsize m /\ 0 < q < page_nil.
Proof. intros Wm Hc Hq. assert (2 <= q < fsize m) by (apply (w_bnd _ _ _ Wm); right; eauto). pose proof (w_sz _ _ _ Wm). lia. Qed.
Lemma init_W {A} (m : mem A) L X c : W m L X -> c <> 0 -> W (l_init m c) L X /\ rep (l_init m c) c (pgs (L c)) /\ frame m (l_init m c) [] /\ (forall d, d <> c -> sts (l_init m c) d = sts m d).
Proof.
  intros Wm Hc. destruct (init_rep m c (pgs (L c))) as (R0 & F0 & S0).
  { left. apply (w_rep _ _ _ Wm); auto. }
  { intros y Hy. eapply pgs_bnd; eauto. }
  assert (P : sts (l_init m c) c = sts m c) by (pose proof (w_rep _ _ _ Wm c Hc) as (E & _); destruct R0 as (E' & _); congruence).
  pose proof F0 as (G1 & G2 & G3 & G4 & G5 & G6). pose proof (w_sz _ _ _ Wm) as Sz.
  split; [|auto]. apply (W_keep m _ L X X); auto; try lia.
  - intros d Hd. destruct (Z.eq_dec d c); subst; auto.
  - apply (w_ndX _ _ _ Wm).
  - intros x Hx. rewrite G1. apply (w_bnd _ _ _ Wm). left; auto.
  - apply (w_loose _ _ _ Wm).
  - eapply free_keep; [apply (w_free _ _ _ Wm)|auto|lia| |auto]. intros x _ _. unfold same_links. rewrite G5; auto.
Qed.
Lemma last_pgs {A} (u : list (Z * list A)) q i d : last (pgs (u ++ [(q, i)])) d = q.
Proof. rewrite pgs_app. cbn. apply last_snoc. Qed.

Lemma nodup_insert {B} (a b : list B) x : NoDup (a ++ b) -> ~ In x (a ++ b) -> NoDup (a ++ x :: b).
Proof. intros H K. apply (NoDup_Add (Add_app x a b)). auto. Qed.
Lemma insert_page_W {A} (m : mem A) L c u v : W m L [] -> c <> 0 -> L c = u ++ v -> (u = [] -> v = []) ->
  exists m' p, insert_page_after c m (last (pgs u) page_nil) = COk (m', p) /\ steady m m' /\ fsize m <= fsize m' <= fsize m + 1 /\
    ((p = page_nil /\ W m' L [] /\ fsize m' = room m) \/ (p <> page_nil /\ W m' (upd L c (u ++ (p, []) :: v)) [])) /\
    slots_kept m m' /\ (p = page_nil -> fsize m = room m) /\
    (p <> page_nil -> ~ used L [] p /\ (proper m (used L []) -> proper m' (used (upd L c (u ++ (p, []) :: v)) []))).
Proof.
  intros Wm Hc EL Huv. unfold insert_page_after.
  destruct (alloc_W m L Wm) as (m1 & p & E1 & ST1 & SZ1 & K1 & SK1). rewrite E1.
  destruct K1 as [(-> & W1 & Z1 & Z1')|(Np & W1 & U1 & PR1)].
  { rewrite Z.eqb_refl. exists m1, page_nil. split; [reflexivity|split; [auto|split; [auto|split; [left; auto|split; [auto|split; [auto|congruence]]]]]]. }
  destruct (Z.eqb_spec p page_nil); [congruence|].
  destruct (init_W m1 L [p] c W1 Hc) as (W2 & R2 & F2 & S2). set (m2 := l_init m1 c) in *. clearbody m2.
  set (i := if _ =? page_nil then _ else _).
  assert (BL : forall q, In q (pgs (L c)) -> 0 < q < page_nil) by (intros; eapply (pgs_bnd m2 L [p] c); eauto).
  assert (ND : NoDup (pgs (L c))) by (apply (w_nd _ _ _ W2); auto).
  assert (Ei : i = at_hd (pgs v)).
  { unfold i. destruct u as [|w u' _] using rev_ind.
    - cbn [pgs map last]. rewrite Z.eqb_refl. rewrite Huv; reflexivity.
    - destruct w as [q it]. rewrite last_pgs. assert (In q (pgs (L c))) by (rewrite EL, !pgs_app; apply in_or_app; left; apply in_or_app; right; left; reflexivity).
      destruct (Z.eqb_spec q page_nil); [apply BL in H; lia|].
      assert (EP : pgs (L c) = pgs u' ++ q :: pgs v) by (rewrite EL, !pgs_app, <- app_assoc; reflexivity).
      rewrite EP in R2, ND, BL. apply (next_rep m2 c (pgs u')); auto. }
  rewrite Ei. clear i Ei.
  assert (NI : ~ In p (pgs (L c))) by (intro; eapply (w_loose _ _ _ W2 p c); eauto; left; auto).
  assert (BP : 2 <= p < fsize m2) by (apply (w_bnd _ _ _ W2); left; left; auto).
  pose proof (w_sz _ _ _ W2) as Sz2.
  assert (EP : pgs (L c) = pgs u ++ pgs v) by (rewrite EL; apply pgs_app).
  rewrite EP in *.
  destruct (insert_rep m2 c (pgs u) (pgs v) p R2 ND NI) as (m3 & E3 & R3 & F3 & S3).
  { intros x [<-|Hx]; [lia|auto]. }
  rewrite E3. exists (set_cnt m3 p 0), p. split; [reflexivity|].
  pose proof F3 as (G1 & G2 & G3 & G4 & G5 & G6). pose proof F2 as (H1 & _).
  split. { eapply steady_trans; [exact ST1|]. eapply steady_trans; [eapply steady_frame; exact F2|]. repeat split; cbn; auto. }
  assert (LK := fun x => links_set_cnt m3 p 0 x).
  assert (U2 : forall x, used (upd L c (u ++ (p, []) :: v)) [] x -> used L [p] x).
  { intros x Hu. apply upd_used in Hu; auto. destruct Hu as [[[]|Hu]|Hu]; [right; auto|].
    rewrite pgs_app in Hu. apply in_app_or in Hu. destruct Hu as [Hu|[Hu|Hu]]; [right; exists c; rewrite EP; split; auto; apply in_or_app; auto|left; left; auto|right; exists c; rewrite EP; split; auto; apply in_or_app; auto]. }
  assert (LU : forall x, ~ used L [p] x -> same_links (pages m2) (pages (set_cnt m3 p 0)) x).
  { intros x Hx. assert (E : pages m3 x = pages m2 x). { apply G5. intros [Hy|Hy]; apply Hx; [left; left; auto|right; exists c; rewrite EP; auto]. }
    destruct (LK x) as (K1 & K2 & K3). unfold same_links. rewrite <- K1, <- K2, <- K3, E. auto. }
  split; [cbn; lia|]. split; [|split; [|split; [congruence|]]]; [right; split; auto| |].
  2:{ eapply (slots_trans m m1); [exact SK1| |apply ST1]. eapply (slots_trans m1 m2); [eapply slots_frame; exact F2| |apply F2]. intros q k. left. rewrite arr_set_cnt. rewrite (proj2 (G6 q)). reflexivity. }
  2:{ intros _. split; [exact U1|]. intro P. apply PR1 in P. pose proof F2 as (Y1 & _ & _ & _ & Y5 & _). assert (P2 : proper m2 (used L [p])).
      { eapply proper_keep; [exact P|auto|lia| |auto]. intros x _ _. unfold same_links. rewrite Y5; auto. }
      eapply proper_keep; [exact P2| |cbn; lia|auto|auto]. cbn. auto. }
  eapply (W_chain m2 _ L [p] c); auto.
  - intros d q Hd Hdc Hq. assert (Nqp : q <> p) by (intros ->; eapply (w_loose _ _ _ W2 p d); eauto; left; auto).
    rewrite other_set_cnt; auto. apply G5. intros [Hx|Hx]; [congruence|]. rewrite <- EP in Hx. eapply (w_dis _ _ _ W2 d c q); eauto.
  - rewrite pgs_app. change (pgs ((p, []) :: v)) with (p :: pgs v). apply (rep_same m3); auto.
  - rewrite pgs_app. change (pgs ((p, []) :: v)) with (p :: pgs v). apply nodup_insert; auto.
  - intros q it Hq. apply in_app_or in Hq. assert (Hq' : (q = p /\ it = []) \/ In (q, it) (L c)).
    { rewrite EL. destruct Hq as [Hq|[Hq|Hq]]; [right; apply in_or_app; auto|inversion Hq; auto|right; apply in_or_app; auto]. }
    destruct Hq' as [(-> & ->)|Hq'].
    + split; [rewrite cnt_set_cnt, Z.eqb_refl; reflexivity|reflexivity].
    + assert (Nqp : q <> p). { intros ->. apply NI. rewrite <- EP. apply (in_map fst) in Hq'. exact Hq'. }
      rewrite other_set_cnt; auto. destruct (w_items _ _ _ W2 c q it Hc Hq') as (I1 & I2). destruct (G6 q) as (J1 & J2). split; congruence.
  - intros q Hq. rewrite pgs_app in Hq. apply in_app_or in Hq. rewrite EP. destruct Hq as [Hq|[<-|Hq]]; [left; apply in_or_app; auto|right; left; auto|left; apply in_or_app; auto].
  - intros d Hd Hdc. cbn. auto.
  - eapply free_keep; [apply (w_free _ _ _ W2)| |cbn; lia|auto|auto]. cbn. auto.
Qed.


Lemma erase_page_W {A} (m : mem A) L c u x it v : W m L [] -> c <> 0 -> L c = u ++ (x, it) :: v ->
  exists m', erase_page c m x = COk m' /\ W m' (upd L c (u ++ v)) [] /\ steady m m' /\ fsize m' = fsize m.
Proof.
  intros Wm Hc EL. unfold erase_page.
  destruct (init_W m L [] c Wm Hc) as (W0 & R0 & F0 & S0). set (m0 := l_init m c) in *. clearbody m0.
  assert (BL : forall q, In q (pgs (L c)) -> 2 <= q < fsize m0 /\ 0 < q < page_nil) by (intros; eapply (pgs_bnd m0 L [] c); eauto).
  assert (ND : NoDup (pgs (L c))) by (apply (w_nd _ _ _ W0); auto).
  assert (EP : pgs (L c) = pgs u ++ x :: pgs v) by (rewrite EL, pgs_app; reflexivity).
  pose proof (w_sz _ _ _ W0) as Sz0.
  pose proof R0 as R0'. rewrite EP in R0', ND.
  destruct (erase_rep m0 c (pgs u) x (pgs v) R0' ND) as (m1 & m2 & E1 & G1 & F1 & S1 & E2 & F2 & D2 & C2).
  { rewrite <- EP. intros; apply BL; auto. }
  rewrite E2.
  assert (Bx : 2 <= x < fsize m0 /\ 0 < x < page_nil) by (apply BL; rewrite EP; apply in_or_app; right; left; auto).
  destruct (nodup_split _ _ _ ND) as (Nu & Nv & NDuv).
  pose proof (w_free _ _ _ W0) as FO.
  assert (FL1 : fl_ok m1) by (unfold fl_ok; rewrite S1; eapply free_fl; eauto).
  destruct (free_page_gen m1 x FL1) as (F3 & S3 & D3 & P1 & P2 & P3); [lia|].
  set (f := if front (sts m1 0) =? page_nil then x else front (sts m1 0)) in S3.
  assert (Hf : f <> page_nil) by (unfold f; destruct (Z.eqb_spec (front (sts m1 0)) page_nil); auto; lia).
  assert (S20 : sts m2 0 = mkState f x) by (rewrite D2; auto).
  assert (FL2 : fl_ok m2) by (right; rewrite S20; cbn; lia).
  destruct (free_page_gen m2 x FL2) as (F4 & S4 & D4 & Q1 & Q2 & Q3); [lia|].
  assert (E4 : l_empty m2 0 = false).
  { unfold l_empty. rewrite S20. cbn [front back]. apply orb_false_iff; split; apply Z.eqb_neq; auto; lia. }
  rewrite E4 in F4, Q2, Q3. rewrite S20 in F4, S4, Q2, Q3. cbn [front back] in F4, S4, Q2, Q3. rewrite Z.eqb_refl in Q3.
  destruct (Z.eqb_spec f page_nil); [congruence|].
  set (m4 := free_page m2 x) in *.
  exists m4. split; [reflexivity|].
  set (Y := if l_empty m1 0 then [] else [back (sts m1 0)]) in *.
  assert (FF : frame m0 m4 (x :: pgs u ++ pgs v ++ Y)).
  { eapply frame_trans1; [eapply frame_mono; [|exact F1]|eapply frame_trans1; [eapply frame_mono; [|exact F3]|eapply frame_trans1; [eapply frame_mono; [|exact F2]|eapply frame_mono; [|exact F4]]]].
    - intros z Hz. right. rewrite app_assoc. apply in_or_app; auto.
    - intros z [<-|Hz]; [left; auto|right; rewrite app_assoc; apply in_or_app; auto].
    - intros z [].
    - intros z [<-|[<-|[]]]; left; auto. }
  assert (HY : forall z, In z Y -> ~ used L [] z).
  { intros z Hz. unfold Y, l_empty in Hz. rewrite S1 in Hz. destruct FO as [F|[(F & (R1 & _) & _ & B)|(F & b & B1 & B2 & B3 & B4 & B5 & B6)]].
    - rewrite F, Z.eqb_refl, orb_true_r in Hz. destruct Hz.
    - rewrite R1 in Hz. cbn [front back] in Hz. destruct F as [|y F]; [destruct Hz|]. destruct (_ || _) in Hz; [destruct Hz|]. destruct Hz as [<-|[]]. apply B. apply last_in. discriminate.
    - destruct (_ || _) in Hz; [destruct Hz|]. destruct Hz as [<-|[]]. rewrite B1. auto. }
  pose proof FF as (H1 & H2 & H3 & H4 & H5 & H6). pose proof F0 as (I1 & I2 & I3 & I4 & _).
  split; [|split; [repeat split; congruence|congruence]].
  assert (FN : forall z, In z (pgs u ++ pgs v) -> pages m4 z = pages m1 z).
  { intros z Hz. pose proof F3 as (_ & _ & _ & _ & A3 & _). pose proof F2 as (_ & _ & _ & _ & A2 & _). pose proof F4 as (_ & _ & _ & _ & A4 & _).
    assert (Nz : z <> x) by (intros ->; apply in_app_or in Hz; tauto).
    rewrite A4, A2, A3; auto; [|intros [?|[?|[]]]; congruence].
    intros [K|K]; [congruence|]. apply (HY z K). right. exists c. rewrite EP. split; auto. apply in_or_app. apply in_app_or in Hz. destruct Hz; [left|right; right]; auto. }
  apply (W_chain m0 m4 L [] c); auto; try congruence.
  - intros d q Hd Hdc Hq. apply H5. intros [<-|K].
    + eapply (w_dis _ _ _ W0 d c x); eauto. rewrite EP. apply in_or_app; right; left; auto.
    + rewrite app_assoc in K. apply in_app_or in K. destruct K as [K|K].
      * eapply (w_dis _ _ _ W0 d c q); eauto. rewrite EP. apply in_app_or in K. apply in_or_app. destruct K; [left|right; right]; auto.
      * apply (HY q K). right; eauto.
  - rewrite pgs_app.
    split; [|eapply seg_same; [|exact G1]; intros z Hz; unfold same_links; rewrite FN; auto].
    rewrite D4 by auto. apply C2. rewrite D3 by auto. rewrite S1. reflexivity.
  - rewrite pgs_app. exact NDuv.
  - intros q i Hq. assert (Hq' : In (q, i) (L c)). { rewrite EL. apply in_app_or in Hq. apply in_or_app. destruct Hq; [left|right; right]; auto. }
    destruct (w_items _ _ _ W0 c q i Hc Hq') as (J1 & J2). destruct (H6 q) as (K1 & K2). split; congruence.
  - intros q Hq. left. rewrite EP. rewrite pgs_app in Hq. apply in_app_or in Hq. apply in_or_app. destruct Hq; [left|right; right]; auto.
  - intros d Hd Hdc. rewrite D4, D2, D3, S1 by auto. reflexivity.
  - right; right. rewrite S4. cbn [front back]. split; auto. exists x. rewrite Q1, Q2, Q3. repeat split; auto; try lia.
    intros [[]|(d & Hd & Hx)]. rewrite upd_eq in Hx. destruct (Z.eqb_spec d c).
    + rewrite pgs_app in Hx. apply in_app_or in Hx. tauto.
    + eapply (w_dis _ _ _ W0 d c x); eauto. rewrite EP. apply in_or_app; right; left; auto.
Qed.
