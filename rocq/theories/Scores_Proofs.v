(** Proofs about scores in a map: writing through an iterator keeps the map, and changes one value. *)

From Coq Require Import ZArith List Bool Lia Sorting.Sorted.
From Verif Require Import Base Cache_Model Linked_Model Linked_Proofs Cont_Model Cont_Spec Cont_Proofs Cont_Steps Cont_Runs Cont_Inner Map_Model Map_Spec Map_Proofs Scores_Model Scores_Spec.
From Verif Require Fast_Model.
Import ListNotations.
Open Scope Z_scope.
Local Opaque page_nil.

Section Scores.
Context {V : Type}.
Variable s : msizes.
Variable junk : mem (mitem V) -> Z -> Z -> Z.
Notation item := (mitem V).
Hypothesis Hv : 2 <= t_cap (t_vals s) <= 4069.
Hypothesis Hk : 2 <= t_cap (t_keys s) <= 4069.
Notation Map := (Map s). Notation Mid := (Mid s). Notation Base := (Base s). Notation ts := (ts s).

(** a value is overwritten *)
Lemma base_write (m : mem item) L u p a b v k w x : Base m L -> L c_vals = u ++ (p, a ++ IVal k w :: b) :: v ->
  Base (set_arr m p (upd (p_arr (pages m p)) (zl a) (IVal k x))) (upd L c_vals (u ++ (p, a ++ IVal k x :: b) :: v)).
Proof.
  intros B E. assert (Hc : c_vals <> 0) by discriminate. pose proof B as [I P Zm St]. pose proof (n_W _ _ _ I) as Wm. set (st := IVal k x).
  set (m' := set_arr m p _). pose proof (page_items _ _ _ _ _ _ _ _ Wm Hc E) as H.
  assert (PG : pages m' p = mkPage (Linked_Model.p_pos (pages m p)) (p_prev (pages m p)) (p_next (pages m p)) (p_cnt (pages m p)) (upd (p_arr (pages m p)) (zl a) st)).
  { unfold m', set_arr, set_page. cbn [pages]. apply upd_same. }
  assert (Hj : holds (pages m' p) (a ++ st :: b)).
  { destruct H as (H1 & H2). rewrite PG. split; cbn [p_cnt p_arr].
    - rewrite H1, !app_length. reflexivity.
    - apply tab_split in H2. destruct H2 as (H2 & H3). apply tab_join.
      + etransitivity; [|exact H2]. apply tab_ext. intros i Hi'. apply upd_other. unfold zl. lia.
      + change (length (st :: b)) with (1 + length b)%nat. change (length (IVal k w :: b)) with (1 + length b)%nat in H3. rewrite tab_app, tab_one in H3 |- *. cbn [app] in H3 |- *. injection H3 as _ H3. f_equal; [apply upd_same|].
        etransitivity; [|exact H3]. apply tab_ext. intros i Hi'. apply upd_other. unfold zl. lia. }
  assert (OT : forall q, q <> p -> pages m' q = pages m q). { intros q Hq. unfold m', set_arr, set_page. cbn [pages]. apply upd_other; auto. }
  assert (SL : forall z, same_links (pages m) (pages m') z).
  { intro z. destruct (Z.eq_dec z p) as [->|N]; [|unfold same_links; rewrite OT; auto]. unfold same_links. rewrite PG. auto. }
  constructor.
  - constructor; auto; [eapply W_items_of; eauto|..].
    + intros d Hd. rewrite upd_eq. destruct (Z.eqb_spec d c_vals); [subst d|apply (n_good _ _ _ I); auto].
      pose proof (n_good _ _ _ I _ Hc) as G. rewrite E in G. apply good_app in G. destruct G as (Gu & G). apply good_cons in G. destruct G as (_ & Gl & Gv).
      apply good_app. split; [auto|]. apply good_cons. split; [destruct a; discriminate|]. split; [rewrite !zl_app, !zl_cons in *; lia|auto].
    + apply (n_cap _ _ _ I).
    + intros d Hd. change (tots m' d) with (tots m d). rewrite (n_tot _ _ _ I) by auto. rewrite upd_eq. destruct (Z.eqb_spec d c_vals); [subst d|auto]. rewrite E, !flat_app, !flat_cons, !zl_app, !zl_cons. lia.
    + apply (n_room _ _ _ I).
  - eapply (proper_links m); [exact P|exact SL|reflexivity|reflexivity|]. intros z Hz. eapply used_same; [|exact Hz]. intros d Hd. rewrite upd_eq. destruct (Z.eqb_spec d c_vals); [subst d|auto]. rewrite E, !pgs_app. reflexivity.
  - exact Zm.
  - intros z x0 kk vv Ez. change (stale_at s (upd L c_vals (u ++ (p, a ++ st :: b) :: v) c_vals) z x0 kk). rewrite upd_same.
    assert (FK : first_key (a ++ st :: b) = first_key (a ++ IVal k w :: b)) by (destruct a; reflexivity).
    assert (ZL : zl (a ++ st :: b) = zl (a ++ IVal k w :: b)) by (rewrite !zl_app, !zl_cons; reflexivity).
    destruct (Z.eq_dec z p) as [->|N].
    + destruct (Z.eq_dec x0 (zl a)) as [->|Nx].
      * exists u, (a ++ st :: b), v. split; [reflexivity|]. rewrite zl_app, zl_cons. pose proof (zl_pos b). intro; exfalso; lia.
      * rewrite PG in Ez. cbn [p_arr] in Ez. rewrite upd_other in Ez by auto. destruct (St _ _ _ _ Ez) as (u0 & i0 & w0 & EE & HH).
        pose proof (w_nd _ _ _ Wm c_vals Hc) as ND. rewrite E in EE, ND. assert (u = u0) by (eapply page_once; [exact ND|exact EE]). subst u0. apply app_inv_head in EE. injection EE as <- <-.
        exists u, (a ++ st :: b), v. split; [reflexivity|]. rewrite ZL. exact HH.
    + rewrite OT in Ez by auto. specialize (St _ _ _ _ Ez). change (stale_at s (L c_vals) z x0 kk) in St. rewrite E in St.
      apply (stale_lift s u p (a ++ IVal k w :: b) v (a ++ st :: b) []); auto.
Qed.

(** the ordinary map with one value replaced *)
Fixpoint change (k : Z) (x : V) (l : list (Z * V)) : list (Z * V) :=
  match l with
  | [] => []
  | (j, w) :: r => if k =? j then (j, x) :: r else (j, w) :: change k x r
  end.
Lemma change_keys k x l : map fst (change k x l) = map fst l.
Proof. induction l as [|[j w] l IH]; cbn; [reflexivity|]. destruct (k =? j); cbn; [reflexivity|]. rewrite IH. reflexivity. Qed.
Lemma change_at k x w l1 l2 : ~ In k (map fst l1) -> change k x (l1 ++ (k, w) :: l2) = l1 ++ (k, x) :: l2.
Proof.
  induction l1 as [|[j y] l1 IH]; cbn [app change map fst]; intro H; [rewrite Z.eqb_refl; reflexivity|].
  destruct (Z.eqb_spec k j) as [->|]; [exfalso; apply H; left; reflexivity|]. rewrite IH; [reflexivity|]. intro; apply H; right; auto.
Qed.

Lemma write_full (m : mem item) L n l k w i x : Map (calm m) L n l -> spot L k w i ->
  exists m' L', scores_at m i = COk w /\ set_scores m i x = COk m' /\ Map (calm m') L' n (change k x l) /\ L' c_path = L c_path /\ room m' = room m /\ fsize m' = fsize m /\ get k l = Some (k, w).
Proof.
  intros M (u & p & a & b & v & E & ->). pose proof M as [Mi Fv Sr Po To Ix]. pose proof (d_base _ _ _ _ Mi) as B. pose proof (ts_cap s Hv Hk c_vals) as Cc.
  assert (Hc : c_vals <> 0) by discriminate.
  destruct (loc_facts (calm m) L [] c_vals (t_cap (ts c_vals)) (base_W _ _ _ B) Hc (base_good _ _ _ _ B Hc) ltac:(lia) u p a (IVal k w) b v E) as (_ & D & _ & _).
  change (c_deref (calm m)) with (@c_deref item m) in D. unfold scores_at, set_scores. rewrite D. cbn [i_page i_item].
  pose proof (base_write (calm m) L u p a b v k w x B E) as B'.
  set (m' := set_arr m p (upd (p_arr (pages m p)) (zl a) (IVal k x))). set (L' := upd L c_vals (u ++ (p, a ++ IVal k x :: b) :: v)) in *.
  change (Base (calm m') L') in B'. exists m', L'. split; [reflexivity|]. split; [reflexivity|].
  rewrite E, flat_app, flat_cons, <- app_assoc, app_assoc in Fv. cbn [app] in Fv. pose proof Fv as F. symmetry in F. apply map_eq_app in F. destruct F as (l1 & l2 & -> & E1 & E2).
  destruct l2 as [|[k2 w2] l2]; [discriminate|]. cbn in E2. injection E2 as -> -> E2.
  assert (LT : forall y, In y (map fst l1) -> y < k). { rewrite map_app in Sr. apply srt_app in Sr. destruct Sr as (_ & _ & S3). intros y Hy. apply (S3 y k Hy). left; reflexivity. }
  assert (N1 : ~ In k (map fst l1)) by (intro X; apply LT in X; lia).
  split; [|split; [apply upd_other; discriminate|split; [reflexivity|split; [reflexivity|apply get_here; auto]]]].
  rewrite (change_at k x w) by auto.
  assert (LLV : forall j, L' (c_level j) = L (c_level j)). { intro j. destruct (level_pos j) as (_ & Q1 & _). unfold L'. apply upd_other. auto. }
  assert (LBE : forall j, j <> O -> L' (below j) = L (below j)). { intros [|j] Hj; [congruence|]. apply LLV. }
  assert (V' : L' c_vals = u ++ (p, a ++ IVal k x :: b) :: v) by apply upd_same.
  constructor.
  - eapply mid_vals; eauto.
  - rewrite V', flat_app, flat_cons, <- app_assoc, app_assoc. cbn [app]. unfold entries. rewrite map_app. cbn [map fst snd]. unfold entries in E1. rewrite E1, E2. reflexivity.
  - rewrite map_app in *. exact Sr.
  - intros y Hy. apply Po. rewrite map_app in *. exact Hy.
  - right. destruct To as [(X & _)|(r & i & ET)]; [destruct l1; discriminate|]. destruct (Nat.eq_dec n 0) as [->|Nn]; [|exists r, i; rewrite LBE by auto; exact ET].
    unfold top. cbn [below] in *. rewrite V'. rewrite E in ET. destruct u as [|? [|? ?]]; try discriminate. destruct v; try discriminate. cbn [app]. eauto.
  - intros j Hj. unfold indexed. rewrite LLV. rewrite (Ix j Hj). destruct j as [|j]; [|rewrite LBE by auto; reflexivity]. cbn [below]. rewrite V', E, !index_app. cbn [index map fst snd]. do 3 f_equal. destruct a; reflexivity.
Qed.

Lemma find_full m L n l k : Map (calm m) L n l -> L c_path = [] -> fsize m + Z.of_nat n <= room m -> (forall m q x, junk m q x <> k) ->
  exists m' i L', m_find s junk m k = COk (m', i) /\ Map (calm m') L' n l /\ L' c_path = [] /\ room m' = room m /\ fsize m <= fsize m' <= fsize m + Z.of_nat n /\
    match get k l with Some (_, w) => spot L' k w i /\ can_deref i = true | None => can_deref i = false end.
Proof.
  intros M EP SZ HJ. destruct (find_ok s junk Hv Hk m L n l k M EP SZ HJ) as (m1 & ps & f & P & E1 & M1 & EF & R1 & SZ1 & K).
  unfold m_find. rewrite E1. cbn [cbind].
  destruct (drop_ok s m1 (upd L c_path ps) n l (if f_ok f then f_itr f else c_end c_vals m1) M1) as (m2 & E2 & M2 & R2 & SZ2 & ST2). rewrite E2.
  set (L2 := upd (upd L c_path ps) c_path []) in *.
  exists m2, (if f_ok f then f_itr f else c_end c_vals m1), L2. split; [reflexivity|]. split; [exact M2|]. split; [apply upd_same|]. split; [congruence|]. split; [lia|].
  assert (NE : can_deref (c_end c_vals m1) = false) by (unfold can_deref, c_end; cbn; rewrite !andb_false_r; reflexivity).
  destruct K as [(-> & -> & _ & _)|(p & FO & _)]; [cbn [get find f_ok]; exact NE|].
  destruct (found_split s m1 _ n l k f p M1 ltac:(destruct FO as (u & a & b & v & EL & FO); exists u, a, b, v; rewrite upd_other by discriminate; auto)) as (u & a & b & v & l1 & l2 & EL & EI & -> & El1 & El2 & HA & _ & HB).
  destruct HB as [(Hf & w & b' & l' & -> & ->)|(Hf & HB)]; rewrite Hf.
  - rewrite get_here by auto. assert (E3 : L2 c_vals = u ++ (p, a ++ IVal k w :: b') :: v) by (unfold L2; rewrite upd_other by discriminate; exact EL).
    split; [exists u, p, a, b', v; auto|]. rewrite EI. pose proof (ts_cap s Hv Hk c_vals). pose proof (d_base _ _ _ _ (p_mid _ _ _ _ _ M2)) as B2. assert (Hc : c_vals <> 0) by discriminate.
    apply (loc_facts (calm m2) L2 [] c_vals (t_cap (ts c_vals)) (base_W _ _ _ B2) Hc (base_good _ _ _ _ B2 Hc) ltac:(lia) u p a (IVal k w) b' v E3).
  - rewrite get_none; [exact NE|]. rewrite map_app. intro X. apply in_app_or in X. destruct X as [X|X]; [apply HA in X|apply HB in X]; lia.
Qed.

Definition value_or (v0 : V) (k : Z) (l : list (Z * V)) : V := match get k l with Some (_, w) => w | None => v0 end.
Definition visit_ideal (v0 : V) (k : Z) (f : option (V -> V)) (l : list (Z * V)) : list (Z * V) :=
  let l' := put k v0 l in match f with Some f => change k (f (value_or v0 k l)) l' | None => l' end.
Lemma put_get k v0 (l : list (Z * V)) : get k l <> None -> srt (map fst l) -> put k v0 l = l.
Proof.
  intros H HS. induction l as [|[j w] l IH]; [cbn in H; congruence|]. cbn [put get find fst] in *. cbn [map fst] in HS. apply srt_cons in HS. destruct HS as (HS & HL).
  destruct (Z.ltb_spec k j).
  - exfalso. destruct (Z.eqb_spec j k); [lia|]. apply H. apply get_none. intro X. apply HL in X. lia.
  - destruct (Z.eqb_spec k j) as [->|]; [reflexivity|]. destruct (Z.eqb_spec j k); [lia|]. rewrite IH; auto.
Qed.
Lemma get_put k v0 (l : list (Z * V)) : srt (map fst l) -> get k (put k v0 l) = Some (k, value_or v0 k l).
Proof.
  unfold value_or. intro HS. induction l as [|[j w] l IH]; cbn [put].
  - cbn. rewrite Z.eqb_refl. reflexivity.
  - cbn [map fst] in HS. apply srt_cons in HS. destruct HS as (HS & HL). destruct (Z.ltb_spec k j).
    + assert (G : get k ((j, w) :: l) = None). { apply get_none. intros [X|X]; [cbn in X; lia|apply HL in X; lia]. } rewrite G. cbn. rewrite Z.eqb_refl. reflexivity.
    + destruct (Z.eqb_spec k j) as [->|]; [cbn; rewrite Z.eqb_refl; reflexivity|]. unfold get in *. cbn [find fst]. destruct (Z.eqb_spec j k); [lia|]. apply IH; auto.
Qed.
Lemma visit_full m L n l v0 k f : Map (calm m) L n l -> L c_path = [] -> fsize m + 3 * Z.of_nat n + 4 <= room m -> (forall m q x, junk m q x <> k) -> 0 <= k -> (l = [] \/ exists k0, In k0 (map fst l) /\ k0 <= k) ->
  exists m' n' L', visit s junk m v0 k f = COk (m', value_or v0 k l) /\ Map (calm m') L' n' (visit_ideal v0 k f l) /\ L' c_path = [] /\ room m' = room m.
Proof.
  intros M EP SZ HJ K0 HK. destruct (find_full m L n l k M EP ltac:(lia) HJ) as (m1 & i & L1 & E1 & M1 & EP1 & R1 & SZ1 & F). unfold visit, ensure_in_map. rewrite E1. cbn [cbind].
  assert (K : forall m1 L1 n1 i w, Map (calm m1) L1 n1 (put k v0 l) -> L1 c_path = [] -> room m1 = room m -> spot L1 k w i -> 
    exists m' n' L', cbind (scores_at m1 i) (fun w => match f with None => COk (m1, w) | Some f => cbind (set_scores m1 i (f w)) (fun m => COk (m, w)) end) = COk (m', value_or v0 k l) /\ Map (calm m') L' n' (visit_ideal v0 k f l) /\ L' c_path = [] /\ room m' = room m).
  { clear - M Hv Hk. intros m1 L1 n1 i w M1 P1 R1 Sp. destruct (write_full m1 L1 n1 _ k w i (match f with Some f => f w | None => w end) M1 Sp) as (m2 & L2 & E1 & E2 & M2 & P2 & R2 & _ & G).
    rewrite get_put in G by apply (p_srt _ _ _ _ _ M). injection G as <-. rewrite E1. cbn [cbind]. unfold visit_ideal. destruct f as [f|].
    - rewrite E2. cbn [cbind]. exists m2, n1, L2. split; [reflexivity|]. split; [exact M2|]. split; congruence.
    - exists m1, n1, L1. auto. }
  destruct (get k l) as [[k1 w]|] eqn:G.
  - destruct F as (Sp & ->). cbn [cbind]. apply (K m1 L1 n i w); auto. rewrite put_get; [exact M1|congruence|apply (p_srt _ _ _ _ _ M)].
  - rewrite F. destruct (insert_full s junk Hv Hk m1 L1 n l k v0 M1 EP1 ltac:(lia) HJ K0 HK) as (m2 & n2 & i2 & L2 & E2 & M2 & EP2 & (w & Sp) & R2 & _). rewrite E2. cbn [cbind].
    apply (K m2 L2 n2 i2 w); auto. congruence.
Qed.

(** * Histories *)
(** The ordinary map holds what the visits so far have left. *)
Definition holds_scores (v0 : V) (h : list (visited V)) (l : list (Z * V)) : Prop :=
  (forall k, In k (map fst l) <-> In k (map fst h)) /\ forall k w, In (k, w) l -> w = scores_of v0 h k.
Lemma change_in k x l j w : In (j, w) (change k x l) -> NoDup (map fst l) -> (j = k /\ w = x) \/ (j <> k /\ In (j, w) l).
Proof.
  induction l as [|[j0 w0] l IH]; cbn [change map fst]; [intros []|]. intros H N. inversion N as [|? ? N1 N2]; subst. destruct (Z.eqb_spec k j0) as [->|D]; destruct H as [H|H].
  - injection H as <- <-. auto.
  - right. split; [|right; auto]. intros ->. apply N1. apply (in_map fst) in H. exact H.
  - injection H as <- <-. right. split; [auto|left; auto].
  - destruct (IH H N2) as [?|(? & ?)]; [left; auto|right; split; [auto|right; auto]].
Qed.
Lemma srt_nodup l : srt l -> NoDup l.
Proof. induction 1 as [|x l H IH F]; constructor; auto. rewrite Forall_forall in F. intro X. apply F in X. lia. Qed.
Lemma put_pairs k v (l : list (Z * V)) j w : In (j, w) (put k v l) -> (j, w) = (k, v) \/ In (j, w) l.
Proof.
  induction l as [|[j0 w0] l IH]; cbn [put]; [intros [H|[]]; auto|]. destruct (k <? j0); [intros [H|H]; auto|]. destruct (k =? j0); [auto|]. intros [H|H]; [right; left; auto|]. destruct (IH H); [auto|right; right; auto].
Qed.
Lemma scores_snoc (v0 : V) h k f j : scores_of v0 (h ++ [(k, f)]) j = (if k =? j then match f with Some f => f (scores_of v0 h j) | None => scores_of v0 h j end else scores_of v0 h j).
Proof. unfold scores_of. rewrite fold_left_app. reflexivity. Qed.
Lemma scores_new (v0 : V) h k : ~ In k (map fst h) -> scores_of v0 h k = v0.
Proof.
  unfold scores_of. revert v0. induction h as [|[j f] h IH]; intros v0 H; [reflexivity|]. cbn [fold_left map fst] in *. destruct (Z.eqb_spec j k) as [->|]; [exfalso; apply H; left; auto|]. apply IH. intro; apply H; right; auto.
Qed.
Lemma get_some k (l : list (Z * V)) j w : get k l = Some (j, w) -> j = k /\ In (k, w) l.
Proof. intro G. apply find_some in G. destruct G as (G & E). cbn in E. apply Z.eqb_eq in E. subst j. auto. Qed.
Lemma get_absent k (l : list (Z * V)) : get k l = None -> ~ In k (map fst l).
Proof. intros G H. apply in_map_iff in H. destruct H as ((j & w) & E & H). cbn in E. subst j. pose proof (find_none _ _ G _ H) as X. cbn in X. rewrite Z.eqb_refl in X. discriminate. Qed.
Lemma value_ok v0 h l k : holds_scores v0 h l -> value_or v0 k l = scores_of v0 h k.
Proof.
  intros (H1 & H2). unfold value_or. destruct (get k l) as [[j w]|] eqn:G; [apply get_some in G; destruct G as (-> & G); auto|]. apply get_absent in G. rewrite H1 in G. symmetry. apply scores_new; auto.
Qed.
Lemma visit_holds v0 h l k f : holds_scores v0 h l -> srt (map fst l) -> holds_scores v0 (h ++ [(k, f)]) (visit_ideal v0 k f l).
Proof.
  intros H HS. pose proof (value_ok v0 h l k H) as VO. destruct H as (H1 & H2).
  assert (PS : srt (map fst (put k v0 l))) by (apply put_srt; auto).
  assert (PV : forall j w, In (j, w) (put k v0 l) -> w = scores_of v0 h j).
  { intros j w Hj. destruct (get k l) as [[j0 w0]|] eqn:G.
    - rewrite put_get in Hj by (auto; congruence). auto.
    - apply get_absent in G. rewrite H1 in G. apply put_pairs in Hj. destruct Hj as [E|Hj]; [injection E as -> ->; symmetry; apply scores_new; auto|auto]. }
  split.
  - intro j. assert (E : map fst (visit_ideal v0 k f l) = map fst (put k v0 l)) by (unfold visit_ideal; destruct f; [apply change_keys|reflexivity]).
    rewrite E, put_keys, map_app, in_app_iff, H1. cbn. intuition.
  - intros j w Hj. rewrite scores_snoc. unfold visit_ideal in Hj. destruct f as [f|].
    + apply change_in in Hj; [|apply srt_nodup; auto]. destruct Hj as [(-> & ->)|(N & Hj)]; [rewrite Z.eqb_refl, VO; reflexivity|]. destruct (Z.eqb_spec k j); [congruence|]. apply PV; auto.
    + destruct (k =? j); apply PV; auto.
Qed.
Lemma visits_ok v0 h : forall m L n l pre, Map (calm m) L n l -> L c_path = [] -> holds_scores v0 pre l -> (forall k, In k (map fst h) -> 0 <= k) -> (forall k, In k (map fst h) -> forall m q x, junk m q x <> k) ->
  lowest_first (map fst (pre ++ h)) -> roomy_visits s junk m v0 h ->
  exists m' n' l', visits_to s junk m v0 h = COk (m', readings v0 pre h) /\ Rest s m' n' l' /\ holds_scores v0 (pre ++ h) l' /\ room m' = room m.
Proof.
  induction h as [|[k f] h IH]; intros m L n l pre M EP HS HP HJ HL HR; cbn [visits_to readings roomy_visits fst] in *.
  - exists m, n, l. split; [reflexivity|]. split; [exists L; auto|]. rewrite app_nil_r. auto.
  - destruct HR as (HR & HR'). rewrite (rest_levels s m n l ltac:(exists L; auto)) in HR.
    destruct (visit_full m L n l v0 k f M EP HR) as (m1 & n1 & L1 & E1 & M1 & EP1 & R1).
    + intros. apply HJ. left; reflexivity.
    + apply HP. left; reflexivity.
    + destruct pre as [|[k0 f0] pre]; [left; destruct l as [|[j w] l]; [reflexivity|exfalso; apply (proj1 HS j); left; reflexivity]|right].
      exists k0. split; [apply (proj1 HS); left; reflexivity|]. apply (HL k). rewrite map_app. apply in_or_app. right; left; reflexivity.
    + rewrite E1 in HR' |- *. cbn [cbind]. destruct (IH m1 L1 n1 _ (pre ++ [(k, f)]) M1 EP1) as (m2 & n2 & l2 & E2 & R2 & H2 & Rm2); auto.
      * apply visit_holds; [exact HS|apply (p_srt _ _ _ _ _ M)].
      * intros k' Hk' . apply HP. right; auto.
      * intros k' Hk'. apply HJ. right; auto.
      * rewrite <- app_assoc. exact HL.
      * rewrite E2. cbn [cbind]. rewrite (value_ok v0 pre l k HS). exists m2, n2, l2. split; [reflexivity|]. split; [exact R2|]. rewrite <- app_assoc in H2. split; [exact H2|congruence].
Qed.
End Scores.

(** * The ideal map of the engines *)
Lemma fast_find_store k key v j : Fast_Model.find (Fast_Model.store k key v) j = if key =? j then Some v else Fast_Model.find k j.
Proof.
  induction k as [|[j0 w0] k IH]; cbn [Fast_Model.store Fast_Model.find].
  - rewrite (Z.eqb_sym j key). reflexivity.
  - destruct (Z.eqb_spec key j0) as [->|D]; cbn [Fast_Model.find].
    + rewrite (Z.eqb_sym j0 j). destruct (j =? j0); reflexivity.
    + rewrite IH. destruct (Z.eqb_spec j j0) as [->|]; [|reflexivity]. apply Z.eqb_neq in D. rewrite D. reflexivity.
Qed.
Lemma ideal_readings n h : forall k pre, (forall j, Fast_Model.find k j = if in_dec Z.eq_dec j (map fst pre) then Some (scores_of (repeat (-1) n) pre j) else None) ->
  ideal_visits n k h = map Some (readings (repeat (-1) n) pre h).
Proof.
  induction h as [|[key f] h IH]; intros k pre H; [reflexivity|]. cbn [ideal_visits readings map fst]. unfold Fast_Model.ensure. rewrite H.
  set (v0 := repeat (-1) n) in *. change (repeat Fast_Model.score_none n) with v0.
  assert (K : forall k1, (forall j, Fast_Model.find k1 j = if key =? j then Some (scores_of v0 pre key) else Fast_Model.find k j) ->
    ideal_visits n (match f with Some f => Fast_Model.store k1 key (f (scores_of v0 pre key)) | None => k1 end) h = map Some (readings v0 (pre ++ [(key, f)]) h)).
  { intros k1 H1. apply IH. intro j. rewrite scores_snoc. assert (EI : (if in_dec Z.eq_dec j (map fst (pre ++ [(key, f)])) then true else false) = (if key =? j then true else if in_dec Z.eq_dec j (map fst pre) then true else false)).
    { destruct (in_dec Z.eq_dec j (map fst (pre ++ [(key, f)]))) as [I|I]; rewrite map_app, in_app_iff in I; cbn in I; destruct (Z.eqb_spec key j); destruct (in_dec Z.eq_dec j (map fst pre)); tauto. }
    destruct (in_dec Z.eq_dec j (map fst (pre ++ [(key, f)]))) as [I|I]; destruct f as [f|]; rewrite ?fast_find_store, H1, ?H; destruct (Z.eqb_spec key j) as [->|]; try discriminate; try reflexivity;
      destruct (in_dec Z.eq_dec j (map fst pre)); try discriminate; reflexivity. }
  destruct (in_dec Z.eq_dec key (map fst pre)) as [I|I]; cbn zeta.
  - f_equal.
    apply K. intro j. destruct (Z.eqb_spec key j) as [<-|]; [|reflexivity]. rewrite H. destruct (in_dec _ _ _); [reflexivity|contradiction].
  - pose proof (scores_new v0 pre key I) as N. rewrite N in K |- *. f_equal. apply K. intro j. apply fast_find_store.
Qed.
