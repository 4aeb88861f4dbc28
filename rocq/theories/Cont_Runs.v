(** Proofs about containers: iteration and histories of calls. *)

From Coq Require Import ZArith List Bool Lia.
From Verif Require Import Base Cache_Model Linked_Model Linked_Proofs Cont_Model Cont_Spec Cont_Proofs Cont_Steps Cont_Erase.
Import ListNotations.
Open Scope Z_scope.
Local Opaque page_nil.

(** * Iteration *)
Lemma locate {A} (ps : list (Z * list A)) k : (k < length (flat ps))%nat ->
  exists u p a x b v, ps = u ++ (p, a ++ x :: b) :: v /\ length (flat u ++ a) = k.
Proof.
  revert k; induction ps as [|[p i] ps IH]; intros k Hk; [cbn in Hk; lia|].
  rewrite flat_cons, app_length in Hk. destruct (Nat.ltb_spec k (length i)) as [H|H].
  - pose proof (firstn_skipn k i) as E. destruct (skipn k i) as [|x b] eqn:ES.
    + apply f_equal with (f := @length A) in ES. rewrite skipn_length in ES. cbn in ES. lia.
    + exists [], p, (firstn k i), x, b, ps. rewrite E. split; [reflexivity|]. cbn. rewrite firstn_length. lia.
  - destruct (IH (k - length i)%nat) as (u & q & a & x & b & v & -> & E); [lia|].
    exists ((p, i) :: u), q, a, x, b, v. split; [reflexivity|]. rewrite flat_cons, <- app_assoc, app_length, E. lia.
Qed.

Lemma ends_case {B} (l : list B) : l = [] \/ exists u x, l = u ++ [x].
Proof. destruct l as [|x u _] using rev_ind; [left; auto|right; exists u, x; auto]. Qed.

Lemma skipn_step {B} k : forall (l : list B) x r, skipn k l = x :: r -> skipn (S k) l = r.
Proof. induction k; intros [|y l] x r E; cbn in *; try congruence. apply IHk in E. exact E. Qed.

Section Iter.
Context {A : Type}.
Variables (m : mem A) (L : layout A) (X : list Z) (c cap : Z).
Hypothesis Wm : W m L X.
Hypothesis Hc : c <> 0.
Hypothesis Hg : good cap (L c).
Hypothesis Hcap : cap <= 65534.

Lemma page_good u p i v : L c = u ++ (p, i) :: v -> i <> [] /\ zl i <= cap.
Proof. intro E. pose proof Hg as G. rewrite E in G. apply good_app in G. destruct G as (_ & G). apply good_cons in G. tauto. Qed.

Lemma begin_at p x b v : L c = (p, x :: b) :: v -> c_begin c m = mkI true p 0 E_none.
Proof.
  intro E. unfold c_begin. rewrite (W_states _ _ _ _ Wm Hc), E. cbn [pgs map hd fst front].
  destruct (page_bnd m L X c [] p (x :: b) v Wm Hc E). destruct (Z.eqb_spec p page_nil); [lia|reflexivity].
Qed.
Lemma begin_empty : L c = [] -> c_begin c m = c_end c m.
Proof. intro E. unfold c_begin. rewrite (W_states _ _ _ _ Wm Hc), E. cbn. rewrite Z.eqb_refl. reflexivity. Qed.
Lemma next_in u p a x y b v : L c = u ++ (p, a ++ x :: y :: b) :: v -> c_next c m (mkI true p (zl a) E_none) = mkI true p (zl (a ++ [x])) E_none.
Proof.
  intro E. destruct (page_items _ _ _ _ _ _ _ _ Wm Hc E) as (Ic & _). fold (zl (a ++ x :: y :: b)) in Ic.
  destruct (page_bnd _ _ _ _ _ _ _ _ Wm Hc E). destruct (page_good _ _ _ _ E) as (_ & Hl). rewrite zl_app, !zl_cons in Hl, Ic. pose proof (zl_pos a). pose proof (zl_pos b).
  unfold c_next. cbn [i_item i_edge i_page edge_eqb]. rewrite andb_false_r. destruct (Z.eqb_spec p page_nil); [lia|].
  rewrite Ic. destruct (Z.ltb_spec (zl a) (zl a + (1 + (1 + zl b)) - 1)); [|lia]. rewrite small_u16 by lia. rewrite zl_app. reflexivity.
Qed.
Lemma next_out u p a x v : L c = u ++ (p, a ++ [x]) :: v -> c_next c m (mkI true p (zl a) E_none) = at_v m c v.
Proof.
  intro E. destruct (page_items _ _ _ _ _ _ _ _ Wm Hc E) as (Ic & _). fold (zl (a ++ [x])) in Ic.
  destruct (page_bnd _ _ _ _ _ _ _ _ Wm Hc E). rewrite zl_app in Ic. change (zl [x]) with 1 in Ic.
  rewrite <- (next_v _ _ _ _ _ _ _ _ Wm Hc E).
  unfold c_next. cbn [i_item i_edge i_page edge_eqb]. rewrite andb_false_r. destruct (Z.eqb_spec p page_nil); [lia|].
  rewrite Ic. destruct (Z.ltb_spec (zl a) (zl a + 1 - 1)); [lia|]. reflexivity.
Qed.
Lemma next_end : c_next c m (c_end c m) = c_end c m.
Proof.
  unfold c_next. cbn [c_end i_item i_edge i_page edge_eqb]. rewrite andb_false_r. pose proof (W_states _ _ _ _ Wm Hc) as S. rewrite S. cbn [back].
  destruct (ends_case (L c)) as [E|(u & [p i] & E)]; [rewrite E; cbn; rewrite Z.eqb_refl; reflexivity|].
  rewrite E, last_pgs. destruct (page_bnd _ _ _ _ _ _ _ _ Wm Hc E). destruct (Z.eqb_spec p page_nil); [lia|].
  destruct (page_items _ _ _ _ _ _ _ _ Wm Hc E) as (Ic & _). fold (zl i) in Ic. rewrite Ic. destruct (page_good _ _ _ _ E) as (_ & Hl).
  destruct (Z.ltb_spec item_nil (zl i - 1)); [unfold item_nil in *; lia|].
  pose proof (page_links _ _ _ _ _ _ _ _ Wm Hc E) as (_ & En). rewrite En. cbn [pgs map hd]. rewrite Z.eqb_refl. reflexivity.
Qed.

Lemma itr_loc k : forall u p a x b v, L c = u ++ (p, a ++ x :: b) :: v -> length (flat u ++ a) = k -> itr_at m c k = mkI true p (zl a) E_none.
Proof.
  induction k as [|k IH]; intros u p a x b v E Hk.
  - rewrite app_length in Hk. assert (a = []) by (destruct a; auto; cbn in Hk; lia). subst a.
    assert (u = []). { destruct u as [|[q i] u]; auto. exfalso. destruct (page_good [] q i (u ++ (p, [] ++ x :: b) :: v)) as (Hn & _); [exact E|]. rewrite flat_cons, app_length in Hk. destruct i; [congruence|cbn in Hk; lia]. } subst u.
    unfold itr_at. cbn [Nat.iter]. apply (begin_at p x b v). exact E.
  - change (itr_at m c (S k)) with (c_next c m (itr_at m c k)).
    destruct a as [|y a' _] using rev_ind.
    + destruct u as [|[q i] u' _] using rev_ind; [cbn in Hk; lia|].
      assert (E' : L c = u' ++ (q, i) :: (p, [] ++ x :: b) :: v) by (rewrite E, <- app_assoc; reflexivity).
      destruct (page_good _ _ _ _ E') as (Hn & _). destruct i as [|z i' _] using rev_ind; [congruence|].
      rewrite (IH u' q i' z [] _ E'); [|rewrite flat_app, !app_length in *; cbn in Hk; rewrite app_nil_r in Hk; rewrite app_length in Hk; cbn in Hk; lia].
      rewrite (next_out _ _ _ _ _ E'). reflexivity.
    + assert (E' : L c = u ++ (p, a' ++ y :: x :: b) :: v) by (rewrite E, <- app_assoc; reflexivity).
      rewrite (IH u p a' y (x :: b) v E'); [|rewrite !app_length in *; cbn in Hk; lia]. apply (next_in _ _ _ _ _ _ _ E').
Qed.
Lemma itr_end k : (length (flat (L c)) <= k)%nat -> itr_at m c k = c_end c m.
Proof.
  induction k as [|k IH]; intro Hk.
  - unfold itr_at. cbn [Nat.iter]. apply begin_empty. destruct (L c) as [|[p i] v] eqn:E in |- *; auto. exfalso.
    destruct (page_good [] p i v E) as (Hn & _). rewrite E, flat_cons, app_length in Hk. destruct i; [congruence|cbn in Hk; lia].
  - change (itr_at m c (S k)) with (c_next c m (itr_at m c k)). destruct (Nat.leb_spec (length (flat (L c))) k) as [H|H].
    + rewrite IH by auto. apply next_end.
    + destruct (locate (L c) k H) as (u & p & a & x & b & v & E & El). rewrite (itr_loc k u p a x b v E El).
      assert (b ++ flat v = []) as Eb.
      { assert (K : length (flat (L c)) = S k) by lia. rewrite E, flat_app, flat_cons, <- app_assoc, app_assoc in K. rewrite app_length in K. cbn [app length] in K. rewrite El in K.
        destruct (b ++ flat v); auto. cbn in K. lia. }
      apply app_eq_nil in Eb. destruct Eb as (-> & Ev). rewrite (next_out _ _ _ _ _ E).
      destruct v as [|[q i] v]; [reflexivity|]. exfalso. rewrite pair_app in E. destruct (page_good _ _ _ _ E) as (Hn & _). rewrite flat_cons in Ev. apply app_eq_nil in Ev. tauto.
Qed.
Lemma loc_facts u p a x b v : L c = u ++ (p, a ++ x :: b) :: v -> let i := mkI true p (zl a) E_none in
  can_deref i = true /\ c_deref m i = Some x /\ citr_eqb i (c_end c m) = false /\ citr_eqb i (c_rbegin c m) = false.
Proof.
  intros E i. destruct (page_bnd _ _ _ _ _ _ _ _ Wm Hc E). destruct (page_good _ _ _ _ E) as (_ & Hl). rewrite zl_app, zl_cons in Hl. pose proof (zl_pos a). pose proof (zl_pos b).
  destruct (page_items _ _ _ _ _ _ _ _ Wm Hc E) as (_ & It).
  unfold can_deref, c_deref, citr_eqb, i. cbn [i_ok i_page i_item i_edge edge_eqb c_end c_rbegin]. rewrite (zl_ok a cap) by lia. destruct (Z.eqb_spec p page_nil); [lia|].
  rewrite !andb_false_r. cbn. repeat split; auto. f_equal. apply (tab_nth _ _ _ _ It).
Qed.
Lemma eqb_end : citr_eqb (c_end c m) (c_end c m) = true.
Proof. unfold citr_eqb. rewrite Bool.eqb_reflx, !Z.eqb_refl. reflexivity. Qed.
Lemma eqb_rbegin : citr_eqb (c_rbegin c m) (c_rbegin c m) = true.
Proof. unfold citr_eqb. rewrite Bool.eqb_reflx, !Z.eqb_refl. reflexivity. Qed.

Lemma at_skipn u p a x b v k : L c = u ++ (p, a ++ x :: b) :: v -> length (flat u ++ a) = k -> skipn k (flat (L c)) = x :: b ++ flat v /\ firstn k (flat (L c)) = flat u ++ a.
Proof.
  intros E El. rewrite E, flat_app, flat_cons, <- app_assoc, app_assoc. cbn [app]. rewrite skipn_app, firstn_app, El, Nat.sub_diag. subst k.
  rewrite skipn_all, firstn_all. cbn. rewrite app_nil_r. auto.
Qed.
Lemma visits_at n : forall k, (n + k = length (flat (L c)))%nat -> visits m c (itr_at m c k) (skipn k (flat (L c))).
Proof.
  induction n as [|n IH]; intros k Hk.
  - rewrite skipn_all2 by lia. rewrite itr_end by lia. cbn. apply eqb_end.
  - destruct (locate (L c) k) as (u & p & a & x & b & v & E & El); [lia|].
    destruct (at_skipn _ _ _ _ _ _ _ E El) as (Es & _). rewrite Es. destruct (loc_facts _ _ _ _ _ _ E) as (F1 & F2 & F3 & _).
    rewrite (itr_loc k _ _ _ _ _ _ E El). cbn [visits]. split; auto. split; auto. split; auto.
    rewrite <- (itr_loc k _ _ _ _ _ _ E El). change (c_next c m (itr_at m c k)) with (itr_at m c (S k)).
    replace (b ++ flat v) with (skipn (S k) (flat (L c))); [apply IH; lia|].
    eapply skipn_step; eauto.
Qed.
Lemma visits_begin : visits m c (c_begin c m) (flat (L c)).
Proof. apply (visits_at (length (flat (L c))) 0%nat). lia. Qed.

Lemma prev_in u p a y x b v : L c = u ++ (p, (a ++ [y]) ++ x :: b) :: v -> c_prev c m (mkI true p (zl (a ++ [y])) E_none) = mkI true p (zl a) E_none.
Proof.
  intro E. destruct (page_bnd _ _ _ _ _ _ _ _ Wm Hc E). unfold c_prev. cbn [i_item i_edge i_page edge_eqb]. rewrite andb_false_r. destruct (Z.eqb_spec p page_nil); [lia|].
  rewrite zl_app. change (zl [y]) with 1. pose proof (zl_pos a). destruct (Z.ltb_spec 0 (zl a + 1)); [|lia]. f_equal. lia.
Qed.
Lemma prev_out u q i y p j v : L c = u ++ (q, i ++ [y]) :: (p, j) :: v -> c_prev c m (mkI true p 0 E_none) = mkI true q (zl i) E_none.
Proof.
  intro E. assert (E2 : L c = (u ++ [(q, i ++ [y])]) ++ (p, j) :: v) by (rewrite <- pair_app; exact E).
  destruct (page_bnd _ _ _ _ _ _ _ _ Wm Hc E). destruct (page_bnd _ _ _ _ _ _ _ _ Wm Hc E2).
  destruct (page_items _ _ _ _ _ _ _ _ Wm Hc E) as (Ic & _). fold (zl (i ++ [y])) in Ic. rewrite zl_app in Ic. change (zl [y]) with 1 in Ic.
  destruct (page_good _ _ _ _ E) as (_ & Hl). rewrite zl_app in Hl. change (zl [y]) with 1 in Hl. pose proof (zl_pos i).
  pose proof (page_links _ _ _ _ _ _ _ _ Wm Hc E2) as (Ep & _). rewrite last_pgs in Ep.
  unfold c_prev. cbn [i_item i_edge i_page edge_eqb]. rewrite andb_false_r. destruct (Z.eqb_spec p page_nil); [lia|]. cbn. rewrite Ep. destruct (Z.eqb_spec q page_nil); [lia|].
  rewrite Ic, small_u16 by lia. f_equal. lia.
Qed.
Lemma prev_first p x b v : L c = (p, x :: b) :: v -> c_prev c m (mkI true p 0 E_none) = c_rbegin c m.
Proof.
  intro E. destruct (page_bnd m L X c [] p (x :: b) v Wm Hc E). pose proof (page_links m L X c [] p (x :: b) v Wm Hc E) as (Ep & _). cbn [pgs map last] in Ep.
  unfold c_prev. cbn [i_item i_edge i_page edge_eqb]. rewrite andb_false_r. destruct (Z.eqb_spec p page_nil); [lia|]. cbn. rewrite Ep, Z.eqb_refl. reflexivity.
Qed.
Lemma rend_at u p a x : L c = u ++ [(p, a ++ [x])] -> c_rend c m = mkI true p (zl a) E_none.
Proof.
  intro E. unfold c_rend. rewrite (W_states _ _ _ _ Wm Hc), E. cbn [back]. rewrite last_pgs. destruct (page_bnd _ _ _ _ _ _ _ _ Wm Hc E). destruct (Z.eqb_spec p page_nil); [lia|].
  destruct (page_items _ _ _ _ _ _ _ _ Wm Hc E) as (Ic & _). fold (zl (a ++ [x])) in Ic. rewrite zl_app in Ic. change (zl [x]) with 1 in Ic. destruct (page_good _ _ _ _ E) as (_ & Hl).
  rewrite zl_app in Hl. change (zl [x]) with 1 in Hl. pose proof (zl_pos a). rewrite Ic, small_u16 by lia. f_equal. lia.
Qed.
Lemma rend_empty : L c = [] -> c_rend c m = c_rbegin c m.
Proof. intro E. unfold c_rend. rewrite (W_states _ _ _ _ Wm Hc), E. cbn. rewrite Z.eqb_refl. reflexivity. Qed.
Lemma visits_back_at k : forall u p a x b v, L c = u ++ (p, a ++ x :: b) :: v -> length (flat u ++ a) = k ->
  visits_back m c (mkI true p (zl a) E_none) (rev (flat u ++ a ++ [x])).
Proof.
  induction k as [|k IH]; intros u p a x b v E Hk; rewrite app_assoc, rev_app_distr; cbn [rev app visits_back];
    destruct (loc_facts _ _ _ _ _ _ E) as (F1 & F2 & F3 & F4); (split; [auto|split; [auto|split; [auto|]]]).
  - rewrite app_length in Hk. assert (a = []) by (destruct a; auto; cbn in Hk; lia). subst a.
    assert (u = []). { destruct u as [|[q i] u]; auto. exfalso. destruct (page_good [] q i (u ++ (p, [] ++ x :: b) :: v)) as (Hn & _); [exact E|]. rewrite flat_cons, app_length in Hk. destruct i; [congruence|cbn in Hk; lia]. } subst u.
    change (zl (@nil A)) with 0. rewrite (prev_first p x b v E). cbn. apply eqb_rbegin.
  - destruct a as [|y a' _] using rev_ind.
    + destruct u as [|[q i] u' _] using rev_ind; [cbn in Hk; lia|].
      assert (E' : L c = u' ++ (q, i) :: (p, [] ++ x :: b) :: v) by (rewrite E, <- app_assoc; reflexivity).
      destruct (page_good _ _ _ _ E') as (Hn & _). destruct i as [|z i' _] using rev_ind; [congruence|].
      change (zl (@nil A)) with 0. rewrite (prev_out _ _ _ _ _ _ _ E').
      assert (EF : flat (u' ++ [(q, i' ++ [z])]) ++ [] = flat u' ++ i' ++ [z]) by (rewrite flat_app; cbn; rewrite !app_nil_r; reflexivity). rewrite EF in *.
      apply (IH _ _ _ _ _ _ E'). rewrite !app_length in *. cbn in Hk. lia.
    + assert (E' : L c = u ++ (p, a' ++ y :: x :: b) :: v) by (rewrite E, <- app_assoc; reflexivity).
      rewrite (prev_in _ _ _ _ _ _ _ E). apply (IH _ _ _ _ _ _ E'). rewrite !app_length in *. cbn in Hk. lia.
Qed.
Lemma visits_rend : visits_back m c (c_rend c m) (rev (flat (L c))).
Proof.
  destruct (ends_case (L c)) as [E|(u & [p i] & E)]; [rewrite rend_empty, E by auto; cbn; apply eqb_rbegin|].
  destruct (page_good _ _ _ _ E) as (Hn & _). destruct i as [|x a _] using rev_ind; [congruence|].
  rewrite (rend_at _ _ _ _ E). assert (EF : flat (u ++ [(p, a ++ [x])]) = flat u ++ a ++ [x]) by (rewrite flat_app; cbn; rewrite app_nil_r; reflexivity). rewrite E, EF.
  eapply visits_back_at; [exact E|reflexivity].
Qed.
Lemma front_ok : c_front c m = hd_error (flat (L c)).
Proof.
  pose proof visits_begin as V. unfold c_front. destruct (flat (L c)) as [|x l] eqn:EF; cbn in V.
  - assert (L c = []) as E. { destruct (L c) as [|[p i] v] eqn:E in |- *; auto. exfalso. destruct (page_good [] p i v E) as (Hn & _). rewrite E, flat_cons in EF. apply app_eq_nil in EF. tauto. }
    rewrite begin_empty by auto. unfold c_end, c_deref. cbn. rewrite orb_true_r. reflexivity.
  - apply V.
Qed.
Lemma back_ok : c_back c m = last_item (flat (L c)).
Proof.
  pose proof visits_rend as V. unfold c_back, last_item. destruct (rev (flat (L c))) as [|x l] eqn:EF; cbn in V.
  - apply (f_equal (@rev A)) in EF. rewrite rev_involutive in EF. cbn in EF. assert (L c = []) as E. { destruct (L c) as [|[p i] v] eqn:E in |- *; auto. exfalso. destruct (page_good [] p i v E) as (Hn & _). rewrite E, flat_cons in EF. apply app_eq_nil in EF. tauto. }
    rewrite rend_empty by auto. unfold c_rbegin, c_deref. cbn. rewrite orb_true_r. reflexivity.
  - apply V.
Qed.
Lemma empty_ok : c_empty c m = match flat (L c) with [] => true | _ => false end.
Proof.
  unfold c_empty. rewrite (l_empty_rep m c (pgs (L c))); [|intros x Hx; eapply pgs_bnd; eauto|apply (w_rep _ _ _ Wm); auto].
  destruct (L c) as [|[p i] v] eqn:E in |- *; auto. destruct (page_good [] p i v E) as (Hn & _). rewrite flat_cons. destruct i; [congruence|reflexivity].
Qed.

(** The iterator between [l] and [r] is the one [length l] steps behind begin(). *)
Lemma between_itr i l r : between m L c i l r -> i = itr_at m c (length l) /\ l ++ r = flat (L c).
Proof.
  intros [(-> & -> & ->)|(u & p & a & y & b & v & E & -> & -> & ->)].
  - rewrite itr_end by lia. rewrite app_nil_r. auto.
  - rewrite (itr_loc _ _ _ _ _ _ _ E eq_refl). rewrite E, flat_app, flat_cons, <- !app_assoc. auto.
Qed.
Lemma itr_between k : between m L c (itr_at m c k) (firstn k (flat (L c))) (skipn k (flat (L c))).
Proof.
  destruct (Nat.ltb_spec k (length (flat (L c)))) as [H|H].
  - destruct (locate (L c) k H) as (u & p & a & x & b & v & E & El). right. exists u, p, a, x, b, v. split; auto.
    rewrite (itr_loc _ _ _ _ _ _ _ E El). destruct (at_skipn _ _ _ _ _ _ _ E El) as (-> & ->). auto.
  - left. rewrite itr_end by auto. rewrite firstn_all2, skipn_all2 by lia. auto.
Qed.
End Iter.

(** * Histories *)
Definition type_ok (t : ctype) (o : bool) : Prop := 1 <= t_cap t <= 4069 /\ (o = true -> flags_ok t).
(** The pool and its containers after a history. *)
Record Inv {A} (ts : Z -> ctype) (m : mem A) (L : layout A) : Prop := mkInv {
  n_W : W m L [];
  n_good : forall c, c <> 0 -> good (t_cap (ts c)) (L c);
  n_cap : forall c, c <> 0 -> 1 <= t_cap (ts c) <= 4069;
  n_tot : forall c, c <> 0 -> tots m c = zl (flat (L c));
  n_room : room m <= 2 ^ 51 }.

(** iterators are equal iff they stand at the same position *)
Lemma page_once {A} (u u' : list (Z * list A)) p i i' v v' : NoDup (pgs (u ++ (p, i) :: v)) -> u ++ (p, i) :: v = u' ++ (p, i') :: v' -> u = u'.
Proof.
  revert u'. induction u as [|e u IH]; intros [|e' u'] ND E; auto; cbn in E.
  - injection E as <- E. exfalso. cbn in ND. inversion ND as [|? ? N _]. apply N. rewrite E. unfold pgs. rewrite map_app. apply in_or_app. right; left; reflexivity.
  - injection E as -> E. exfalso. cbn in ND. inversion ND as [|? ? N _]. apply N. change (map fst (u ++ (p, i) :: v)) with (pgs (u ++ (p, i) :: v)). rewrite pgs_app. apply in_or_app; right; left; reflexivity.
  - injection E as -> E. f_equal. apply IH; auto. cbn in ND. inversion ND; auto.
Qed.
Lemma itr_eqb_pos {A} (m : mem A) L X c cap : W m L X -> c <> 0 -> good cap (L c) -> cap <= 65534 -> forall j k,
  (j <= length (flat (L c)))%nat -> (k <= length (flat (L c)))%nat -> citr_eqb (itr_at m c j) (itr_at m c k) = (j =? k)%nat.
Proof.
  intros Wm Hc Hg Hcap j k Hj Hk. destruct (Nat.eqb_spec j k) as [->|N].
  { unfold citr_eqb. rewrite !Z.eqb_refl, eqb_reflx. destruct (i_edge _); reflexivity. }
  assert (S : forall j k, (j < length (flat (L c)))%nat -> (k = length (flat (L c)))%nat -> i_edge (itr_at m c j) = E_none /\ i_edge (itr_at m c k) = E_end).
  { intros a b Ha Hb. rewrite (itr_end m L X c cap Wm Hc Hg Hcap b) by lia. destruct (locate (L c) a Ha) as (u & p & l & x & r & v & EL & El).
    rewrite (itr_loc m L X c cap Wm Hc Hg Hcap a _ _ _ _ _ _ EL El). auto. }
  destruct (Nat.eq_dec j (length (flat (L c)))) as [Ej|Nj].
  { destruct (S k j) as (E1 & E2); [lia|auto|]. unfold citr_eqb. rewrite E1, E2. apply andb_false_r. }
  destruct (Nat.eq_dec k (length (flat (L c)))) as [Ek|Nk].
  { destruct (S j k) as (E1 & E2); [lia|auto|]. unfold citr_eqb. rewrite E1, E2. apply andb_false_r. }
  destruct (locate (L c) j ltac:(lia)) as (u & p & l & x & r & v & EL & El).
  destruct (locate (L c) k ltac:(lia)) as (u' & p' & l' & x' & r' & v' & EL' & El').
  rewrite (itr_loc m L X c cap Wm Hc Hg Hcap j _ _ _ _ _ _ EL El), (itr_loc m L X c cap Wm Hc Hg Hcap k _ _ _ _ _ _ EL' El').
  unfold citr_eqb. cbn [i_ok i_page i_item i_edge]. destruct (Z.eqb_spec p p') as [->|]; [|reflexivity]. destruct (Z.eqb_spec (zl l) (zl l')) as [E|]; [|reflexivity]. exfalso.
  assert (u = u'). { eapply page_once; [|rewrite <- EL; exact EL']. rewrite <- EL. apply (w_nd _ _ _ Wm); auto. }
  subst u'. rewrite app_length in El, El'. unfold zl in E. lia.
Qed.
Lemma itr_eqb_rbegin {A} (m : mem A) L X c cap : W m L X -> c <> 0 -> good cap (L c) -> cap <= 65534 -> forall k,
  (k <= length (flat (L c)))%nat -> citr_eqb (itr_at m c k) (c_rbegin c m) = false.
Proof.
  intros Wm Hc Hg Hcap k Hk. destruct (Nat.eq_dec k (length (flat (L c)))) as [Ek|Nk].
  - rewrite (itr_end m L X c cap Wm Hc Hg Hcap k) by lia. unfold citr_eqb. cbn. apply andb_false_r.
  - destruct (locate (L c) k ltac:(lia)) as (u & p & l & x & r & v & EL & El). rewrite (itr_loc m L X c cap Wm Hc Hg Hcap k _ _ _ _ _ _ EL El). unfold citr_eqb; cbn. apply andb_false_r.
Qed.

Lemma pigeon (l : list Z) n : NoDup l -> (forall p, In p l -> 0 <= p < n) -> zl l <= Z.max 0 n.
Proof.
  intros N H. assert (K : (length l <= length (map Z.of_nat (seq 0 (Z.to_nat n))))%nat).
  { apply NoDup_incl_length; auto. intros p Hp. apply H in Hp. apply in_map_iff. exists (Z.to_nat p). split; [lia|]. apply in_seq. lia. }
  rewrite map_length, seq_length in K. unfold zl. lia.
Qed.
Lemma flat_bound {A} cap (ps : list (Z * list A)) : good cap ps -> 0 <= cap -> zl (flat ps) <= zl (pgs ps) * cap.
Proof.
  intros G Hc. induction ps as [|[p i] ps IH]; [cbn; lia|]. apply good_cons in G. destruct G as (_ & Hl & G). specialize (IH G).
  rewrite flat_cons, zl_app. change (pgs ((p, i) :: ps)) with (p :: pgs ps). rewrite zl_cons. nia.
Qed.
Lemma W_small {A} t (m : mem A) L c : W m L [] -> c <> 0 -> good (t_cap t) (L c) -> 1 <= t_cap t <= 4069 -> room m <= 2 ^ 51 ->
  0 <= zl (flat (L c)) < 2 ^ 64.
Proof.
  intros Wm Hc G Hcap Hr. pose proof (flat_bound _ _ G) as B. pose proof (w_sz _ _ _ Wm) as S. pose proof (zl_pos (flat (L c))).
  assert (K : zl (pgs (L c)) <= Z.max 0 (fsize m)). { apply pigeon; [apply (w_nd _ _ _ Wm); auto|]. intros p Hp. pose proof (pgs_bnd _ _ _ _ _ Wm Hc Hp). lia. }
  pose proof (zl_pos (pgs (L c))). split; [lia|]. specialize (B ltac:(lia)). 
  assert (zl (pgs (L c)) * t_cap t <= 2 ^ 51 * 4069) by nia. lia.
Qed.

Lemma Inv_shows {A} ts (m : mem A) L c : Inv ts m L -> c <> 0 -> shows m c (flat (L c)).
Proof.
  intros [Wm G C T R] Hc. specialize (C c Hc). specialize (G c Hc).
  assert (t_cap (ts c) <= 65534) by lia.
  split; [apply T; auto|]. split; [eapply empty_ok; eauto|]. split; [eapply front_ok; eauto|]. split; [eapply back_ok; eauto|].
  split; [eapply visits_begin; eauto|eapply visits_rend; eauto].
Qed.

Lemma Inv_upd {A} ts (m m' : mem A) L c ps n : Inv ts m L -> c <> 0 -> W m' (upd L c ps) [] -> good (t_cap (ts c)) ps ->
  room m' = room m -> tots m' = upd (tots m) c (wrap_u64 n) -> n = zl (flat ps) -> Inv ts m' (upd L c ps).
Proof.
  intros [Wm G C T R] Hc W' G' Er Et En.
  assert (B : 0 <= zl (flat (upd L c ps c)) < 2 ^ 64). { eapply (W_small (ts c)); eauto; [rewrite upd_same; auto|lia]. } rewrite upd_same in B.
  constructor; auto; [| |lia].
  - intros d Hd. rewrite upd_eq. destruct (Z.eqb_spec d c); subst; auto.
  - intros d Hd. rewrite Et, !upd_eq. destruct (Z.eqb_spec d c); subst; auto. unfold wrap_u64. rewrite Z.mod_small; lia.
Qed.

(** One insertion. *)
Lemma ins_step {A} ts (m : mem A) L c i l r x : Inv ts m L -> c <> 0 -> between m L c i l r -> r = [] \/ flags_ok (ts c) ->
  exists m' r' L', c_insert (ts c) c m i x = COk (m', r') /\ Inv ts m' L' /\ fsize m' <= fsize m + 1 /\ room m' = room m /\
    (forall d, d <> c -> L' d = L d) /\
    ((can_deref (r_itr r') = false /\ r_itr r' = c_end c m' /\ flat (L' c) = l ++ r /\ fsize m' = room m) \/
     (can_deref (r_itr r') = true /\ flat (L' c) = l ++ x :: r /\ r_itr r' = itr_at m' c (length l))).
Proof.
  intros I Hc Hb Hf. pose proof I as [Wm G C T R]. pose proof (C c Hc) as Hcap.
  destruct (ins_W (ts c) m L c i l r x Wm Hc (G c Hc) ltac:(lia) Hb Hf) as (m' & r' & E & Er & Ez & SZ & K).
  destruct (between_itr m L [] c (t_cap (ts c)) Wm Hc (G c Hc) ltac:(lia) i l r Hb) as (_ & El).
  destruct K as [(Ei & W' & Ef & Et)|(ps & W' & P & Et)].
  - exists m', r', L. split; [exact E|]. split. { constructor; auto; [intros; rewrite Et; auto|lia]. } split; [lia|]. split; [auto|]. split; [auto|].
    left. rewrite Ei. split; [|auto]. unfold can_deref, c_end. cbn. rewrite !andb_false_r. reflexivity.
  - destruct P as (Gp & u & q & a & b & v & Eps & E1 & E2 & Eit).
    assert (EF : flat ps = l ++ x :: r). { rewrite Eps, flat_app, flat_cons, <- app_assoc, app_assoc. cbn [app]. rewrite E1, E2. reflexivity. }
    assert (I' : Inv ts m' (upd L c ps)).
    { eapply Inv_upd; eauto. rewrite T by auto. rewrite <- El, EF, !zl_app, zl_cons. lia. }
    exists m', r', (upd L c ps). split; [exact E|]. split; [auto|]. split; [lia|]. split; [auto|]. split; [intros d Hd; apply upd_other; auto|].
    right. rewrite upd_same. assert (EL' : upd L c ps c = u ++ (q, a ++ x :: b) :: v) by (rewrite upd_same; exact Eps).
    pose proof (n_good _ _ _ I' c Hc) as G'.
    split; [|split; [exact EF|]].
    + rewrite Eit. apply (loc_facts m' (upd L c ps) [] c (t_cap (ts c)) W' Hc G' ltac:(lia) _ _ _ _ _ _ EL').
    + rewrite Eit. symmetry. eapply (itr_loc m' (upd L c ps) [] c (t_cap (ts c))); eauto; [lia|]. rewrite E1. reflexivity.
Qed.

(** One erasure. *)
Lemma ers_step {A} ts (m : mem A) L c k : Inv ts m L -> c <> 0 -> (k < length (flat (L c)))%nat ->
  exists m' r' L', c_erase (ts c) c m (itr_at m c k) = COk (m', r') /\ Inv ts m' L' /\ fsize m' = fsize m /\ room m' = room m /\
    (forall d, d <> c -> L' d = L d) /\ flat (L' c) = erase_at k (flat (L c)) /\
    (lost (ts c) m (itr_at m c k) = false -> r_itr r' = itr_at m' c k) /\
    (lost (ts c) m (itr_at m c k) = true -> In (i_page (r_itr r')) (pgs (L c)) /\ ~ In (i_page (r_itr r')) (pgs (L' c))).
Proof.
  intros I Hc Hk. pose proof I as [Wm G C T R]. pose proof (C c Hc) as Hcap.
  destruct (locate (L c) k Hk) as (u & p & a & x & b & v & EL & Ek).
  rewrite (itr_loc m L [] c (t_cap (ts c)) Wm Hc (G c Hc) ltac:(lia) k _ _ _ _ _ _ EL Ek).
  destruct (ers_W (ts c) m L c u p a x b v Wm Hc (G c Hc) EL ltac:(lia)) as (m' & r' & ps & E & Er & Ez & SZ & W' & G' & EF & Et & K1 & K2).
  destruct (at_skipn _ _ _ _ _ _ _ _ _ EL Ek) as (Es & Ef).
  assert (EE : flat ps = erase_at k (flat (L c))). { unfold erase_at. rewrite Ef, (skipn_step _ _ _ _ Es), EF, <- !app_assoc. reflexivity. }
  assert (I' : Inv ts m' (upd L c ps)).
  { eapply Inv_upd; eauto. rewrite T by auto. rewrite EF, EL, flat_app, flat_cons, !zl_app, zl_cons. lia. }
  exists m', r', (upd L c ps). split; [exact E|]. split; [auto|]. split; [auto|]. split; [auto|]. split; [intros d Hd; apply upd_other; auto|].
  rewrite upd_same. split; [exact EE|]. split; [|exact K2].
  intro Lo. specialize (K1 Lo). pose proof (n_good _ _ _ I' c Hc) as Gc.
  destruct (between_itr m' (upd L c ps) [] c (t_cap (ts c)) W' Hc Gc ltac:(lia) _ _ _ K1) as (-> & _). rewrite Ek. reflexivity.
Qed.

Lemma last_itr {A} ts (m : mem A) L c : Inv ts m L -> c <> 0 -> flat (L c) <> [] -> c_rend c m = itr_at m c (length (flat (L c)) - 1).
Proof.
  intros [Wm G C T R] Hc Hn. pose proof (C c Hc). destruct (ends_case (L c)) as [E|(u & [p i] & E)]; [exfalso; apply Hn; rewrite E; reflexivity|].
  destruct (page_good L c (t_cap (ts c)) (G c Hc) _ _ _ _ E) as (Hi & _). destruct (ends_case i) as [->|(a & x & ->)]; [congruence|].
  rewrite (rend_at m L [] c (t_cap (ts c)) Wm Hc (G c Hc) ltac:(lia) _ _ _ _ E). symmetry. eapply (itr_loc m L [] c (t_cap (ts c))); eauto; [lia|].
  rewrite E, flat_app, flat_cons, !app_length. cbn. lia.
Qed.
Lemma erase_last {A} (l : list A) : erase_at (length l - 1) l = removelast l.
Proof.
  destruct (ends_case l) as [->|(u & x & ->)]; [reflexivity|]. rewrite removelast_last, app_length. cbn [length]. replace (length u + 1 - 1)%nat with (length u) by lia.
  unfold erase_at. rewrite skipn_all2 by (rewrite app_length; cbn; lia). rewrite firstn_app, firstn_all, Nat.sub_diag. cbn. rewrite !app_nil_r. reflexivity.
Qed.

(** Which operations a container of type [t] supports. *)
Definition permitted {A} (t : ctype) (o : op A) : Prop :=
  match o with PushFront _ | Insert _ _ => flags_ok t | _ => True end.

Lemma deref_end {A} (m : mem A) c : can_deref (c_end c m) = false.
Proof. unfold can_deref, c_end. cbn. rewrite !andb_false_r. reflexivity. Qed.

Lemma call_step {A} ts (m : mem A) L c o : Inv ts m L -> c <> 0 -> permitted (ts c) o ->
  exists m' out L' l', call (ts c) c m o = Some (m', out) /\ Inv ts m' L' /\ ideal (flat (L c)) o out = Some l' /\ flat (L' c) = l' /\
    (forall d, d <> c -> L' d = L d) /\ fsize m' <= fsize m + 1 /\ room m' = room m /\ (out = Full -> fsize m' = room m).
Proof.
  intros I Hc Hp. pose proof I as [Wm G C T R]. pose proof (C c Hc) as Hcap.
  assert (BT : forall k, between m L c (itr_at m c k) (firstn k (flat (L c))) (skipn k (flat (L c)))).
  { intro k. eapply (itr_between m L [] c (t_cap (ts c))); eauto; lia. }
  assert (INS : forall i l r x, between m L c i l r -> r = [] \/ flags_ok (ts c) -> l ++ r = flat (L c) ->
     exists m' out L', observe m (c_insert (ts c) c m i x) true = Some (m', out) /\ Inv ts m' L' /\
      (forall d, d <> c -> L' d = L d) /\ fsize m' <= fsize m + 1 /\ room m' = room m /\
      ((out = Full /\ fsize m' = room m /\ flat (L' c) = flat (L c)) \/ (out = Done /\ flat (L' c) = l ++ x :: r))).
  { intros i l r x Hb Hf El. destruct (ins_step ts m L c i l r x I Hc Hb Hf) as (m' & r' & L' & E & I' & S & Rm & O & K).
    rewrite E. cbn [observe]. eexists m', _, L'. split; [reflexivity|]. split; [auto|]. split; [auto|]. split; [auto|]. split; [auto|].
    destruct K as [(D & _ & F & Z)|(D & F & _)]; rewrite D; cbn; [left|right]; auto. split; auto. split; auto. congruence. }
  assert (ERS : forall k, (k < length (flat (L c)))%nat ->
     exists m' L', observe m (c_erase (ts c) c m (itr_at m c k)) false = Some (m', Done) /\ Inv ts m' L' /\
      (forall d, d <> c -> L' d = L d) /\ fsize m' <= fsize m + 1 /\ room m' = room m /\ flat (L' c) = erase_at k (flat (L c))).
  { intros k Hk. destruct (ers_step ts m L c k I Hc Hk) as (m' & r' & L' & E & I' & S & Rm & O & F & _).
    rewrite E. cbn. exists m', L'. repeat (split; [auto; try lia; fail|]). auto. }
  assert (THR : forall i, can_deref i = false -> observe m (c_erase (ts c) c m i) false = Some (m, Threw)).
  { intros i Hi. unfold c_erase. rewrite Hi. reflexivity. }
  assert (ST : exists L' : layout A, Inv ts m L' /\ flat (L' c) = flat (L c) /\ (forall d, d <> c -> L' d = L d) /\ fsize m <= fsize m + 1 /\ room m = room m).
  { exists L. split; auto. split; auto. split; auto. split; auto. lia. }
  destruct o as [x|x|k x| | |k]; cbn [call].
  - destruct (INS (c_end c m) (flat (L c)) [] x) as (m' & out & L' & E & I' & O & S & Rm & K); [|left; auto|apply app_nil_r|].
    { left. auto. }
    unfold c_push_back. rewrite E. destruct K as [(-> & Z & F)|(-> & F)]; [exists m', Full, L', (flat (L c))|exists m', Done, L', (flat (L c) ++ [x])];
      repeat (split; [auto; fail|]); auto; discriminate.
  - cbn [permitted] in Hp. destruct (INS (c_begin c m) [] (flat (L c)) x) as (m' & out & L' & E & I' & O & S & Rm & K); [exact (BT 0%nat)|right; auto|auto|].
    unfold c_push_front. rewrite E. destruct K as [(-> & Z & F)|(-> & F)]; [exists m', Full, L', (flat (L c))|exists m', Done, L', (x :: flat (L c))];
      repeat (split; [auto; fail|]); auto; discriminate.
  - cbn [permitted] in Hp. destruct (INS (itr_at m c k) _ _ x (BT k)) as (m' & out & L' & E & I' & O & S & Rm & K); [right; auto|apply firstn_skipn|].
    rewrite E. destruct K as [(-> & Z & F)|(-> & F)]; [exists m', Full, L', (flat (L c))|exists m', Done, L', (insert_at k x (flat (L c)))];
      repeat (split; [auto; fail|]); auto; discriminate.
  - unfold c_pop_back. destruct (flat (L c)) as [|y l] eqn:EF in |- *.
    + destruct (ends_case (L c)) as [EL|(u & [p i] & EL)].
      2:{ exfalso. destruct (page_good L c (t_cap (ts c)) (G c Hc) _ _ _ _ EL) as (Hi & _). rewrite EL, flat_app, flat_cons in EF. apply app_eq_nil in EF. destruct EF as (_ & EF). apply app_eq_nil in EF. tauto. }
      rewrite THR. 2:{ rewrite (rend_empty m L [] c Wm Hc EL). unfold can_deref, c_rbegin. cbn. rewrite !andb_false_r. reflexivity. }
      destruct ST as (L' & I' & F & O & S & Rm). exists m, Threw, L', []. rewrite F, EF. repeat (split; [auto; fail|]); auto; discriminate.
    + assert (Hn : flat (L c) <> []) by congruence. rewrite (last_itr _ _ _ _ I Hc Hn). destruct (ERS (length (flat (L c)) - 1)%nat) as (m' & L' & E & I' & O & S & Rm & F).
      { rewrite EF. cbn. lia. }
      rewrite E. exists m', Done, L', (removelast (y :: l)). rewrite F, erase_last, EF. repeat (split; [auto; fail|]); auto; discriminate.
  - unfold c_pop_front. destruct (flat (L c)) as [|y l] eqn:EF in |- *.
    + assert (EL : itr_at m c 0 = c_end c m). { eapply (itr_end m L [] c (t_cap (ts c))); eauto; [lia|]. rewrite EF. cbn. lia. }
      change (c_begin c m) with (itr_at m c 0). rewrite EL, THR by apply deref_end.
      destruct ST as (L' & I' & F & O & S & Rm). exists m, Threw, L', []. rewrite F, EF. repeat (split; [auto; fail|]); auto; discriminate.
    + change (c_begin c m) with (itr_at m c 0). destruct (ERS 0%nat) as (m' & L' & E & I' & O & S & Rm & F).
      { rewrite EF. cbn. lia. }
      rewrite E. exists m', Done, L', l. rewrite F, EF. repeat (split; [auto; fail|]); auto; discriminate.
  - destruct (Nat.ltb_spec k (length (flat (L c)))) as [Hk|Hk].
    + destruct (ERS k Hk) as (m' & L' & E & I' & O & S & Rm & F). rewrite E. exists m', Done, L', (erase_at k (flat (L c))). cbn [ideal].
      destruct (Nat.ltb_spec k (length (flat (L c)))); [|lia]. repeat (split; [auto; fail|]); auto; discriminate.
    + assert (EL : itr_at m c k = c_end c m) by (eapply (itr_end m L [] c (t_cap (ts c))); eauto; lia).
      rewrite EL, THR by apply deref_end. destruct ST as (L' & I' & F & O & S & Rm). exists m, Threw, L', (flat (L c)). cbn [ideal].
      destruct (Nat.ltb_spec k (length (flat (L c)))); [lia|]. repeat (split; [auto; fail|]); auto; discriminate.
Qed.

Lemma ideals_ext {A} (h : list (Z * op A)) : forall s s' outs r, (forall c, In c (map fst h) -> s c = s' c) -> ideals s h outs = Some r ->
  exists r', ideals s' h outs = Some r' /\ (forall c, s c = s' c -> r c = r' c).
Proof.
  induction h as [|[c o] h IH]; intros s s' outs r Hs E; destruct outs as [|out outs]; cbn in E |- *; try discriminate.
  - injection E as <-. exists s'. auto.
  - rewrite <- (Hs c) by (cbn; auto). destruct (ideal (s c) o out) as [l|]; [|discriminate].
    destruct (IH (upd s c l) (upd s' c l) outs r) as (r' & E' & K); auto.
    { intros d Hd. rewrite !upd_eq. destruct (d =? c); auto. apply Hs. cbn. auto. }
    exists r'. split; auto. intros d Hd. apply K. rewrite !upd_eq. destruct (d =? c); auto.
Qed.

Lemma runs_gen {A} ts (h : list (Z * op A)) : forall m L s, Inv ts m L -> (forall c, c <> 0 -> s c = flat (L c)) ->
  Forall (fun e => fst e <> 0 /\ permitted (ts (fst e)) (snd e)) h ->
  exists m' outs s' L', calls ts m h = Some (m', outs) /\ ideals s h outs = Some s' /\ Inv ts m' L' /\ (forall c, c <> 0 -> s' c = flat (L' c)) /\
    room m' = room m /\ (fsize m + zl h < room m -> ~ In Full outs).
Proof.
  induction h as [|[c o] h IH]; intros m L s I Hs Hh.
  - exists m, [], s, L. cbn. repeat (split; [auto; fail|]). auto.
  - inversion Hh as [|? ? [Hc Hp] Hh']; subst. cbn [fst snd] in Hc, Hp.
    destruct (call_step ts m L c o I Hc Hp) as (m1 & out & L1 & l1 & E1 & I1 & Id & F1 & O1 & S1 & R1 & Fu).
    destruct (IH m1 L1 (upd s c l1) I1) as (m' & outs & s' & L' & E & Ids & I' & Hs' & R' & Nf); auto.
    { intros d Hd. rewrite upd_eq. destruct (Z.eqb_spec d c); [subst; auto|]. rewrite O1 by auto. auto. }
    exists m', (out :: outs), s', L'. cbn [calls ideals]. rewrite E1, E, (Hs c Hc), Id, Ids. repeat (split; [auto; fail|]).
    split; [congruence|]. rewrite zl_cons. intros Hf [Hi|Hi]; [specialize (Fu Hi); pose proof (zl_pos h); lia|]. apply Nf; auto. rewrite R1. lia.
Qed.

Lemma start_Inv {A} ts (zero : A) rm : 2 <= rm <= 2 ^ 51 -> (forall c, c <> 0 -> 1 <= t_cap (ts c) <= 4069) -> Inv ts (cont_mem zero rm) (fun _ => []).
Proof.
  intros Hr Hc. assert (Wm : W (cont_mem zero rm) (fun _ => []) []).
  { constructor.
    - intros c _. unfold rep. cbn. auto.
    - intros c p i _ [].
    - intros. constructor.
    - intros c d p _ _ _ [].
    - intros p [[]|(c & _ & [])].
    - constructor.
    - intros p c [].
    - left. reflexivity.
    - cbn. split; [lia|]. Local Transparent page_nil. unfold page_nil. lia. }
  constructor; auto.
  - intros. constructor.
  - cbn. lia.
Qed.

(** * Types *)
Lemma cap_ok size : 1 <= size <= 4069 -> 1 <= page_capacity size <= 4069 /\ page_capacity size * size + 27 <= 4096.
Proof.
  intro H. unfold page_capacity. change (4096 - 27) with 4069. split; [split|].
  - apply Z.div_le_lower_bound; lia.
  - apply Z.div_le_upper_bound; lia.
  - pose proof (Z.mul_div_le 4069 size). lia.
Qed.
Lemma cap_two size : 1 <= size <= 2034 -> 2 <= page_capacity size.
Proof. intro H. unfold page_capacity. apply Z.div_le_lower_bound; lia. Qed.
Lemma list_flags size : 1 <= size <= 2034 -> flags_ok (list_of size).
Proof. intro H. split; [apply cap_two; auto|]. split; reflexivity. Qed.
Lemma supported_ok {A} t size (o : op A) : supported t size o -> 1 <= t_cap t <= 4069 /\ t_cap t * size + 27 <= 4096 /\ permitted t o.
Proof.
  intros [(-> & H)|([-> | ->] & H & Ho)]; (destruct (cap_ok size) as (C1 & C2); [lia|]); cbn [t_cap list_of stack_of list_type stack_type]; (split; [auto|split; [auto|]]).
  - destruct o; cbn; auto using list_flags.
  - destruct o; cbn in *; auto; contradiction.
  - destruct o; cbn in *; auto; contradiction.
Qed.

(** * The returned iterator of a lost page *)
Lemma lost_itr {A} ts (m : mem A) L c i k : Inv ts m L -> c <> 0 -> i_page i <> page_nil -> ~ In (i_page i) (pgs (L c)) -> i <> itr_at m c k.
Proof.
  intros [Wm G C T R] Hc Hn Hi E. subst i. destruct (Nat.ltb_spec k (length (flat (L c)))) as [Hk|Hk].
  - destruct (locate (L c) k Hk) as (u & p & a & x & b & v & EL & Ek).
    rewrite (itr_loc m L [] c (t_cap (ts c)) Wm Hc (G c Hc) ltac:(specialize (C c Hc); lia) k _ _ _ _ _ _ EL Ek) in Hi. cbn [i_page] in Hi. apply Hi. rewrite EL. unfold pgs. rewrite map_app. apply in_or_app. right. left. reflexivity.
  - rewrite (itr_end m L [] c (t_cap (ts c)) Wm Hc (G c Hc) ltac:(specialize (C c Hc); lia) k Hk) in Hi, Hn. cbn [i_page c_end] in Hi, Hn. rewrite (W_states _ _ _ _ Wm Hc) in Hi, Hn. cbn [back] in *.
    destruct (ends_case (L c)) as [E|(u & [p j] & E)]; rewrite E in Hi, Hn; [apply Hn; reflexivity|]. apply Hi. rewrite last_pgs. unfold pgs. rewrite map_app. apply in_or_app. right. left. reflexivity.
Qed.

Lemma ideals_lifos {A} c (h : list (Z * op A)) : forall s outs s', ideals s h outs = Some s' ->
  Forall (fun e => fst e = c -> match snd e with PushBack _ | PopBack => True | _ => False end) h ->
  lifos (rev (s c)) (on c h outs) = Some (rev (s' c)).
Proof.
  induction h as [|[d o] h IH]; intros s outs s' E Hh; destruct outs as [|out outs]; cbn in E; try discriminate.
  - injection E as <-. reflexivity.
  - destruct (ideal (s d) o out) as [l|] eqn:Ei; [|discriminate]. inversion Hh as [|? ? H1 H2]; subst. specialize (IH _ _ _ E H2).
    unfold on. cbn [combine filter fst snd]. rewrite upd_eq in IH. rewrite Z.eqb_sym in IH. destruct (Z.eqb_spec d c) as [->|Hd]; [|exact IH].
    cbn [map fst snd lifos]. specialize (H1 eq_refl). cbn [snd] in H1. unfold on in IH.
    destruct o; try contradiction; destruct out; cbn in Ei; try discriminate.
    + injection Ei as <-. cbn [lifo]. rewrite rev_app_distr in IH. exact IH.
    + injection Ei as <-. exact IH.
    + destruct (s c) as [|y w] eqn:Es; [discriminate|]. injection Ei as <-. destruct (ends_case (y :: w)) as [Ee|(u & z & Ee)]; [discriminate|].
      change (match w with [] => [] | _ :: _ => y :: removelast w end) with (removelast (y :: w)) in IH. rewrite Ee in *. rewrite removelast_last in IH. rewrite rev_app_distr. cbn. exact IH.
    + destruct (s c) as [|y w] eqn:Es; [|discriminate]. injection Ei as <-. exact IH.
Qed.

(** The layout after a history of supported operations. *)
Lemma runs_start {A} (zero : A) rm ts size (h : list (Z * op A)) : 2 <= rm <= 2 ^ 51 ->
  (forall c, (ts c = list_of (size c) \/ ts c = stack_of (size c)) /\ 1 <= size c <= 4069) ->
  Forall (fun e => fst e <> 0 /\ supported (ts (fst e)) (size (fst e)) (snd e)) h ->
  exists m outs s L, calls ts (cont_mem zero rm) h = Some (m, outs) /\ ideals empties h outs = Some s /\ Inv ts m L /\ (forall c, c <> 0 -> s c = flat (L c)) /\
    room m = rm /\ (2 + zl h < rm -> ~ In Full outs).
Proof.
  intros Hr Ht Hh. assert (I0 : Inv ts (cont_mem zero rm) (fun _ => [])).
  { apply start_Inv; auto. intros c _. destruct (Ht c) as ([-> | ->] & Hs); apply cap_ok; auto. }
  destruct (runs_gen ts h (cont_mem zero rm) (fun _ => []) empties I0) as (m & outs & s & L & E & Ei & I & Hs & R & N); auto.
  { eapply Forall_impl; [|exact Hh]. intros [c o] (Hc & Hp). split; auto. eapply supported_ok; eauto. }
  exists m, outs, s, L. repeat (split; [auto; fail|]). exact N.
Qed.
