(** C33, C34: the histories of page handles. *)

From Coq Require Import ZArith List Bool Lia Permutation.
From Verif Require Import Base ListMem Cache_Model Cache_Spec Cache_Proofs.
Import ListNotations.
Open Scope Z_scope.

Definition cnt (pos : Z) (l : list (option handle)) : Z := zlen (filter (is_holder pos) l).
Definition b2z (b : bool) : Z := if b then 1 else 0.
Definition is_alive (v : option handle) : bool := match v with Some _ => true | None => false end.
Lemma count_app : forall A (f : A -> bool) a c, zlen (filter f (a ++ c)) = zlen (filter f a) + zlen (filter f c).
Proof. intros. rewrite filter_app, zlen_app. reflexivity. Qed.
Lemma count_mid : forall A (f : A -> bool) a x c, zlen (filter f (a ++ x :: c)) = zlen (filter f a) + zlen (filter f c) + b2z (f x).
Proof. intros. rewrite count_app. cbn [filter]. destruct (f x); rewrite ?zlen_cons; unfold b2z; lia. Qed.
Lemma split_err : forall A (l : list A) i x, nth_error l i = Some x -> exists a c, l = a ++ x :: c /\ length a = i.
Proof. intros A l i x E. apply nth_error_split in E. exact E. Qed.
Lemma cnt_set : forall A (f : A -> bool) l i x y, nth_error l i = Some x -> zlen (filter f (set_nth i y l)) = zlen (filter f l) - b2z (f x) + b2z (f y).
Proof. intros A f l i x y E. apply split_err in E. destruct E as (a & c & -> & <-). rewrite set_nth_app, !count_mid. lia. Qed.
Lemma cnt_alive : forall pos l, cnt pos l <= zlen (filter is_alive l).
Proof.
  intros pos l. unfold cnt. induction l as [|v l IH]; [cbn; lia|]. cbn [filter]. assert (is_holder pos v = true -> is_alive v = true) by (destruct v; [reflexivity|discriminate]).
  destruct (is_holder pos v); [rewrite H by reflexivity; rewrite !zlen_cons; lia|]. destruct (is_alive v); rewrite ?zlen_cons; lia.
Qed.
Lemma cnt_nonneg : forall pos l, 0 <= cnt pos l.
Proof. intros. unfold cnt. apply zlen_nonneg. Qed.
Lemma cnt_pos : forall pos l h, In (Some h) l -> h_ptr h <> 0 -> h_pos h = pos -> 0 < cnt pos l.
Proof.
  intros pos l h I P E. unfold cnt. apply in_split in I. destruct I as (a & c & ->). rewrite count_mid. pose proof (zlen_nonneg _ (filter (is_holder pos) a)). pose proof (zlen_nonneg _ (filter (is_holder pos) c)).
  cbn [is_holder]. rewrite (proj2 (Z.eqb_eq _ _) E), (proj2 (Z.eqb_neq _ _) P). cbn [negb andb b2z]. lia.
Qed.
Lemma cnt_ex : forall pos l, 0 < cnt pos l -> exists h, In (Some h) l /\ h_ptr h <> 0 /\ h_pos h = pos.
Proof.
  intros pos l H. unfold cnt in H. destruct (filter (is_holder pos) l) as [|v f] eqn:E; [cbn in H; lia|]. assert (In v (filter (is_holder pos) l)) as I by (rewrite E; left; reflexivity).
  apply filter_In in I. destruct I as (I & Hv). destruct v as [h|]; [|discriminate]. cbn [is_holder] in Hv. apply andb_prop in Hv. destruct Hv as (A & B). exists h. split; [exact I|].
  apply negb_true_iff, Z.eqb_neq in B. apply Z.eqb_eq in A. auto.
Qed.
Lemma set_nth_same : forall A (l : list A) i x, nth_error l i = Some x -> set_nth i x l = l.
Proof. intros A l i x E. apply split_err in E. destruct E as (a & c & -> & <-). apply set_nth_app. Qed.
Lemma nth_error_set : forall A (l : list A) i x y, nth_error l i = Some x -> nth_error (set_nth i y l) i = Some y.
Proof. intros A l i x y E. apply split_err in E. destruct E as (a & c & -> & <-). rewrite set_nth_app, nth_error_app2, Nat.sub_diag by lia. reflexivity. Qed.
Lemma set_set : forall A (l : list A) i x y, set_nth i y (set_nth i x l) = set_nth i y l.
Proof. induction l as [|z l IH]; intros [|i] x y; cbn [set_nth]; try reflexivity. now rewrite IH. Qed.
Lemma in_set : forall A (l : list A) i y v, In v (set_nth i y l) -> v = y \/ In v l.
Proof.
  induction l as [|z l IH]; intros i y v I; [destruct i; destruct I|]. destruct i as [|i]; cbn [set_nth In] in *; destruct I as [I|I]; subst; auto. destruct (IH _ _ _ I); auto.
Qed.

(** ** The invariant of a history *)
Definition good (p : pool) (h : handle) : Prop := h_ptr h <> 0 -> h_pool h = true /\ h_pos h <> page_nil /\ exists s, In s (mapped p) /\ s_pos s = h_pos h /\ s_ptr s = h_ptr h.
Record winv (max : nat) (p : pool) (vs : list (option handle)) : Prop := {
  wi_pool : pinv max p (fun q => cnt q vs);
  wi_good : forall h, In (Some h) vs -> good p h }.
Lemma good_kept : forall p p' h, good p h -> (forall s, In s (mapped p) -> s_pos s = h_pos h -> exists s', In s' (mapped p') /\ s_pos s' = s_pos s /\ s_ptr s' = s_ptr s) -> good p' h.
Proof. intros p p' h G K P. destruct (G P) as (A & B & s & I & E & F). split; [exact A|]. split; [exact B|]. destruct (K s I E) as (s' & I' & E' & F'). exists s'. split; [exact I'|]. split; congruence. Qed.
Lemma holder_no : forall q h, h_ptr h = 0 -> is_holder q (Some h) = false.
Proof. intros q h E. cbn [is_holder]. rewrite E, Z.eqb_refl. apply andb_false_r. Qed.

Lemma unlock_var : forall max p vs i h p' h', winv max p vs -> (forall q, cnt q vs < 2 ^ 32) -> nth_error vs i = Some (Some h) -> page_unlock p h = (p', h') ->
  winv max p' (set_nth i (Some h') vs) /\ h_ptr h' = 0 /\ h_pool h' = h_pool h /\ h_pos h' = h_pos h /\ kept_all p p' /\ (forall n, kinv p n -> kinv p' n).
Proof.
  intros max p vs i h p' h' [I G] B E U. unfold page_unlock in U. assert (In (Some h) vs) as Ih by (eapply nth_error_In; eauto).
  destruct (Z.eqb_spec (h_ptr h) 0) as [E0|E0].
  - rewrite andb_false_r in U. injection U as <- <-. rewrite (set_nth_same _ _ _ _ E). split; [constructor; assumption|]. repeat (split; [first [assumption|reflexivity]|]). split; [intros s Is; exists s; auto|auto].
  - destruct (G h Ih E0) as (A & Np & _). rewrite A, (proj2 (Z.eqb_neq _ _) Np) in U. cbn [negb andb] in U. injection U as <- <-.
    pose proof (cnt_pos (h_pos h) vs h Ih E0 eq_refl) as Cp. destruct (unlock_spec max p _ (h_pos h) I (conj Cp (B (h_pos h)))) as (I' & K & Kk).
    split; [|split; [reflexivity|split; [symmetry; assumption|split; [reflexivity|split; [exact K|exact Kk]]]]].
    constructor.
    + refine (pinv_ext _ _ _ _ _ I'). intros q. unfold bump, cnt. rewrite (cnt_set _ _ _ _ _ _ E). cbn [is_holder h_pos h_ptr]. rewrite (proj2 (Z.eqb_neq _ _) E0). cbn [Z.eqb negb]. rewrite andb_true_r, andb_false_r, (Z.eqb_sym q). destruct (h_pos h =? q); cbn [b2z]; lia.
    + intros x Ix. apply in_set in Ix. destruct Ix as [Ex|Ix].
      * injection Ex as ->. intros P. exfalso. apply P. reflexivity.
      * apply (good_kept p); [apply G, Ix|]. intros s Is _. exact (K s Is).
Qed.
Lemma lock_var : forall max p vs i v o p' h, (1 <= max)%nat -> winv max p vs -> (forall q, cnt q vs + 1 < 2 ^ 32) -> nth_error vs i = Some v -> (forall q, is_holder q v = false) -> (good p o) ->
  page_copy p o true = (p', h) ->
  winv max p' (set_nth i (Some h) vs) /\
  (forall s, In s (mapped p) -> 0 < cnt (s_pos s) (set_nth i (Some h) vs) -> exists s', In s' (mapped p') /\ s_pos s' = s_pos s /\ s_ptr s' = s_ptr s) /\
  (forall n, kinv p n -> n + 1 < 2 ^ 32 -> kinv p' (n + 1)) /\ good p' h.
Proof.
  intros max p vs i v o p' h Hm [I G] B E Ev Go C. unfold page_copy in C.
  destruct (h_pool o && negb (h_pos o =? page_nil)) eqn:Eo.
  - unfold page_lock in C. destruct (lock_page p (h_pos o) true) as (p1 & ptr) eqn:El. injection C as <- <-. apply andb_prop in Eo. destruct Eo as (Eo & Np). apply negb_true_iff, Z.eqb_neq in Np.
    destruct (lock_spec max p _ (h_pos o) p1 ptr Hm I B El) as (S1 & Sp & Ok & Fl & Kn & _).
    set (h := {| h_pool := h_pool o; h_pos := h_pos o; h_ptr := ptr |}).
    assert (forall q, cnt q (set_nth i (Some h) vs) = cnt q vs + (if (q =? h_pos o) && negb (ptr =? 0) then 1 else 0)) as Cq.
    { intros q. unfold cnt. rewrite (cnt_set _ _ _ _ _ _ E), Ev. cbn [is_holder h h_pos h_ptr b2z]. rewrite Z.eqb_sym. destruct ((q =? h_pos o) && negb (ptr =? 0)); cbn [b2z]; lia. }
    assert (forall s, In s (mapped p) -> 0 < cnt (s_pos s) (set_nth i (Some h) vs) -> exists s', In s' (mapped p1) /\ s_pos s' = s_pos s /\ s_ptr s' = s_ptr s) as Kp.
    { intros s Is Hs. rewrite Cq in Hs. destruct (Z.eqb_spec (s_pos s) (h_pos o)) as [Es|Es]; [exact (Sp s Is Es)|]. cbn [andb] in Hs. apply S1; [exact Is|lia]. }
    assert (forall x, In (Some x) vs -> good p1 x) as Gx.
    { intros x Ix. destruct (Z.eq_dec (h_ptr x) 0) as [X0|X0]; [intros P; contradiction|]. apply (good_kept p); [apply G, Ix|]. intros s Is Es. apply S1; [exact Is|]. rewrite Es. exact (cnt_pos _ _ x Ix X0 eq_refl). }
    destruct (Z.eq_dec ptr 0) as [Ez|Ez].
    + destruct (Fl Ez) as (I1 & H0 & _). assert (good p1 h) as Gh by (intros P; contradiction).
      split; [constructor|split; [exact Kp|split; [exact Kn|exact Gh]]].
      * refine (pinv_ext _ _ _ _ _ I1). intros q. rewrite Cq, Ez. cbn [Z.eqb negb]. rewrite andb_false_r. lia.
      * intros x Ix. apply in_set in Ix. destruct Ix as [Ex|Ix]; [injection Ex as ->; exact Gh|apply Gx, Ix].
    + destruct (Ok Ez) as (I1 & s & Is & Es & Et). assert (good p1 h) as Gh by (intros P; split; [exact Eo|split; [exact Np|exists s; auto]]).
      split; [constructor|split; [exact Kp|split; [exact Kn|exact Gh]]].
      * refine (pinv_ext _ _ _ _ _ I1). intros q. unfold bump. rewrite Cq, (proj2 (Z.eqb_neq _ _) Ez). cbn [negb]. rewrite andb_true_r. destruct (q =? h_pos o); lia.
      * intros x Ix. apply in_set in Ix. destruct Ix as [Ex|Ix]; [injection Ex as ->; exact Gh|apply Gx, Ix].
  - injection C as <- <-. assert (h_ptr o = 0) as O0.
    { destruct (Z.eq_dec (h_ptr o) 0) as [|Hn]; [assumption|exfalso]. destruct (Go Hn) as (A & Np & _). rewrite A, (proj2 (Z.eqb_neq _ _) Np) in Eo. discriminate. }
    assert (forall q, cnt q (set_nth i (Some o) vs) = cnt q vs) as Cq.
    { intros q. unfold cnt. rewrite (cnt_set _ _ _ _ _ _ E), Ev, holder_no by exact O0. lia. }
    split; [constructor|split; [|split; [|exact Go]]].
    + refine (pinv_ext _ _ _ _ _ I). intros q. rewrite Cq. reflexivity.
    + intros x Ix. apply in_set in Ix. destruct Ix as [Ex|Ix]; [injection Ex as ->; exact Go|apply G, Ix].
    + intros s Is _. exists s. auto.
    + intros n (Kk & Ks) _. split; [exact Kk|lia].
Qed.
(** A variable that holds nothing may be replaced by another one that holds nothing. *)
Lemma idle_var : forall max p vs i v v', winv max p vs -> nth_error vs i = Some v -> (forall q, is_holder q v = false) -> (match v' with Some h => h_ptr h = 0 | None => True end) -> winv max p (set_nth i v' vs).
Proof.
  intros max p vs i v v' [I G] E Ev Ev'. constructor.
  - refine (pinv_ext _ _ _ _ _ I). intros q. unfold cnt. rewrite (cnt_set _ _ _ _ _ _ E), Ev. destruct v' as [h|]; [rewrite holder_no by exact Ev'|]; cbn [is_holder b2z]; lia.
  - intros x Ix. apply in_set in Ix. destruct Ix as [Ex|Ix]; [|apply G, Ix]. subst v'. intros P. contradiction.
Qed.
Lemma add_idle : forall max p vs h, winv max p vs -> h_ptr h = 0 -> winv max p (vs ++ [Some h]).
Proof.
  intros max p vs h [I G] E. constructor.
  - refine (pinv_ext _ _ _ _ _ I). intros q. unfold cnt. rewrite count_app. cbn [filter]. rewrite holder_no by exact E. cbn. lia.
  - intros x Ix. apply in_app_or in Ix. destruct Ix as [Ix|[Ex|[]]]; [apply G, Ix|]. injection Ex as ->. intros P. contradiction.
Qed.
Lemma winv_perm : forall max p vs vs', Permutation vs vs' -> winv max p vs -> winv max p vs'.
Proof.
  intros max p vs vs' P [I G]. assert (forall q, cnt q vs = cnt q vs') as C.
  { intros q. unfold cnt. clear - P. induction P; cbn [filter]; try reflexivity; [|destruct (is_holder q y), (is_holder q x); rewrite ?zlen_cons; reflexivity|congruence]. destruct (is_holder q x); rewrite ?zlen_cons; congruence. }
  constructor; [exact (pinv_ext _ _ _ _ C I)|]. intros h Ih. apply G. eapply Permutation_in; [apply Permutation_sym, P|exact Ih].
Qed.
Lemma set_last : forall A (l : list A) x y, set_nth (length l) y (l ++ [x]) = l ++ [y].
Proof. intros. apply set_nth_app. Qed.
Lemma alive_set : forall (vs : list (option handle)) i h h', nth_error vs i = Some (Some h) -> zlen (filter is_alive (set_nth i (Some h') vs)) = zlen (filter is_alive vs).
Proof. intros. rewrite (cnt_set _ _ _ _ _ _ H). cbn [is_alive b2z]. lia. Qed.
(** Room for one more holder, where the variable [i] is idle. *)
Lemma room : forall (vs : list (option handle)) i v, nth_error vs i = Some v -> (forall q, is_holder q v = false) -> zlen (filter is_alive (set_nth i (Some no_handle) vs)) < 2 ^ 32 -> forall q, cnt q vs + 1 < 2 ^ 32.
Proof.
  intros vs i v E Ev H q. set (h := {| h_pool := true; h_pos := q; h_ptr := 1 |}). pose proof (cnt_alive q (set_nth i (Some h) vs)) as C. unfold cnt in C. rewrite (cnt_set _ _ _ _ _ _ E), Ev in C.
  cbn [is_holder h h_pos h_ptr] in C. rewrite Z.eqb_refl in C. cbn [Z.eqb negb andb b2z] in C. fold (cnt q vs) in C.
  assert (zlen (filter is_alive (set_nth i (Some h) vs)) = zlen (filter is_alive (set_nth i (Some no_handle) vs))) as Q by (rewrite !(cnt_set _ is_alive _ _ _ _ E); reflexivity). lia.
Qed.

(** One operation. *)
Definition kept_held (w w' : world) : Prop := forall s, In s (mapped (w_pool w)) -> 0 < holders w' (s_pos s) -> exists s', In s' (mapped (w_pool w')) /\ s_pos s' = s_pos s /\ s_ptr s' = s_ptr s.
Definition wok (max : nat) (w : world) : Prop := winv max (w_pool w) (w_vars w).
Lemma var_nth : forall w i h, var w i = Some h -> nth_error (w_vars w) i = Some (Some h).
Proof. intros w i h E. unfold var in E. destruct (nth_error (w_vars w) i) as [[x|]|]; try discriminate. injection E as ->. reflexivity. Qed.
Lemma page_new_copy : forall p pos ok, page_new p pos ok = page_copy p {| h_pool := true; h_pos := pos; h_ptr := 0 |} ok.
Proof. intros. unfold page_new, page_copy. cbn [h_pool h_pos andb]. destruct (pos =? page_nil); reflexivity. Qed.
Lemma step_ok : forall max w o w', (1 <= max)%nat -> wok max w -> mmap_works o -> alive w < 2 ^ 32 -> alive w' < 2 ^ 32 -> step w o = Some w' ->
  wok max w' /\ kept_held w w' /\ (forall n, kinv (w_pool w) n -> n + 1 < 2 ^ 32 -> kinv (w_pool w') (n + 1)).
Proof.
  intros max w o w' Hm W Mw Al Al' E. unfold wok in *. assert (forall q, cnt q (w_vars w) < 2 ^ 32) as B by (intros q; pose proof (cnt_alive q (w_vars w)); unfold alive in Al; fold is_alive in Al; lia).
  assert (forall p p' : pool, (forall n, kinv p n -> kinv p' n) -> forall n, kinv p n -> n + 1 < 2 ^ 32 -> kinv p' (n + 1)) as Kw.
  { intros p p' Kk n K _. destruct (Kk n K) as (a & b). split; [exact a|lia]. }
  assert (forall (o : handle) (h : handle) p, good (w_pool w) o -> page_copy (w_pool w) o true = (p, h) -> alive (add_var w p h) < 2 ^ 32 ->
    winv max p (w_vars w ++ [Some h]) /\ kept_held w (add_var w p h) /\ (forall n, kinv (w_pool w) n -> n + 1 < 2 ^ 32 -> kinv p (n + 1))) as Add.
  { intros o0 h p Go Ec Ha. assert (nth_error (w_vars w ++ [Some no_handle]) (length (w_vars w)) = Some (Some no_handle)) as En by (rewrite nth_error_app2, Nat.sub_diag by lia; reflexivity).
    destruct (lock_var max (w_pool w) (w_vars w ++ [Some no_handle]) (length (w_vars w)) (Some no_handle) o0 p h Hm) as (W1 & K1 & Kn & _).
    - apply add_idle; [exact W|reflexivity].
    - apply (room _ _ _ En); [intros; apply holder_no; reflexivity|]. rewrite set_last. unfold alive, add_var in Ha. cbn [w_vars] in Ha. fold is_alive in Ha. rewrite count_app in *. exact Ha.
    - exact En.
    - intros; apply holder_no; reflexivity.
    - exact Go.
    - exact Ec.
    - rewrite set_last in *. split; [exact W1|]. split; [intros s Is Hs; exact (K1 s Is Hs)|exact Kn]. }
  assert (forall h, In (Some h) (w_vars w) -> good (w_pool w) h) as G by (intros; apply (wi_good _ _ _ W); assumption).
  destruct o as [pos ok|i ok|i|i j ok|i j ok|i|i]; cbn [step mmap_works] in *.
  - subst ok. rewrite page_new_copy in E. destruct (page_copy _ _ _) as (p & h) eqn:Ec. injection E as <-. eapply Add; [|exact Ec|exact Al']. intros P. exfalso. apply P. reflexivity.
  - subst ok. destruct (var w i) as [h0|] eqn:Ev; [|discriminate]. destruct (page_copy _ _ _) as (p & h) eqn:Ec. injection E as <-. apply var_nth, nth_error_In in Ev. apply (Add _ _ _ (G _ Ev) Ec Al').
  - destruct (var w i) as [h|] eqn:Ev; [|discriminate]. cbn [page_move] in E. injection E as <-. apply var_nth in Ev.
    assert (Permutation (w_vars w ++ [Some no_handle]) (set_nth i (Some no_handle) (w_vars w) ++ [Some h])) as Pm.
    { apply split_err in Ev. destruct Ev as (a & c & -> & <-). rewrite set_nth_app, <- !app_assoc. apply Permutation_app_head. cbn [app].
      apply perm_trans with (Some h :: Some no_handle :: c); [apply perm_skip, Permutation_sym, Permutation_cons_append|]. apply perm_trans with (Some no_handle :: Some h :: c); [apply perm_swap|]. apply perm_skip, Permutation_cons_append. }
    split; [|split].
    + cbn [add_var set_var w_pool w_vars]. eapply winv_perm; [exact Pm|]. apply add_idle; [exact W|reflexivity].
    + intros s Is _. exists s. auto.
    + apply Kw. auto.
  - destruct (var w i) as [h|] eqn:Ev; [|discriminate]. destruct (var w j) as [h2|] eqn:Evj; [|discriminate]. subst ok.
    destruct (page_unlock (w_pool w) h) as (p1 & h1) eqn:Eu. apply var_nth in Ev. destruct (unlock_var max _ _ i h p1 h1 W B Ev Eu) as (W1 & Z1 & _ & _ & K1 & Kn1).
    set (w1 := set_var w p1 i (Some h1)) in *. destruct (var w1 j) as [o|] eqn:Eo; [|discriminate]. destruct (page_copy (w_pool w1) o true) as (p2 & h') eqn:Ec. injection E as <-.
    pose proof (nth_error_set _ _ _ _ (Some h1) Ev) as Ev1. assert (good p1 o) as Go by (apply (wi_good _ _ _ W1); apply var_nth, nth_error_In in Eo; exact Eo).
    destruct (lock_var max p1 (w_vars w1) i (Some h1) o p2 h' Hm W1) as (W2 & K2 & Kn2 & _); [|exact Ev1|intros; apply holder_no; exact Z1|exact Go|exact Ec|].
    { apply (room _ _ _ Ev1); [intros; apply holder_no; exact Z1|]. cbn [w1 set_var w_vars]. rewrite (alive_set _ _ _ _ Ev1), (alive_set _ _ _ _ Ev). exact Al. }
    split; [exact W2|split].
    + intros s Is Hs. destruct (K1 s Is) as (s1 & I1 & E1 & F1). destruct (K2 s1 I1) as (s2 & I2 & E2 & F2); [rewrite E1; exact Hs|]. exists s2. split; [exact I2|]. split; congruence.
    + intros n K Hn. apply Kn2; [apply Kn1, K|exact Hn].
  - destruct (var w i) as [h|] eqn:Ev; [|discriminate]. destruct (var w j) as [h2|] eqn:Evj; [|discriminate]. subst ok.
    destruct (page_unlock (w_pool w) h) as (p1 & h1) eqn:Eu. apply var_nth in Ev. destruct (unlock_var max _ _ i h p1 h1 W B Ev Eu) as (W1 & Z1 & _ & _ & K1 & Kn1).
    set (w1 := set_var w p1 i (Some h1)) in *. destruct (var w1 j) as [o|] eqn:Eo; [|discriminate]. destruct (page_copy (w_pool w1) o true) as (p2 & h') eqn:Ec.
    pose proof (nth_error_set _ _ _ _ (Some h1) Ev) as Ev1. assert (good p1 o) as Go by (apply (wi_good _ _ _ W1); apply var_nth, nth_error_In in Eo; exact Eo).
    destruct (lock_var max p1 (w_vars w1) i (Some h1) o p2 h' Hm W1) as (W2 & K2 & Kn2 & _); [|exact Ev1|intros; apply holder_no; exact Z1|exact Go|exact Ec|].
    { apply (room _ _ _ Ev1); [intros; apply holder_no; exact Z1|]. cbn [w1 set_var w_vars]. rewrite (alive_set _ _ _ _ Ev1), (alive_set _ _ _ _ Ev). exact Al. }
    set (w2 := set_var w1 p2 i (Some h')) in *. change (winv max (w_pool w2) (w_vars w2)) in W2.
    destruct (var w2 j) as [o2|] eqn:Eo2; [|discriminate]. destruct (page_unlock (w_pool w2) o2) as (p3 & h3) eqn:Eu3. injection E as <-. apply var_nth in Eo2.
    destruct (unlock_var max _ _ j o2 p3 h3 W2) as (W3 & Z3 & _ & _ & K3 & Kn3); [|exact Eo2|exact Eu3|].
    { intros q. pose proof (cnt_alive q (w_vars w2)) as C. assert (zlen (filter is_alive (w_vars w2)) = alive w) as Q; [|unfold cnt in *; lia]. cbn [w2 w1 set_var w_vars]. rewrite (alive_set _ _ _ _ Ev1), (alive_set _ _ _ _ Ev). reflexivity. }
    pose proof (nth_error_set _ _ _ _ (Some h3) Eo2) as Ev3.
    split; [|split].
    + cbn [set_var w_pool w_vars]. rewrite <- (set_set _ _ j (Some h3) (Some no_handle)). eapply idle_var; [exact W3|exact Ev3|intros; apply holder_no; exact Z3|reflexivity].
    + intros s Is Hs. destruct (K1 s Is) as (s1 & I1 & E1 & F1). destruct (K2 s1 I1) as (s2 & I2 & E2 & F2).
      { rewrite E1. cbn [set_var w_pool w_vars holders] in Hs. unfold holders in Hs. cbn [set_var w_vars] in Hs. rewrite (cnt_set _ _ _ _ _ _ Eo2), (holder_no _ no_handle) in Hs by reflexivity. cbn [b2z] in Hs. unfold cnt. change (set_nth i (Some h') (w_vars w1)) with (w_vars w2). destruct (is_holder (s_pos s) (Some o2)); cbn [b2z] in Hs; lia. }
      destruct (K3 s2 I2) as (s3 & I3 & E3 & F3). exists s3. split; [exact I3|]. split; congruence.
    + intros n K Hn. apply Kn3, Kn2; [apply Kn1, K|exact Hn].
  - destruct (var w i) as [h|] eqn:Ev; [|discriminate]. unfold page_free in E. destruct (page_unlock (w_pool w) h) as (p1 & h1) eqn:Eu. cbn [fst] in E. injection E as <-. apply var_nth in Ev.
    destruct (unlock_var max _ _ i h p1 h1 W B Ev Eu) as (W1 & Z1 & _ & _ & K1 & Kn1). pose proof (nth_error_set _ _ _ _ (Some h1) Ev) as Ev1. split; [|split].
    + cbn [set_var w_pool w_vars]. rewrite <- (set_set _ _ i (Some h1) (Some no_handle)). eapply idle_var; [exact W1|exact Ev1|intros; apply holder_no; exact Z1|reflexivity].
    + intros s Is _. exact (K1 s Is).
    + apply Kw, Kn1.
  - destruct (var w i) as [h|] eqn:Ev; [|discriminate]. unfold page_destroy in E. destruct (page_unlock (w_pool w) h) as (p1 & h1) eqn:Eu. cbn [fst] in E. injection E as <-. apply var_nth in Ev.
    destruct (unlock_var max _ _ i h p1 h1 W B Ev Eu) as (W1 & Z1 & _ & _ & K1 & Kn1). pose proof (nth_error_set _ _ _ _ (Some h1) Ev) as Ev1. split; [|split].
    + cbn [set_var w_pool w_vars]. rewrite <- (set_set _ _ i (Some h1) None). eapply idle_var; [exact W1|exact Ev1|intros; apply holder_no; exact Z1|exact I].
    + intros s Is _. exact (K1 s Is).
    + apply Kw, Kn1.
Qed.

(** ** Histories *)
Lemma run_app : forall a c w, run w (a ++ c) = match run w a with Some w' => run w' c | None => None end.
Proof. induction a as [|o a IH]; intros c w; cbn [app run]; [reflexivity|]. destruct (step w o); [apply IH|reflexivity]. Qed.
Definition small_from (w : world) (l : list op) : Prop := forall l1 l2 w', l = l1 ++ l2 -> run w l1 = Some w' -> alive w' < 2 ^ 32.
Lemma small_head : forall w l, small_from w l -> alive w < 2 ^ 32.
Proof. intros w l F. exact (F [] l w eq_refl eq_refl). Qed.
Lemma small_tail : forall w o l w', small_from w (o :: l) -> step w o = Some w' -> small_from w' l.
Proof. intros w o l w' F E l1 l2 x El Er. apply (F (o :: l1) l2); [rewrite El; reflexivity|]. cbn [run]. rewrite E. exact Er. Qed.
Lemma run_ok : forall max l w w', (1 <= max)%nat -> wok max w -> Forall mmap_works l -> small_from w l -> run w l = Some w' ->
  wok max w' /\ (forall n, kinv (w_pool w) n -> n + zlen l < 2 ^ 32 -> kinv (w_pool w') (n + zlen l)).
Proof.
  intros max. induction l as [|o l IH]; intros w w' Hm W Mw F E; cbn [run] in E.
  - injection E as <-. split; [exact W|]. intros n K _. cbn. rewrite Z.add_0_r. exact K.
  - destruct (step w o) as [w1|] eqn:Es; [|discriminate]. inversion Mw as [|? ? Mo Ml]; subst. pose proof (small_tail _ _ _ _ F Es) as F1.
    destruct (step_ok max w o w1 Hm W Mo (small_head _ _ F) (small_head _ _ F1) Es) as (W1 & _ & K1). destruct (IH w1 w' Hm W1 Ml F1 E) as (W2 & K2).
    split; [exact W2|]. intros n K Hn. rewrite zlen_cons in Hn. pose proof (zlen_nonneg _ l). rewrite zlen_cons. replace (n + (zlen l + 1)) with (n + 1 + zlen l) by lia. apply K2; [apply K1; [exact K|lia]|lia].
Qed.
Lemma run_kept : forall max l w w' pos ptr, (1 <= max)%nat -> wok max w -> Forall mmap_works l -> small_from w l -> run w l = Some w' ->
  (exists s, In s (mapped (w_pool w)) /\ s_pos s = pos /\ s_ptr s = ptr) ->
  (forall l1 l2 x, l = l1 ++ l2 -> run w l1 = Some x -> 0 < holders x pos) ->
  exists s, In s (mapped (w_pool w')) /\ s_pos s = pos /\ s_ptr s = ptr.
Proof.
  intros max. induction l as [|o l IH]; intros w w' pos ptr Hm W Mw F E Hs Ha; cbn [run] in E; [injection E as <-; exact Hs|].
  destruct (step w o) as [w1|] eqn:Es; [|discriminate]. inversion Mw as [|? ? Mo Ml]; subst. pose proof (small_tail _ _ _ _ F Es) as F1.
  destruct (step_ok max w o w1 Hm W Mo (small_head _ _ F) (small_head _ _ F1) Es) as (W1 & K1 & _).
  apply (IH w1 w' pos ptr Hm W1 Ml F1 E).
  - destruct Hs as (s & Is & Ep & Et). destruct (K1 s Is) as (s' & Is' & Ep' & Et'); [rewrite Ep; apply (Ha [o] l); [reflexivity|cbn [run]; rewrite Es; reflexivity]|]. exists s'. split; [exact Is'|]. split; congruence.
  - intros l1 l2 x El Er. apply (Ha (o :: l1) l2); [rewrite El; reflexivity|]. cbn [run]. rewrite Es. exact Er.
Qed.
Lemma start_ok : forall max, wok max (start max) /\ kinv (w_pool (start max)) 0.
Proof.
  intros max. unfold start. cbn [w_pool]. assert (mapped (new_pool max) = []) as M by reflexivity. split.
  - constructor; [constructor|].
    + cbn [w_pool new_pool slots]. apply repeat_length.
    + cbn. lia.
    + cbn [w_pool]. rewrite M. constructor.
    + cbn [w_pool]. rewrite M. constructor.
    + cbn [w_pool]. rewrite M. intros s [].
    + intros pos H. cbn in H. lia.
    + intros pos. cbn. lia.
    + cbn [w_pool]. rewrite M. cbn. tauto.
    + constructor.
    + cbn. lia.
    + intros h [].
  - unfold kinv. rewrite M. cbn. split; [intros s []|lia].
Qed.
Lemma few_small : forall max l, few_handles max l -> small_from (start max) l.
Proof. intros max l F l1 l2 w. apply F. Qed.
Lemma holds_in : forall w i pos ptr, holds w i pos ptr -> exists h, In (Some h) (w_vars w) /\ h_pos h = pos /\ h_ptr h = ptr /\ ptr <> 0.
Proof. intros w i pos ptr (h & E & A). exists h. split; [|exact A]. apply var_nth in E. eapply nth_error_In, E. Qed.

Lemma handles_ok : forall max l w, (1 <= max)%nat -> Forall mmap_works l -> few_handles max l -> run (start max) l = Some w ->
  (forall i pos ptr, holds w i pos ptr -> In (ptr, pos) (os (w_pool w)) /\
     forall j pos' ptr', holds w j pos' ptr' -> (pos = pos' <-> ptr = ptr')) /\
  (forall s, In s (mapped (w_pool w)) -> s_lock s = holders w (s_pos s)) /\
  (forall pos, 0 < holders w pos -> ~ evictable (w_pool w) pos).
Proof.
  intros max l w Hm Mw F E. destruct (run_ok max l _ w Hm (proj1 (start_ok max)) Mw (few_small _ _ F) E) as ([I G] & _).
  assert (forall i pos ptr, holds w i pos ptr -> exists s, In s (mapped (w_pool w)) /\ s_pos s = pos /\ s_ptr s = ptr) as Hs.
  { intros i pos ptr H. apply holds_in in H. destruct H as (h & Ih & <- & <- & Nz). destruct (G h Ih Nz) as (_ & _ & s & A). exists s. exact A. }
  split; [|split].
  - intros i pos ptr H. destruct (Hs _ _ _ H) as (s & Is & <- & <-). split; [apply (pi_os _ _ _ I), (in_map pair _ _ Is)|].
    intros j pos' ptr' H'. destruct (Hs _ _ _ H') as (s' & Is' & <- & <-). split; intros Q.
    + rewrite (nodup_map_inj _ _ _ _ _ _ (pi_pos _ _ _ I) Is Is' Q). reflexivity.
    + rewrite (nodup_map_inj _ _ _ _ _ _ (pi_ptr _ _ _ I) Is Is' Q). reflexivity.
  - intros s Is. exact (proj1 (pi_lock _ _ _ I s Is)).
  - intros pos Hp (s & Is & Es & El). rewrite (proj1 (pi_lock _ _ _ I s Is)), Es in El. unfold holders in Hp. unfold cnt in El. lia.
Qed.
Lemma pointer_kept : forall max l1 l2 w1 w2 i pos ptr, (1 <= max)%nat -> Forall mmap_works (l1 ++ l2) -> few_handles max (l1 ++ l2) -> run (start max) l1 = Some w1 -> run w1 l2 = Some w2 ->
  holds w1 i pos ptr -> (forall a c x, l2 = a ++ c -> run w1 a = Some x -> 0 < holders x pos) ->
  In (ptr, pos) (os (w_pool w2)) /\ forall j ptr', holds w2 j pos ptr' -> ptr' = ptr.
Proof.
  intros max l1 l2 w1 w2 i pos ptr Hm Mw F E1 E2 H Ha. apply Forall_app in Mw. destruct Mw as (M1 & M2). pose proof (few_small _ _ F) as Fs.
  assert (small_from (start max) l1) as F1 by (intros a c x El Er; apply (Fs a (c ++ l2)); [rewrite El, app_assoc; reflexivity|exact Er]).
  assert (small_from w1 l2) as F2 by (intros a c x El Er; apply (Fs (l1 ++ a) c); [rewrite El, app_assoc; reflexivity|rewrite run_app, E1; exact Er]).
  destruct (run_ok max l1 _ w1 Hm (proj1 (start_ok max)) M1 F1 E1) as (W1 & _). destruct (run_ok max l2 _ w2 Hm W1 M2 F2 E2) as ([I G] & _).
  destruct (run_kept max l2 w1 w2 pos ptr Hm W1 M2 F2 E2) as (s & Is & <- & <-); [|exact Ha|].
  - apply holds_in in H. destruct H as (h & Ih & <- & <- & Nz). destruct (wi_good _ _ _ W1 h Ih Nz) as (_ & _ & s & A). exists s. exact A.
  - split; [apply (pi_os _ _ _ I), (in_map pair _ _ Is)|]. intros j ptr' H'. apply holds_in in H'. destruct H' as (h & Ih & Eh & <- & Nz). destruct (G h Ih Nz) as (_ & _ & s' & Is' & Es' & Et'). rewrite <- Et'. f_equal.
    apply (nodup_map_inj _ _ _ _ _ _ (pi_pos _ _ _ I) Is' Is). congruence.
Qed.
Lemma map_snd : forall max p H, pinv max p H -> Permutation (map pair (mapped p)) (os p).
Proof.
  intros max p H I. apply NoDup_Permutation; [|exact (pi_osnd _ _ _ I)|intros m; symmetry; apply (pi_os _ _ _ I)].
  pose proof (pi_ptr _ _ _ I) as N. apply (NoDup_map_inv fst). rewrite map_map. exact N.
Qed.
Lemma bounded : forall max l w, (1 <= max)%nat -> Forall mmap_works l -> few_handles max l -> run (start max) l = Some w ->
  (length (os (w_pool w)) <= max)%nat /\ NoDup (map snd (os (w_pool w))).
Proof.
  intros max l w Hm Mw F E. destruct (run_ok max l _ w Hm (proj1 (start_ok max)) Mw (few_small _ _ F) E) as ([I G] & _). pose proof (map_snd _ _ _ I) as Pm. split.
  - rewrite <- (Permutation_length Pm), map_length, mapped_length; [exact (pi_count _ _ _ I)|]. rewrite (pi_len _ _ _ I). exact (pi_count _ _ _ I).
  - eapply Permutation_NoDup; [apply Permutation_map, Pm|]. rewrite map_map. exact (pi_pos _ _ _ I).
Qed.
Lemma fails_iff : forall max l w pos, (1 <= max)%nat -> Forall mmap_works l -> few_handles max (l ++ [New pos true]) -> zlen l < 2 ^ 32 - 1 -> pos <> page_nil -> run (start max) l = Some w ->
  h_ptr (snd (page_new (w_pool w) pos true)) = 0 <-> exists ps, NoDup ps /\ length ps = max /\ ~ In pos ps /\ forall q, In q ps -> 0 < holders w q.
Proof.
  intros max l w pos Hm Mw F Hl Np E. pose proof (few_small _ _ F) as Fs.
  assert (small_from (start max) l) as F1 by (intros a c x El Er; apply (Fs a (c ++ [New pos true])); [rewrite El, app_assoc; reflexivity|exact Er]).
  destruct (run_ok max l _ w Hm (proj1 (start_ok max)) Mw F1 E) as ([I G] & K). specialize (K 0 (proj2 (start_ok max)) ltac:(lia)).
  assert (forall q, cnt q (w_vars w) + 1 < 2 ^ 32) as B.
  { intros q. destruct (page_new (w_pool w) pos true) as (p1 & h1) eqn:Ep. assert (alive (add_var w p1 h1) < 2 ^ 32) as A.
    { apply (Fs (l ++ [New pos true]) []); [rewrite app_nil_r; reflexivity|]. rewrite run_app, E. cbn [run step]. rewrite Ep. reflexivity. }
    pose proof (cnt_alive q (w_vars w)). unfold alive, add_var in A. cbn [w_vars] in A. fold is_alive in A. rewrite count_app in A. cbn in A. change (zlen [Some h1]) with 1 in A. unfold cnt in *. lia. }
  unfold page_new. rewrite (proj2 (Z.eqb_neq _ _) Np). unfold page_lock. cbn [h_pos]. destruct (lock_page (w_pool w) pos true) as (p' & ptr) eqn:El. cbn [snd h_ptr].
  destruct (lock_spec max _ _ pos p' ptr Hm I B El) as (S1 & Sp & Ok & Fl & Kn & Full).
  pose proof (pi_len _ _ _ I) as L. pose proof (pi_count _ _ _ I) as C. split.
  - intros Ez. destruct (Fl Ez) as (I1 & H0 & Al). destruct (Al _ K ltac:(lia)) as (Cm & Lk).
    exists (map s_pos (mapped p')). split; [exact (pi_pos _ _ _ I1)|]. split; [rewrite map_length, mapped_length; [exact Cm|rewrite (pi_len _ _ _ I1); lia]|]. split.
    + intros Ix. apply in_map_iff in Ix. destruct Ix as (s & Es & Is). specialize (Lk s Is). rewrite (proj1 (pi_lock _ _ _ I1 s Is)), Es in Lk. cbn beta in H0. lia.
    + intros q Iq. apply in_map_iff in Iq. destruct Iq as (s & <- & Is). specialize (Lk s Is). rewrite (proj1 (pi_lock _ _ _ I1 s Is)) in Lk. exact Lk.
  - intros (ps & Nd & Ln & Ni & Hq). assert (incl ps (map s_pos (mapped (w_pool w)))) as Inc.
    { intros q Iq. destruct (pi_held _ _ _ I q (Hq q Iq)) as (s & Is & <-). apply in_map, Is. }
    assert (length (mapped (w_pool w)) = count (w_pool w)) as Lc by (apply mapped_length; lia).
    pose proof (NoDup_incl_length Nd Inc) as Le. rewrite map_length, Lc in Le.
    assert (incl (map s_pos (mapped (w_pool w))) ps) as Inc2 by (apply NoDup_length_incl; [exact Nd|rewrite map_length; lia|exact Inc]).
    apply Full; [lia|]. intros s Is. assert (In (s_pos s) ps) as Ip by (apply Inc2, in_map, Is). split.
    + rewrite (proj1 (pi_lock _ _ _ I s Is)). exact (Hq _ Ip).
    + intros Q. rewrite Q in Ip. contradiction.
Qed.
(** The destructor of the pool. *)
Lemma destroy_loop_os : forall n p i m, (i + n = count p)%nat -> (count p <= length (slots p))%nat -> In m (os (destroy_loop n p i)) <-> In m (os p) /\ forall k, (i <= k < count p)%nat -> s_ptr (get_slot p k) <> fst m.
Proof.
  induction n as [|n IH]; intros p i m Hi Hc; cbn [destroy_loop]; [split; [intros I; split; [exact I|intros; lia]|tauto]|].
  cbn [unmap_mapped_page fst]. rewrite IH; cbn [set_slot munmap count slots os]; [|lia|rewrite set_nth_length; exact Hc]. rewrite filter_In, negb_true_iff, Z.eqb_neq. unfold get_slot. cbn [set_slot munmap slots].
  split.
  - intros ((A & B) & D). split; [exact A|]. intros k Hk. destruct (Nat.eq_dec k i) as [->|Hn]; [congruence|]. specialize (D k ltac:(lia)). rewrite get_other in D by congruence. exact D.
  - intros (A & B). split; [split; [exact A|]|].
    + intros Q. apply (B i ltac:(lia)). congruence.
    + intros k Hk. rewrite get_other by lia. apply B. lia.
Qed.
Lemma destroyed : forall max l w, (1 <= max)%nat -> Forall mmap_works l -> few_handles max l -> run (start max) l = Some w -> os (destroy_pool (w_pool w)) = [].
Proof.
  intros max l w Hm Mw F E. destruct (run_ok max l _ w Hm (proj1 (start_ok max)) Mw (few_small _ _ F) E) as ([I G] & _). unfold destroy_pool. cbn [set_count os].
  destruct (os (destroy_loop _ _ _)) as [|m r] eqn:Eo; [reflexivity|exfalso]. assert (In m (os (destroy_loop (count (w_pool w)) (w_pool w) 0))) as Im by (rewrite Eo; left; reflexivity).
  pose proof (pi_len _ _ _ I). pose proof (pi_count _ _ _ I). apply destroy_loop_os in Im; [|lia|lia]. destruct Im as (A & B). apply (pi_os _ _ _ I) in A. apply in_map_iff in A. destruct A as (s & <- & Is).
  apply (In_nth _ _ no_slot) in Is. destruct Is as (k & Hk & Es). rewrite mapped_length in Hk by lia. apply (B k); [lia|]. rewrite get_mapped by exact Hk. rewrite Es. reflexivity.
Qed.

(** ** Counters of 32 bits *)
(** [n] times: lock the page [pos] and unlock it again; the variables are numbered from [s]. *)
Definition rounds (pos : Z) (s n : nat) : list op := flat_map (fun k => [New pos true; Destroy k]) (seq s n).
Lemma rounds_works : forall pos n s, Forall mmap_works (rounds pos s n).
Proof. intros pos n s. unfold rounds. apply Forall_forall. intros o Io. apply in_flat_map in Io. destruct Io as (k & _ & [<-|[<-|[]]]); cbn; auto. Qed.
Lemma round_ind : forall pos (P : Z -> pool) lo hi, (forall m, lo <= m < hi -> forall s, run {| w_pool := P m; w_vars := repeat None s |} [New pos true; Destroy s] = Some {| w_pool := P (m + 1); w_vars := repeat None (S s) |}) ->
  forall n s m, lo <= m -> m + Z.of_nat n <= hi -> run {| w_pool := P m; w_vars := repeat None s |} (rounds pos s n) = Some {| w_pool := P (m + Z.of_nat n); w_vars := repeat None (s + n) |}.
Proof.
  intros pos P lo hi St. induction n as [|n IH]; intros s m Hl Hh.
  - cbn [rounds seq flat_map run]. rewrite Z.add_0_r, Nat.add_0_r. reflexivity.
  - change (rounds pos s (S n)) with ([New pos true; Destroy s] ++ rounds pos (S s) n). rewrite run_app, St by lia. rewrite IH by lia. do 2 f_equal; [|f_equal]; [f_equal|]; lia.
Qed.
Lemma destroy_last : forall p s h p', page_unlock p h = (p', {| h_pool := h_pool h; h_pos := h_pos h; h_ptr := 0 |}) ->
  run {| w_pool := p; w_vars := repeat None s ++ [Some h] |} [Destroy s] = Some {| w_pool := p'; w_vars := repeat None (S s) |}.
Proof.
  intros p s h p' E. cbn [run step]. unfold var. cbn [w_vars w_pool]. assert (length (repeat (@None handle) s) = s) as L by apply repeat_length.
  rewrite nth_error_app2 by lia. rewrite L, Nat.sub_diag. cbn [nth_error]. unfold page_destroy. rewrite E. cbn [fst]. unfold set_var. cbn [w_vars]. rewrite <- L at 1. rewrite set_nth_app.
  rewrite repeat_snoc. reflexivity.
Qed.

(** ** Short histories *)
Lemma step_vars : forall w o w', step w o = Some w' -> (length (w_vars w') <= S (length (w_vars w)))%nat.
Proof.
  intros w o w' E. destruct o; cbn [step] in E; repeat match type of E with (match ?x with _ => _ end) = _ => destruct x; try discriminate | (let '(_, _) := ?x in _) = _ => destruct x end;
    injection E as <-; cbn [add_var set_var w_vars]; rewrite ?app_length, ?set_nth_length; cbn [length]; lia.
Qed.
Lemma run_vars : forall l w w', run w l = Some w' -> (length (w_vars w') <= length (w_vars w) + length l)%nat.
Proof.
  induction l as [|o l IH]; intros w w' E; cbn [run] in E; [injection E as <-; lia|]. destruct (step w o) as [w1|] eqn:Es; [|discriminate]. apply step_vars in Es. apply IH in E. cbn [length]. lia.
Qed.
Lemma few_short : forall max l, zlen l < 2 ^ 32 -> few_handles max l.
Proof.
  intros max l H l1 l2 w E R. apply run_vars in R. cbn [start w_vars length] in R. unfold alive. pose proof (filter_le _ (fun v : option handle => match v with Some _ => true | None => false end) (w_vars w)) as F.
  assert (length l = length l1 + length l2)%nat as L by (rewrite E; apply app_length). unfold zlen in *. lia.
Qed.
