(** C111: proofs. *)

From Coq Require Import ZArith List Bool Lia Permutation.
From Verif Require Import Base ListMem Cache_Model Cache_Spec Cache_Proofs Cache_World Ref_Model Ref_Spec.
Import ListNotations.
Open Scope Z_scope.

Lemma deref_run : forall w pos w' r, deref w pos = Some (w', r) -> run w (deref_ops (length (w_vars w)) pos) = Some w' /\
  exists w1 h, run w (firstn 3 (deref_ops (length (w_vars w)) pos)) = Some w1 /\ var w1 (S (length (w_vars w))) = Some h /\ h_ptr h = r /\ run w1 (skipn 3 (deref_ops (length (w_vars w)) pos)) = Some w'.
Proof.
  intros w pos w' r E. unfold deref in E. set (n := length (w_vars w)) in *. destruct (run w (firstn 3 (deref_ops n pos))) as [w1|] eqn:E1; [|discriminate].
  destruct (var w1 (S n)) as [h|] eqn:Ev; [|discriminate]. destruct (run w1 (skipn 3 (deref_ops n pos))) as [w2|] eqn:E2; [|discriminate]. injection E as <- <-.
  split; [rewrite <- (firstn_skipn 3 (deref_ops n pos)), run_app, E1; exact E2|]. exists w1, h. auto.
Qed.
Lemma deref_works : forall n pos, Forall mmap_works (deref_ops n pos).
Proof. intros. repeat constructor. Qed.
(** The second handle is on the page asked for. *)
Lemma step_new : forall w pos w', step w (New pos true) = Some w' -> exists h, w_vars w' = w_vars w ++ [Some h] /\ h_pos h = pos.
Proof.
  intros w pos w' E. cbn [step] in E. destruct (page_new (w_pool w) pos true) as (p & h) eqn:Ep. injection E as <-. exists h. split; [reflexivity|].
  unfold page_new in Ep. destruct (pos =? page_nil); [injection Ep as _ <-; reflexivity|]. unfold page_lock in Ep. destruct (lock_page _ _ _). injection Ep as _ <-. reflexivity.
Qed.
Lemma step_destroy : forall w i w', step w (Destroy i) = Some w' -> w_vars w' = set_nth i None (w_vars w).
Proof. intros w i w' E. cbn [step] in E. destruct (var w i); [|discriminate]. injection E as <-. reflexivity. Qed.
Lemma deref_vars : forall w pos w1, run w (firstn 3 (deref_ops (length (w_vars w)) pos)) = Some w1 ->
  exists h, w_vars w1 = w_vars w ++ [None; Some h] /\ h_pos h = pos.
Proof.
  intros w pos w1 E. cbn [firstn deref_ops run] in E. destruct (step w (New pos true)) as [a|] eqn:Ea; [|discriminate]. destruct (step a (New pos true)) as [c|] eqn:Ec; [|discriminate].
  destruct (step c (Destroy (length (w_vars w)))) as [d|] eqn:Ed; [|discriminate]. injection E as <-. apply step_new in Ea. destruct Ea as (h1 & Va & _). apply step_new in Ec. destruct Ec as (h2 & Vc & P2).
  apply step_destroy in Ed. exists h2. split; [|exact P2]. rewrite Ed, Vc, Va, <- app_assoc. apply set_nth_app.
Qed.
Lemma deref_vars_end : forall w pos w', run w (deref_ops (length (w_vars w)) pos) = Some w' -> w_vars w' = w_vars w ++ [None; None].
Proof.
  intros w pos w' E. rewrite <- (firstn_skipn 3 (deref_ops _ pos)), run_app in E. destruct (run w (firstn 3 _)) as [w1|] eqn:E1; [|discriminate]. apply deref_vars in E1. destruct E1 as (h & V & _).
  cbn [skipn deref_ops run] in E. destruct (step w1 _) as [w2|] eqn:E2; [|discriminate]. injection E as <-. apply step_destroy in E2. rewrite E2, V.
  change (w_vars w ++ [None; Some h]) with (w_vars w ++ [None] ++ [Some h]). rewrite app_assoc. replace (S (length (w_vars w))) with (length (w_vars w ++ [@None handle])) by (rewrite app_length; cbn; lia). rewrite set_nth_app, <- app_assoc. reflexivity.
Qed.

Lemma at_once : forall max l w pos w' r, (1 <= max)%nat -> Forall mmap_works l -> few_handles max (l ++ deref_ops (length (w_vars w)) pos) ->
  run (start max) l = Some w -> deref w pos = Some (w', r) -> r <> 0 ->
  exists s, In s (mapped (w_pool w')) /\ s_pos s = pos /\ s_ptr s = r.
Proof.
  intros max l w pos w' r Hm Mw F E D Nz. destruct (deref_run _ _ _ _ D) as (Er & w1 & h & E1 & Ev & Eh & E2).
  pose proof (few_small _ _ F) as Fs. assert (Forall mmap_works (l ++ deref_ops (length (w_vars w)) pos)) as Ma by (apply Forall_app; split; [exact Mw|apply deref_works]).
  assert (run (start max) (l ++ firstn 3 (deref_ops (length (w_vars w)) pos)) = Some w1) as R1 by (rewrite run_app, E; exact E1).
  assert (small_from (start max) (l ++ firstn 3 (deref_ops (length (w_vars w)) pos))) as F1.
  { intros a c x El Ex. apply (Fs a (c ++ skipn 3 (deref_ops (length (w_vars w)) pos))); [rewrite app_assoc, <- El, <- app_assoc, firstn_skipn; reflexivity|exact Ex]. }
  assert (Forall mmap_works (l ++ firstn 3 (deref_ops (length (w_vars w)) pos))) as M1 by (apply Forall_app; split; [exact Mw|repeat constructor]). destruct (run_ok max _ _ w1 Hm (proj1 (start_ok max)) M1 F1 R1) as (W1 & _).
  pose proof (var_nth _ _ _ Ev) as Nv. destruct (deref_vars _ _ _ E1) as (h' & V1 & P1).
  assert (h' = h) as -> by (rewrite V1 in Nv; rewrite nth_error_app2 in Nv by lia; replace (S (length (w_vars w)) - length (w_vars w))%nat with 1%nat in Nv by lia; cbn in Nv; congruence).
  destruct (wi_good _ _ _ W1 h) as (_ & _ & s & Is & Es & Et); [eapply nth_error_In; exact Nv|congruence|].
  cbn [skipn deref_ops run] in E2. destruct (step w1 (Destroy (S (length (w_vars w))))) as [x|] eqn:Ex; [|discriminate]. injection E2 as <-.
  cbn [step] in Ex. rewrite Ev in Ex. unfold page_destroy in Ex. destruct (page_unlock (w_pool w1) h) as (p2 & h2) eqn:Eu. injection Ex as <-. cbn [set_var w_pool fst].
  assert (forall q, cnt q (w_vars w1) < 2 ^ 32) as B.
  { intros q. pose proof (cnt_alive q (w_vars w1)). assert (alive w1 < 2 ^ 32) as A by (apply (F1 _ [] w1 (eq_sym (app_nil_r _)) R1)). unfold alive in A. fold is_alive in A. lia. }
  destruct (unlock_var max _ _ _ h p2 h2 W1 B Nv Eu) as (_ & _ & _ & _ & K & _). destruct (K s Is) as (s' & Is' & Es' & Et'). exists s'. split; [exact Is'|]. split; congruence.
Qed.
Lemma mapped_shows : forall max p H s, pinv max p H -> In s (mapped p) -> In (s_ptr s, s_pos s) (os p).
Proof. intros max p H s I Is. apply (pi_os _ _ _ I), (in_map pair _ _ Is). Qed.
Lemma shown : forall max l1 l2 w pos w' r w2, (1 <= max)%nat -> Forall mmap_works (l1 ++ l2) -> few_handles max (l1 ++ deref_ops (length (w_vars w)) pos ++ l2) ->
  run (start max) l1 = Some w -> deref w pos = Some (w', r) -> r <> 0 -> run w' l2 = Some w2 ->
  (forall a c x o, l2 = a ++ o :: c -> run w' (a ++ [o]) = Some x -> 0 < holders x pos) ->
  shows w2 r pos.
Proof.
  intros max l1 l2 w pos w' r w2 Hm Mw F E D Nz E2 Ha. apply Forall_app in Mw. destruct Mw as (M1 & M2). pose proof (few_small _ _ F) as Fs.
  assert (few_handles max (l1 ++ deref_ops (length (w_vars w)) pos)) as F1 by (intros a c x El Ex; apply (F a (c ++ l2) x); [rewrite (app_assoc l1), El, <- app_assoc; reflexivity|exact Ex]).
  destruct (at_once max l1 w pos w' r Hm M1 F1 E D Nz) as (s & Is & Es & Et). destruct (deref_run _ _ _ _ D) as (Er & _).
  assert (run (start max) (l1 ++ deref_ops (length (w_vars w)) pos) = Some w') as R1 by (rewrite run_app, E; exact Er).
  destruct (run_ok max _ _ w' Hm (proj1 (start_ok max)) ltac:(apply Forall_app; split; [exact M1|apply deref_works]) (few_small _ _ F1) R1) as (W1 & _).
  assert (small_from w' l2) as F2.
  { intros a c x El Ex. apply (Fs (l1 ++ deref_ops (length (w_vars w)) pos ++ a) c); [rewrite El, <- !app_assoc; reflexivity|]. rewrite app_assoc, run_app, R1. exact Ex. }
  assert (exists s, In s (mapped (w_pool w')) /\ s_pos s = pos /\ s_ptr s = r) as S1 by (exists s; auto). clear Es Et Is s.
  cut (wok max w2 /\ exists s, In s (mapped (w_pool w2)) /\ s_pos s = pos /\ s_ptr s = r).
  { intros (W2 & s & Is & <- & <-). unfold shows. apply (mapped_shows max _ _ s (wi_pool _ _ _ W2) Is). }
  clear - Hm W1 F2 M2 E2 Ha S1. revert w' W1 F2 M2 E2 Ha S1. induction l2 as [|o l IH]; intros w W F Mw E Ha S1; cbn [run] in E; [injection E as <-; auto|].
  destruct (step w o) as [w1|] eqn:Es; [|discriminate]. inversion Mw as [|? ? Mo Ml]; subst. pose proof (small_tail _ _ _ _ F Es) as F1.
  destruct (step_ok max w o w1 Hm W Mo (small_head _ _ F) (small_head _ _ F1) Es) as (W1 & K1 & _).
  apply (IH w1 W1 F1 Ml E).
  - intros a c x q El Er. apply (Ha (o :: a) c x q); [rewrite El; reflexivity|]. cbn [app run]. rewrite Es. exact Er.
  - destruct S1 as (s & Is & <- & <-). destruct (K1 s Is) as (s' & Is' & Ep' & Et'); [apply (Ha [] l w1 o); [reflexivity|cbn [app run]; rewrite Es; reflexivity]|]. exists s'. auto.
Qed.

(** ** Few pages *)
Definition within (ps : list Z) (p : pool) : Prop := forall s, In s (mapped p) -> In (s_pos s) ps.
Lemma set_kept : forall (l : list slot) j s' d, (j < length l)%nat -> s_pos s' = s_pos (nth j l d) -> s_ptr s' = s_ptr (nth j l d) ->
  forall s, In s l -> exists x, In x (set_nth j s' l) /\ s_pos x = s_pos s /\ s_ptr x = s_ptr s.
Proof.
  intros l j s' d Hj Ep Et s Is. destruct (split_nth _ l j d Hj) as (a & c & E & La). set (y := nth j l d) in *. rewrite E, <- La, set_nth_app. rewrite E in Is. apply in_app_or in Is. destruct Is as [Is|[<-|Is]].
  - exists s. split; [apply in_or_app; left; exact Is|auto].
  - exists s'. split; [apply in_or_app; right; left; reflexivity|auto].
  - exists s. split; [apply in_or_app; right; right; exact Is|auto].
Qed.
Lemma set_slot_kept : forall p j s', (j < count p)%nat -> (count p <= length (slots p))%nat -> s_pos s' = s_pos (get_slot p j) -> s_ptr s' = s_ptr (get_slot p j) -> kept_all p (set_slot p j s').
Proof.
  intros p j s' Hj Hc Ep Et s Is. unfold mapped. cbn [set_slot slots count]. rewrite firstn_set_nth. fold (mapped p). rewrite get_mapped in Ep, Et by exact Hj. eapply set_kept; [rewrite mapped_length; assumption|exact Ep|exact Et|exact Is].
Qed.
Lemma set_slot_within : forall ps p j s', (j < count p)%nat -> (count p <= length (slots p))%nat -> s_pos s' = s_pos (get_slot p j) -> within ps p -> within ps (set_slot p j s').
Proof.
  intros ps p j s' Hj Hc Ep W x Ix. unfold mapped in Ix. cbn [set_slot slots count] in Ix. rewrite firstn_set_nth in Ix. apply in_set in Ix. destruct Ix as [->|Ix]; [|apply W, Ix].
  rewrite Ep. apply W. rewrite get_mapped by exact Hj. apply nth_In. rewrite mapped_length; assumption.
Qed.
Lemma lock_few : forall max ps p H pos p' ptr, (length ps <= max)%nat -> pinv max p H -> within ps p -> In pos ps -> lock_page p pos true = (p', ptr) ->
  kept_all p p' /\ within ps p' /\ ptr <> 0.
Proof.
  intros max ps p H pos p' ptr Hp I W Ip E. pose proof (pi_len _ _ _ I) as L. pose proof (pi_count _ _ _ I) as C. unfold lock_page in E.
  destruct (find_mapped_page p pos) as (j & f) eqn:Ef. apply find_spec in Ef; [|lia]. destruct f; cbn [negb andb] in E.
  - destruct Ef as (Hj & Ej). rewrite (proj2 (Nat.ltb_lt _ _) Hj) in E. destruct (lock_mapped_page p j) as (p1 & pt) eqn:El. injection E as <- <-. unfold lock_mapped_page in El. injection El as <- <-.
    set (s := get_slot p j) in *. assert (In s (mapped p)) as Is by (unfold s; rewrite get_mapped by exact Hj; apply nth_In; rewrite mapped_length; lia).
    destruct (pi_lock _ _ _ I s Is) as (Lk & Pt).
    set (p1 := add_lock _) in *.
    assert (count p1 = count p) as Cc by reflexivity. assert (length (slots p1) = length (slots p)) as Ls by (unfold p1; cbn [add_lock set_total set_slot slots]; apply set_nth_length).
    destruct (optimize_perm j p1 O j eq_refl ltac:(lia) ltac:(lia)) as (Pm & _). fold (optimize_mapped_page p1 j) in *.
    split; [|split].
    + intros x Ix. edestruct (set_slot_kept p j) as (y & Iy & Ey); [exact Hj|lia| | |exact Ix|exists y; split; [eapply Permutation_in; [exact Pm|exact Iy]|exact Ey]]; reflexivity.
    + intros x Ix. apply (Permutation_in _ (Permutation_sym Pm)) in Ix. eapply (set_slot_within ps p j); [exact Hj|lia| |exact W|exact Ix]. reflexivity.
    + lia.
  - assert (count p < max)%nat as Cl.
    { assert (NoDup (pos :: map s_pos (mapped p))) as Nd by (constructor; [intros Ix; apply in_map_iff in Ix; destruct Ix as (x & Ex & Ix); exact (Ef x Ix Ex)|exact (pi_pos _ _ _ I)]).
      assert (incl (pos :: map s_pos (mapped p)) ps) as In1 by (intros q [<-|Iq]; [exact Ip|apply in_map_iff in Iq; destruct Iq as (x & <- & Ix); apply W, Ix]).
      pose proof (NoDup_incl_length Nd In1) as Le. cbn [length] in Le. rewrite map_length, mapped_length in Le by lia. lia. }
    assert (has_mapping_capacity p = true) as Eh by (apply Nat.ltb_lt; lia). rewrite Eh in E. cbn [negb andb] in E. rewrite ?Eh in E. cbn [negb andb] in E. rewrite Nat.ltb_irrefl in E.
    pose proof (map_new max p H pos I Cl Ef) as Mn. destruct (map_new_page p (count p) pos true) as (q1 & pt) eqn:Em. injection E as <- <-. destruct Mn as (A & S1 & Nz & Cq & _).
    assert (mapped q1 = mapped p ++ [{| s_pos := pos; s_ptr := os_next p; s_lock := 1; s_keep := 1 |}]) as M1.
    { unfold map_new_page in Em. cbn [mmap] in Em. injection Em as <- _. unfold mapped. cbn [add_lock set_total set_slot set_count count slots]. rewrite firstn_set_nth.
      destruct (split_nth _ (slots p) (count p) no_slot) as (a & c & E & La); [lia|]. rewrite E.
      rewrite <- La at 2. replace (S (length a)) with (length a + 1)%nat by lia. rewrite firstn_app_2. cbn [firstn].
      rewrite <- La. rewrite set_nth_app. rewrite firstn_app, Nat.sub_diag, firstn_all. cbn [firstn]. rewrite app_nil_r. reflexivity. }
    pose proof (pi_len _ _ _ A) as La. destruct (optimize_perm (count p) q1 O (count p) eq_refl ltac:(lia) ltac:(lia)) as (Pm & _). fold (optimize_mapped_page q1 (count p)) in *.
    split; [|split; [|exact Nz]].
    + intros x Ix. exists x. split; [eapply Permutation_in; [exact Pm|]; rewrite M1; apply in_or_app; left; exact Ix|auto].
    + intros x Ix. apply (Permutation_in _ (Permutation_sym Pm)) in Ix. rewrite M1 in Ix. apply in_app_or in Ix. destruct Ix as [Ix|[<-|[]]]; [apply W, Ix|exact Ip].
Qed.
Lemma kept_refl : forall p, kept_all p p.
Proof. intros p s Is. exists s. auto. Qed.
Lemma kept_trans : forall p q r, kept_all p q -> kept_all q r -> kept_all p r.
Proof. intros p q r A B s Is. destruct (A s Is) as (x & Ix & Ep & Et). destruct (B x Ix) as (y & Iy & Fp & Ft). exists y. split; [exact Iy|]. split; congruence. Qed.
Lemma unlock_few : forall ps p h p' h', (count p <= length (slots p))%nat -> within ps p -> page_unlock p h = (p', h') -> kept_all p p' /\ within ps p' /\ h_pos h' = h_pos h /\ h_pool h' = h_pool h.
Proof.
  intros ps p h p' h' Hc W E. unfold page_unlock in E. destruct (_ && _); injection E as <- <-; [|split; [apply kept_refl|auto]]. unfold unlock_page. destruct (find_mapped_page p (h_pos h)) as (j & f) eqn:Ef. apply find_spec in Ef; [|exact Hc].
  destruct f; [|split; [apply kept_refl|auto]]. destruct Ef as (Hj & _). unfold unlock_mapped_page. split; [apply set_slot_kept; auto|]. split; [apply set_slot_within; auto|auto].
Qed.
Definition vars_within (ps : list Z) (vs : list (option handle)) : Prop := forall h, In (Some h) vs -> h_pool h = true -> h_pos h <> page_nil -> In (h_pos h) ps.
Lemma copy_few : forall max ps p vs o p' h, (length ps <= max)%nat -> winv max p vs -> within ps p -> (h_pool o = true -> h_pos o <> page_nil -> In (h_pos o) ps) -> page_copy p o true = (p', h) ->
  kept_all p p' /\ within ps p' /\ (h_pool h = true -> h_pos h <> page_nil -> In (h_pos h) ps) /\ (h_pool o = true -> h_pos o <> page_nil -> h_ptr h <> 0).
Proof.
  intros max ps p vs o p' h Hp Wi W Po E. unfold page_copy in E. destruct (h_pool o) eqn:Eo; cbn [andb] in E.
  - destruct (Z.eqb_spec (h_pos o) page_nil) as [En|En]; cbn [negb] in E.
    + injection E as <- <-. split; [apply kept_refl|]. cbn [h_pool h_pos]. split; [exact W|]. split; [intros; contradiction|intros; contradiction].
    + unfold page_lock in E. destruct (lock_page p _ true) as (q & pt) eqn:El. injection E as <- <-. cbn [h_pos h_pool h_ptr] in *. destruct (lock_few max ps p _ _ _ _ Hp (wi_pool _ _ _ Wi) W (Po eq_refl En) El) as (K & W1 & Nz). auto.
  - injection E as <- <-. split; [apply kept_refl|]. split; [exact W|]. split; [intros; congruence|discriminate].
Qed.
Lemma vars_set : forall ps vs i v, vars_within ps vs -> (forall h, v = Some h -> h_pool h = true -> h_pos h <> page_nil -> In (h_pos h) ps) -> vars_within ps (set_nth i v vs).
Proof. intros ps vs i v V P h Ih. apply in_set in Ih. destruct Ih as [E|Ih]; [apply P; congruence|apply V, Ih]. Qed.
Lemma vars_add : forall ps vs v, vars_within ps vs -> (forall h, v = Some h -> h_pool h = true -> h_pos h <> page_nil -> In (h_pos h) ps) -> vars_within ps (vs ++ [v]).
Proof. intros ps vs v V P h Ih. apply in_app_or in Ih. destruct Ih as [Ih|[E|[]]]; [apply V, Ih|apply P; congruence]. Qed.
Lemma nothing_within : forall (ps : list Z) h, Some no_handle = Some h -> h_pool h = true -> h_pos h <> page_nil -> In (h_pos h) ps.
Proof. intros ps h E P. injection E as <-. discriminate P. Qed.
Lemma step_few : forall max ps w o w', (1 <= max)%nat -> (length ps <= max)%nat -> wok max w -> mmap_works o -> alive w < 2 ^ 32 -> asks_within ps [o] -> within ps (w_pool w) -> vars_within ps (w_vars w) ->
  step w o = Some w' -> kept_all (w_pool w) (w_pool w') /\ within ps (w_pool w') /\ vars_within ps (w_vars w').
Proof.
  intros max ps w o w' Hm Hp Wi Mw Al As W V E. unfold wok in *. assert (forall q, cnt q (w_vars w) < 2 ^ 32) as B by (intros q; pose proof (cnt_alive q (w_vars w)); unfold alive in Al; fold is_alive in Al; lia).
  assert (count (w_pool w) <= length (slots (w_pool w)))%nat as Hc by (rewrite (pi_len _ _ _ (wi_pool _ _ _ Wi)); apply (pi_count _ _ _ (wi_pool _ _ _ Wi))).
  destruct o as [pos ok|i ok|i|i j ok|i j ok|i|i]; cbn [step mmap_works] in *.
  - subst ok. rewrite page_new_copy in E. destruct (page_copy _ _ _) as (p & h) eqn:Ec. injection E as <-. cbn [add_var w_pool w_vars].
    destruct (copy_few max ps _ _ {| h_pool := true; h_pos := pos; h_ptr := 0 |} _ _ Hp Wi W (fun _ _ => As pos true (or_introl eq_refl)) Ec) as (K & W1 & P & _). split; [exact K|]. split; [exact W1|]. apply vars_add; [exact V|]. intros x Ex. injection Ex as <-. exact P.
  - subst ok. destruct (var w i) as [h0|] eqn:Ev; [|discriminate]. destruct (page_copy _ _ _) as (p & h) eqn:Ec. injection E as <-. apply var_nth, nth_error_In in Ev. cbn [add_var w_pool w_vars].
    destruct (copy_few max ps _ _ _ _ _ Hp Wi W (V _ Ev) Ec) as (K & W1 & P & _). split; [exact K|]. split; [exact W1|]. apply vars_add; [exact V|]. intros x Ex. injection Ex as <-. exact P.
  - destruct (var w i) as [h|] eqn:Ev; [|discriminate]. cbn [page_move] in E. injection E as <-. cbn [add_var set_var w_pool w_vars]. split; [apply kept_refl|]. split; [exact W|]. apply var_nth, nth_error_In in Ev.
    apply vars_add; [apply vars_set; [exact V|apply nothing_within]|]. intros x Ex. injection Ex as <-. apply V, Ev.
  - destruct (var w i) as [h|] eqn:Ev; [|discriminate]. destruct (var w j) as [h2|] eqn:Evj; [|discriminate]. subst ok.
    destruct (page_unlock (w_pool w) h) as (p1 & h1) eqn:Eu. apply var_nth in Ev. destruct (unlock_var max _ _ i h p1 h1 Wi B Ev Eu) as (W1 & _). destruct (unlock_few ps _ _ _ _ Hc W Eu) as (K1 & S1 & Eq1 & El1).
    set (w1 := set_var w p1 i (Some h1)) in *. destruct (var w1 j) as [o|] eqn:Eo; [|discriminate]. destruct (page_copy (w_pool w1) o true) as (p2 & h') eqn:Ec. injection E as <-. cbn [set_var w_pool w_vars].
    assert (vars_within ps (w_vars w1)) as V1 by (apply vars_set; [exact V|]; intros x Ex; injection Ex as <-; rewrite Eq1, El1; apply V; eapply nth_error_In; exact Ev).
    apply var_nth, nth_error_In in Eo. destruct (copy_few max ps p1 _ _ _ _ Hp W1 S1 (V1 _ Eo) Ec) as (K2 & S2 & P2 & _).
    split; [eapply kept_trans; [exact K1|exact K2]|]. split; [exact S2|]. apply vars_set; [exact V1|]. intros x Ex. injection Ex as <-. exact P2.
  - destruct (var w i) as [h|] eqn:Ev; [|discriminate]. destruct (var w j) as [h2|] eqn:Evj; [|discriminate]. subst ok.
    destruct (page_unlock (w_pool w) h) as (p1 & h1) eqn:Eu. apply var_nth in Ev. destruct (unlock_var max _ _ i h p1 h1 Wi B Ev Eu) as (W1 & _). destruct (unlock_few ps _ _ _ _ Hc W Eu) as (K1 & S1 & Eq1 & El1).
    set (w1 := set_var w p1 i (Some h1)) in *. destruct (var w1 j) as [o|] eqn:Eo; [|discriminate]. destruct (page_copy (w_pool w1) o true) as (p2 & h') eqn:Ec.
    assert (vars_within ps (w_vars w1)) as V1 by (apply vars_set; [exact V|]; intros x Ex; injection Ex as <-; rewrite Eq1, El1; apply V; eapply nth_error_In; exact Ev).
    apply var_nth, nth_error_In in Eo. destruct (copy_few max ps p1 _ _ _ _ Hp W1 S1 (V1 _ Eo) Ec) as (K2 & S2 & P2 & _).
    set (w2 := set_var w1 p2 i (Some h')) in *. assert (vars_within ps (w_vars w2)) as V2 by (apply vars_set; [exact V1|]; intros x Ex; injection Ex as <-; exact P2).
    destruct (var w2 j) as [o2|] eqn:Eo2; [|discriminate]. destruct (page_unlock (w_pool w2) o2) as (p3 & h3) eqn:Eu3. injection E as <-. cbn [set_var w_pool w_vars].
    assert (count p2 <= length (slots p2))%nat as Hc2.
    { pose proof (nth_error_set _ _ _ _ (Some h1) Ev) as Ev1. destruct (unlock_var max _ _ i h p1 h1 Wi B Ev Eu) as (_ & Z1 & _).
      destruct (lock_var max p1 (w_vars w1) i (Some h1) o p2 h' Hm W1) as (W2 & _); [|exact Ev1|intros; apply holder_no; exact Z1|apply (wi_good _ _ _ W1); exact Eo|exact Ec|].
      { apply (room _ _ _ Ev1); [intros; apply holder_no; exact Z1|]. cbn [w1 set_var w_vars]. rewrite (alive_set _ _ _ _ Ev1), (alive_set _ _ _ _ Ev). exact Al. }
      rewrite (pi_len _ _ _ (wi_pool _ _ _ W2)). apply (pi_count _ _ _ (wi_pool _ _ _ W2)). }
    destruct (unlock_few ps p2 _ _ _ Hc2 S2 Eu3) as (K3 & S3 & _).
    split; [eapply kept_trans; [exact K1|eapply kept_trans; [exact K2|exact K3]]|]. split; [exact S3|]. apply vars_set; [exact V2|apply nothing_within].
  - destruct (var w i) as [h|] eqn:Ev; [|discriminate]. unfold page_free in E. destruct (page_unlock (w_pool w) h) as (p1 & h1) eqn:Eu. cbn [fst] in E. injection E as <-. cbn [set_var w_pool w_vars].
    destruct (unlock_few ps _ _ _ _ Hc W Eu) as (K1 & S1 & _). split; [exact K1|]. split; [exact S1|]. apply vars_set; [exact V|apply nothing_within].
  - destruct (var w i) as [h|] eqn:Ev; [|discriminate]. unfold page_destroy in E. destruct (page_unlock (w_pool w) h) as (p1 & h1) eqn:Eu. cbn [fst] in E. injection E as <-. cbn [set_var w_pool w_vars].
    destruct (unlock_few ps _ _ _ _ Hc W Eu) as (K1 & S1 & _). split; [exact K1|]. split; [exact S1|]. apply vars_set; [exact V|discriminate].
Qed.

Lemma run_few : forall max ps l w w', (1 <= max)%nat -> (length ps <= max)%nat -> wok max w -> Forall mmap_works l -> small_from w l -> asks_within ps l -> within ps (w_pool w) -> vars_within ps (w_vars w) ->
  run w l = Some w' -> wok max w' /\ kept_all (w_pool w) (w_pool w') /\ within ps (w_pool w') /\ vars_within ps (w_vars w').
Proof.
  intros max ps. induction l as [|o l IH]; intros w w' Hm Hp Wi Mw F As W V E; cbn [run] in E; [injection E as <-; split; [exact Wi|]; split; [apply kept_refl|auto]|].
  destruct (step w o) as [w1|] eqn:Es; [|discriminate]. inversion Mw as [|? ? Mo Ml]; subst. pose proof (small_tail _ _ _ _ F Es) as F1.
  destruct (step_ok max w o w1 Hm Wi Mo (small_head _ _ F) (small_head _ _ F1) Es) as (W1 & _).
  assert (asks_within ps [o]) as A1 by (intros pos ok [->|[]]; apply (As pos ok); left; reflexivity). assert (asks_within ps l) as A2 by (intros pos ok Iq; apply (As pos ok); right; exact Iq).
  destruct (step_few max ps w o w1 Hm Hp Wi Mo (small_head _ _ F) A1 W V Es) as (K1 & S1 & V1). destruct (IH w1 w' Hm Hp W1 Ml F1 A2 S1 V1 E) as (W2 & K2 & S2 & V2).
  split; [exact W2|]. split; [eapply kept_trans; [exact K1|exact K2]|auto].
Qed.
Lemma deref_asks : forall ps n pos, In pos ps -> asks_within ps (deref_ops n pos).
Proof. intros ps n pos Ip q ok Iq. cbn in Iq. destruct Iq as [E|[E|[E|[E|[]]]]]; try discriminate; injection E as <- _; exact Ip. Qed.
Lemma few_shown : forall max ps l1 l2 w pos w' r w2, (1 <= max)%nat -> (length ps <= max)%nat -> ~ In page_nil ps -> In pos ps -> asks_within ps (l1 ++ l2) ->
  Forall mmap_works (l1 ++ l2) -> few_handles max (l1 ++ deref_ops (length (w_vars w)) pos ++ l2) ->
  run (start max) l1 = Some w -> deref w pos = Some (w', r) -> run w' l2 = Some w2 -> r <> 0 /\ shows w2 r pos.
Proof.
  intros max ps l1 l2 w pos w' r w2 Hm Hp Nn Ip As Mw F E D E2. apply Forall_app in Mw. destruct Mw as (M1 & M2). pose proof (few_small _ _ F) as Fs.
  assert (asks_within ps l1) as A1 by (intros q ok Iq; apply (As q ok); apply in_or_app; auto). assert (asks_within ps l2) as A2 by (intros q ok Iq; apply (As q ok); apply in_or_app; auto).
  assert (small_from (start max) l1) as F0 by (intros a c x El Ex; apply (Fs a (c ++ deref_ops (length (w_vars w)) pos ++ l2)); [rewrite El, <- app_assoc; reflexivity|exact Ex]).
  destruct (run_few max ps l1 (start max) w Hm Hp (proj1 (start_ok max)) M1 F0 A1) as (W0 & _ & S0 & V0); [intros s []|intros h []|exact E|].
  assert (few_handles max (l1 ++ deref_ops (length (w_vars w)) pos)) as F1 by (intros a c x El Ex; apply (F a (c ++ l2) x); [rewrite (app_assoc l1), El, <- app_assoc; reflexivity|exact Ex]).
  assert (small_from w (deref_ops (length (w_vars w)) pos)) as Fd.
  { intros a c x El Ex. apply (F1 (l1 ++ a) c); [rewrite El, <- app_assoc; reflexivity|]. rewrite run_app, E. exact Ex. }
  destruct (deref_run _ _ _ _ D) as (Er & w1 & h & R1 & Ev & Eh & R2).
  destruct (run_few max ps _ w w' Hm Hp W0 (deref_works _ _) Fd (deref_asks _ _ _ Ip) S0 V0 Er) as (W1 & K1 & S1 & V1).
  assert (small_from w' l2) as F2.
  { intros a c x El Ex. apply (Fs (l1 ++ deref_ops (length (w_vars w)) pos ++ a) c); [rewrite El, <- !app_assoc; reflexivity|]. rewrite run_app, E, run_app, Er. exact Ex. }
  destruct (run_few max ps l2 w' w2 Hm Hp W1 M2 F2 A2 S1 V1 E2) as (W2 & K2 & _ & _).
  assert (r <> 0) as Nz.
  { subst r. cbn [firstn deref_ops run] in R1. destruct (step w (New pos true)) as [a|] eqn:Ea; [|discriminate]. destruct (step a (New pos true)) as [c|] eqn:Ec; [|discriminate]. destruct (step c (Destroy (length (w_vars w)))) as [d|] eqn:Ed; [|discriminate].
    injection R1 as <-. assert (small_from a (tl (deref_ops (length (w_vars w)) pos))) as Fa by (apply (small_tail _ _ _ _ Fd Ea)).
    destruct (step_ok max w (New pos true) a Hm W0 eq_refl (small_head _ _ Fd) (small_head _ _ Fa) Ea) as (Wa & _).
    assert (asks_within ps [New pos true]) as An by (intros q ok [Eq|[]]; injection Eq as <- _; exact Ip).
    destruct (step_few max ps w (New pos true) a Hm Hp W0 eq_refl (small_head _ _ Fd) An S0 V0 Ea) as (_ & Sa & Va).
    pose proof (step_new _ _ _ Ea) as (ha & Vea & _). cbn [step] in Ec. rewrite page_new_copy in Ec. destruct (page_copy _ _ _) as (p & h2) eqn:Eh2.
    destruct (copy_few max ps _ _ {| h_pool := true; h_pos := pos; h_ptr := 0 |} _ _ Hp Wa Sa (fun _ _ => Ip) Eh2) as (_ & _ & _ & Nz). assert (h_ptr h2 <> 0) as N2 by (apply Nz; [reflexivity|cbn [h_pos]; intros ->; contradiction]).
    injection Ec as <-. apply step_destroy in Ed. apply var_nth in Ev. rewrite Ed in Ev. cbn [add_var w_vars] in Ev. rewrite Vea, <- app_assoc in Ev. cbn [app] in Ev. rewrite set_nth_app in Ev.
    rewrite nth_error_app2 in Ev by lia. replace (S (length (w_vars w)) - length (w_vars w))%nat with 1%nat in Ev by lia. cbn in Ev. injection Ev as ->. exact N2. }
  split; [exact Nz|]. destruct (at_once max l1 w pos w' r Hm M1 F1 E D Nz) as (s & Is & Es & Et). destruct (K2 s Is) as (x & Ix & Ep & Ex). unfold shows. rewrite <- Et, <- Es, <- Ep, <- Ex. apply (mapped_shows max _ _ x (wi_pool _ _ _ W2) Ix).
Qed.
