(** Containers without a log: C49. *)

From Coq Require Import ZArith List Bool Lia.
From Verif Require Import Base Cache_Model Linked_Model Cont_Model Cont_Spec Linked_Proofs Cont_Proofs Cont_Steps Cont_Runs Nolog_Model Nolog_Spec.
Import ListNotations.
Open Scope Z_scope.

Lemma with_log {A} ts (h : list (Z * op A)) : forall m, lcalls true ts m h = LRes (calls ts m h).
Proof.
  assert (I : forall t c m i (x : A), lg_insert true t c m i x = LRes (c_insert t c m i x)).
  { intros. unfold lg_insert, lg_insert_nostate, lg_insert_empty, lg_insert_nonempty, lg_insert_with_overflow, lg_insert_page_after, put_any. cbn [lbind]. unfold c_insert.
    destruct (_ && _); [reflexivity|]. destruct (_ && _); [reflexivity|].
    destruct (i_page i =? page_nil); destruct (snd (alloc_page m) =? page_nil); cbn [lbind]; try reflexivity; destruct (p_cnt _ =? t_cap t); reflexivity. }
  induction h as [|[c o] h IH]; intro m; [reflexivity|]. cbn [lcalls calls].
  assert (E : lcall true (ts c) c m o = LRes (call (ts c) c m o)).
  { destruct o; cbn; unfold lg_push_back, lg_push_front, c_push_back, c_push_front; rewrite ?I; reflexivity. }
  rewrite E. cbn. destruct (call (ts c) c m o) as [[m' out]|]; auto. rewrite IH. reflexivity.
Qed.

Lemma page_le {A} (ps : list (Z * list A)) u p i v : ps = u ++ (p, i) :: v -> zl i <= zl (flat ps).
Proof. intros ->. rewrite flat_app, flat_cons, !zl_app. pose proof (zl_pos (flat u)). pose proof (zl_pos (flat v)). lia. Qed.

Lemma insert_small {A} ts (m : mem A) L c i l r x : Inv ts m L -> c <> 0 -> between m L c i l r -> zl (flat (L c)) < t_cap (ts c) ->
  lg_insert false (ts c) c m i x = LRes (c_insert (ts c) c m i x).
Proof.
  intros [Wm G C T R] Hc Hb Hz. unfold lg_insert.
  destruct ((i_page i =? page_nil) && (negb (i_item i =? item_nil) || negb (c_empty c m))) eqn:E1; [unfold c_insert; rewrite E1; reflexivity|].
  destruct ((i_item i =? item_nil) && (negb (i_page i =? back (sts m c)) && negb (edge_eqb (i_edge i) E_end))) eqn:E2; [unfold c_insert; rewrite E1, E2; reflexivity|].
  unfold lg_insert_nostate. destruct (i_page i =? page_nil) eqn:Ep.
  { unfold lg_insert_empty, lg_insert_page_after. rewrite Z.eqb_refl. destruct (snd (alloc_page m) =? page_nil); reflexivity. }
  unfold lg_insert_nonempty.
  assert (K : p_cnt (pages m (i_page i)) < t_cap (ts c)).
  { apply Z.eqb_neq in Ep. destruct Hb as [(-> & _ & _)|(u & p & a & y & b & v & EL & -> & _)].
    - unfold c_end in *. cbn [i_page] in *. destruct (ends_case (L c)) as [E|(u & [p its] & E)].
      + exfalso. apply Ep. rewrite (W_states _ _ _ _ Wm Hc), E. reflexivity.
      + rewrite (W_states _ _ _ _ Wm Hc) in *. rewrite E in *. cbn [back] in *. rewrite pgs_app in *. cbn [pgs map fst] in *. rewrite last_last in *.
        destruct (page_items _ _ _ _ _ _ _ _ Wm Hc E) as (-> & _). assert (Hp := page_le _ u p its [] eq_refl). unfold zl in *. lia.
    - cbn [i_page]. destruct (page_items _ _ _ _ _ _ _ _ Wm Hc EL) as (-> & _). pose proof (page_le _ _ _ _ _ EL). unfold zl in *. lia. }
  destruct (Z.eqb_spec (p_cnt (pages m (i_page i))) (t_cap (ts c))); [lia|]. reflexivity.
Qed.

Lemma small_run {A} ts (h : list (Z * op A)) : forall m L s outs m', Inv ts m L -> (forall c, c <> 0 -> s c = flat (L c)) ->
  Forall (fun e => fst e <> 0 /\ permitted (ts (fst e)) (snd e)) h -> calls ts m h = Some (m', outs) -> one_page ts s h outs ->
  lcalls false ts m h = LRes (Some (m', outs)).
Proof.
  induction h as [|[c o] h IH]; intros m L s outs m' I Hs Hh E Ho; [cbn in *; congruence|].
  inversion Hh as [|? ? [Hc Hp] Hh']; subst. cbn [fst snd] in Hc, Hp. cbn [calls] in E.
  destruct (call_step ts m L c o I Hc Hp) as (m1 & out & L1 & l1 & E1 & I1 & Id & F1 & O1 & _). rewrite E1 in E.
  destruct (calls ts m1 h) as [[m2 outs1]|] eqn:E2; [|discriminate]. injection E as <- <-.
  cbn [one_page] in Ho. rewrite (Hs c Hc), Id in Ho. destruct Ho as (Ho & Ho').
  pose proof I as [Wm G C T R]. pose proof (C c Hc) as Hcap.
  assert (BT : forall k, between m L c (itr_at m c k) (firstn k (flat (L c))) (skipn k (flat (L c)))) by (intro k; eapply (itr_between m L [] c (t_cap (ts c))); eauto; lia).
  assert (E3 : lcall false (ts c) c m o = LRes (Some (m1, out))).
  { rewrite <- E1. destruct o; cbn [lcall call]; unfold lg_push_back, lg_push_front, c_push_back, c_push_front, lg_erase; try reflexivity.
    - rewrite (insert_small ts m L c _ (flat (L c)) []); auto. left. auto.
    - rewrite (insert_small ts m L c _ _ _ _ I Hc (BT O) Ho). auto.
    - rewrite (insert_small ts m L c _ _ _ _ I Hc (BT k) Ho). auto. }
  cbn [lcalls]. rewrite E3. cbn [lbind].
  rewrite (IH m1 L1 (upd s c l1) outs1 m2 I1) ; auto.
  intros d Hd. rewrite upd_eq. destruct (Z.eqb_spec d c); [subst; auto|]. rewrite O1 by auto. auto.
Qed.

(** With a log, calls give what C38 to C43 are about. *)
Theorem C49_with_log : forall A ts h (m : mem A), lcalls true ts m h = LRes (calls ts m h).
Proof. intros. apply with_log. Qed.
Print Assumptions C49_with_log.

(** Without a log, every history of calls on lists in which no list outgrows a page gives the same results.  What is
    missing: lists of more than a page, and reading (the refutations below). *)
Theorem C49_one_page_partial : forall A (zero : A) room size h m outs,
  2 <= room <= 2 ^ 51 -> (forall c, 1 <= size c <= 2034) -> Forall (fun e => fst e <> 0) h ->
  let ts := fun c => list_of (size c) in
  calls ts (cont_mem zero room) h = Some (m, outs) -> one_page ts empties h outs ->
  lcalls false ts (cont_mem zero room) h = LRes (Some (m, outs)).
Proof.
  intros A zero rm size h m outs Hr Hs Hh ts E Ho.
  assert (Hcap : forall c, 2 <= t_cap (ts c) <= 4069). { intro c. unfold ts, list_of, list_type. cbn [t_cap]. specialize (Hs c). unfold page_capacity. split; [apply Z.div_le_lower_bound; lia|]. apply Z.div_le_upper_bound; lia. }
  apply (small_run ts h (cont_mem zero rm) (fun _ => []) empties outs m); auto.
  - apply start_Inv; [exact Hr|]. intros c _. specialize (Hcap c). lia.
  - eapply Forall_impl; [|exact Hh]. intros [c o] Hc. split; [exact Hc|]. cbn [snd fst].
    pose proof (list_flags (size c) (Hs c)). destruct o; cbn [permitted]; auto.
Qed.
Print Assumptions C49_one_page_partial.

(** Items of 1000 bytes, four on a page. *)
Definition h49 : list (Z * op Z) := [(1, PushBack 5); (1, PushFront 6); (2, PushBack 1); (1, Insert 1 7); (1, PushBack 8); (1, Erase 2); (2, PopFront); (2, PopFront); (1, PushFront 9)].
Example C49_example :
  match calls (fun c => list_of 1000) (cont_mem 0 100) h49 with
  | Some (m, outs) => one_page (fun c => list_of 1000) empties h49 outs /\ c_size 1 m = 4 /\ outs = [Done; Done; Done; Done; Done; Done; Done; Threw; Done]
  | None => False
  end /\ match lcalls false (fun c => list_of 1000) (cont_mem 0 100) h49 with LRes (Some (m, _)) => c_size 1 m = 4 | _ => False end.
Proof. vm_compute. repeat split. Qed.

Lemma push_in_page {A} t (m m' : mem A) c p x r : sts m c = mkState p p -> p <> page_nil -> 1 <= p_cnt (pages m p) < t_cap t -> t_cap t <= 4069 ->
  c_push_back t c m x = COk (m', r) -> sts m' c = mkState p p /\ p_cnt (pages m' p) = p_cnt (pages m p) + 1.
Proof.
  intros St Hp Hn Ht E. unfold c_push_back, c_insert, c_end in E. cbn [i_page i_item i_edge] in E. rewrite St in E. cbn [back front] in E.
  apply Z.eqb_neq in Hp. rewrite Hp, Z.eqb_refl in E. cbn [andb negb edge_eqb] in E. rewrite Bool.andb_false_r in E. cbn [andb] in E.
  unfold insert_nostate, insert_nonempty in E. cbn [i_page] in E. rewrite Hp in E.
  destruct (Z.eqb_spec (p_cnt (pages m p)) (t_cap t)); [lia|].
  unfold insert_with_capacity in E. cbn [i_page i_item] in E. rewrite Z.eqb_refl, Z.sub_diag in E. cbn [Z.ltb orb andb Z.compare] in E.
  destruct (Z.leb_spec (t_cap t) (p_cnt (pages m p))); [lia|]. cbn [cbind r_itr i_ok r_l0 no_lead ld_page] in E.
  set (m1 := set_arr _ _ _) in E. assert (S1 : sts m1 c = mkState p p) by exact St.
  assert (C1 : p_cnt (pages m1 p) = p_cnt (pages m p) + 1). { unfold m1. rewrite cnt_set_arr, cnt_set_cnt, Z.eqb_refl. unfold wrap_u16. rewrite Z.mod_small; lia. }
  clearbody m1. rewrite S1 in E. cbn [front back] in E. rewrite Hp in E. rewrite S1 in E. cbn [back] in E. rewrite Hp in E.
  rewrite Z.eqb_refl in E. cbn [andb negb] in E. rewrite ?Z.eqb_refl in E. cbn [negb] in E. injection E as <- <-. split; [exact S1|exact C1].
Qed.

Lemma grow {A} ts (x : A) c : c <> 0 -> forall k n p m L, Inv ts m L -> sts m c = mkState p p -> p <> page_nil -> p_cnt (pages m p) = n -> 1 <= n -> n + Z.of_nat k = t_cap (ts c) ->
  fsize m + Z.of_nat k + 1 < room m ->
  (exists m', calls ts m (repeat (c, PushBack x) (S k)) = Some (m', repeat Done (S k))) /\ lcalls false ts m (repeat (c, PushBack x) (S k)) = NullLog.
Proof.
  intro Hc. induction k as [|k IH]; intros n p m L I St Hp Hn H1 Hk Hf; pose proof I as [Wm G C T R]; pose proof (C c Hc) as Hcap;
    destruct (call_step ts m L c (PushBack x) I Hc Logic.I) as (m1 & out & L1 & l1 & E1 & I1 & Id & F1 & O1 & S1 & R1 & Fu);
    assert (out = Done) as -> by (destruct out; auto; [specialize (Fu eq_refl); lia|discriminate]).
  - cbn [repeat calls lcalls]. split; [rewrite E1; exists m1; reflexivity|]. cbn [lcall]. unfold lg_push_back, lg_insert, c_end. cbn [i_page i_item i_edge]. rewrite St. cbn [back].
    destruct (Z.eqb_spec p page_nil); [congruence|]. rewrite Z.eqb_refl. cbn [andb negb]. rewrite Bool.andb_false_r. unfold lg_insert_nostate, lg_insert_nonempty. cbn [i_page].
    destruct (Z.eqb_spec p page_nil); [congruence|]. destruct (Z.eqb_spec (p_cnt (pages m p)) (t_cap (ts c))); [|lia].
    unfold lg_insert_with_overflow, lg_insert_page_after. cbn [i_page]. destruct (alloc_W m L Wm) as (m2 & q & Ea & _ & Sz & K & _). rewrite Ea. cbn [snd].
    destruct (Z.eqb_spec q page_nil); [destruct K as [(_ & _ & K)|(K & _)]; [lia|congruence]|]. destruct (Z.eqb_spec p page_nil); [congruence|]. reflexivity.
  - assert (E2 : lcall false (ts c) c m (PushBack x) = LRes (Some (m1, Done)) /\ sts m1 c = mkState p p /\ p_cnt (pages m1 p) = n + 1).
    { cbn [call] in E1. cbn [lcall]. unfold lg_push_back, lg_insert, c_end. cbn [i_page i_item i_edge]. rewrite St. cbn [back].
      destruct (Z.eqb_spec p page_nil); [congruence|]. rewrite Z.eqb_refl. cbn [andb negb]. rewrite Bool.andb_false_r. unfold lg_insert_nostate, lg_insert_nonempty. cbn [i_page].
      destruct (Z.eqb_spec p page_nil); [congruence|]. destruct (Z.eqb_spec (p_cnt (pages m p)) (t_cap (ts c))); [lia|]. cbn [lbind].
      assert (Ec : mkI true p item_nil E_end = c_end c m) by (unfold c_end; rewrite St; reflexivity). rewrite Ec. change (c_insert (ts c) c m (c_end c m) x) with (c_push_back (ts c) c m x).
      rewrite E1. split; [reflexivity|]. unfold observe in E1. destruct (c_push_back (ts c) c m x) as [[m2 r]| | |] eqn:E; try discriminate. injection E1 as <- _.
      rewrite <- Hn. eapply push_in_page; eauto; lia. }
    destruct E2 as (E2 & St1 & Hn1). destruct (IH (n + 1) p m1 L1 I1 St1 Hp Hn1) as ((m' & E3) & E4); [lia|lia|lia|].
    change (repeat (c, PushBack x) (S (S k))) with ((c, PushBack x) :: repeat (c, PushBack x) (S k)). set (h := repeat (c, PushBack x) (S k)) in *. clearbody h.
    cbn [calls lcalls]. rewrite E1, E2. cbn [lbind]. rewrite E3, E4. split; [exists m'; reflexivity|reflexivity].
Qed.

(** Without a log, every list is lost when it outgrows its first page: with a log, all insertions of one item more
    than a page holds succeed; without one, the last of them calls a null log. *)
Theorem C49_grow_refuted : forall A (zero x : A) room size c, 1 <= size <= 2034 -> 6000 <= room <= 2 ^ 51 -> c <> 0 ->
  let n := S (Z.to_nat (page_capacity size)) in
  (exists m, calls (fun _ => list_of size) (cont_mem zero room) (repeat (c, PushBack x) n) = Some (m, repeat Done n)) /\
  lcalls false (fun _ => list_of size) (cont_mem zero room) (repeat (c, PushBack x) n) = NullLog.
Proof.
  intros A zero x rm size c Hs Hr Hc. assert (Hcap : 2 <= page_capacity size <= 4069). { unfold page_capacity. split; [apply Z.div_le_lower_bound; lia|]. apply Z.div_le_upper_bound; lia. }
  destruct (Z.to_nat (page_capacity size)) as [|k] eqn:Ek; [lia|]. set (ts := fun _ : Z => list_of size).
  assert (I : Inv ts (cont_mem zero rm) (fun _ => [])) by (apply start_Inv; [lia|intros; cbn; lia]).
  destruct (call_step ts _ _ c (PushBack x) I Hc Logic.I) as (m1 & out & L1 & l1 & E1 & I1 & Id & F1 & O1 & S1 & R1 & Fu).
  change (fsize (cont_mem zero rm)) with 2 in S1. change (room (cont_mem zero rm)) with rm in *.
  assert (out = Done) as -> by (destruct out; auto; [specialize (Fu eq_refl); lia|discriminate]). cbn in Id. injection Id as <-.
  assert (exists p, L1 c = [(p, [x])]) as (p & EL).
  { pose proof (n_good _ _ _ I1 c Hc) as G. destruct (L1 c) as [|[p i] [|[q j] v]] eqn:E; [discriminate| |].
    - exists p. cbn in F1. rewrite app_nil_r in F1. subst i. reflexivity.
    - exfalso. destruct (page_good L1 c _ (n_good _ _ _ I1 c Hc) [] p i _ E) as (Hi & _). destruct (page_good L1 c _ (n_good _ _ _ I1 c Hc) [(p, i)] q j v E) as (Hj & _).
      cbn in F1. destruct i as [|y i]; [congruence|]. destruct j as [|z j]; [congruence|]. cbn in F1. injection F1 as _ F1. destruct i; discriminate. }
  pose proof (n_W _ _ _ I1) as W1.
  assert (St : sts m1 c = mkState p p) by (rewrite (W_states _ _ _ _ W1 Hc), EL; reflexivity).
  destruct (page_items _ _ _ _ [] _ _ _ W1 Hc EL) as (Hn & _). destruct (page_bnd _ _ _ _ [] _ _ _ W1 Hc EL) as (_ & Hp).
  destruct (grow ts x c Hc k 1 p m1 L1 I1 St) as ((m & E2) & E3); [lia|rewrite Hn; reflexivity|lia|change (t_cap (ts c)) with (page_capacity size); lia|lia|].
  cbv zeta. change (repeat (c, PushBack x) (S (S k))) with ((c, PushBack x) :: repeat (c, PushBack x) (S k)). fold ts in E2, E3 |- *. set (h := repeat (c, PushBack x) (S k)) in *. clearbody h. cbn [calls lcalls].
  change (call (list_of size) c (cont_mem zero rm) (PushBack x)) with (call (ts c) c (cont_mem zero rm) (PushBack x)).
  split; [exists m; rewrite E1; fold ts; rewrite E2; reflexivity|].
  assert (E4 : lcall false (ts c) c (cont_mem zero rm) (PushBack x) = LRes (Some (m1, Done))).
  { rewrite <- E1. cbn [lcall call]. unfold lg_push_back. rewrite (insert_small ts _ _ c _ [] [] x I Hc); [reflexivity|left; auto|cbn; lia]. }
  change (list_of size) with (ts c). rewrite E4. cbn [lbind]. fold ts. rewrite E3. reflexivity.
Qed.
Print Assumptions C49_grow_refuted.

(** Without a log, nothing can be read: front() and back() of every list with items, after every history, and ++ and
    -- of every iterator call a null log. *)
Theorem C49_read_refuted : forall A (zero : A) room size h m outs s c,
  2 <= room <= 2 ^ 51 -> (forall d, 1 <= size d <= 2034) -> Forall (fun e => fst e <> 0) h -> c <> 0 ->
  calls (fun d => list_of (size d)) (cont_mem zero room) h = Some (m, outs) -> ideals empties h outs = Some s ->
  s c <> [] -> lg_front false c m = NullLog /\ lg_back false c m = NullLog /\ (forall i, lg_next false c m i = NullLog /\ lg_prev false c m i = NullLog) /\
  lg_front true c m = LRes (hd_error (s c)) /\ lg_back true c m = LRes (last_item (s c)).
Proof.
  intros A zero rm size h m outs s c Hr Hs Hh Hc E Es Hn. set (ts := fun d => list_of (size d)) in *.
  destruct (runs_start zero rm ts size h Hr) as (m0 & outs0 & s0 & L & E0 & Ei & Hi & Ef & Er & _).
  { intro d. split; [left; auto|]. specialize (Hs d). lia. }
  { eapply Forall_impl; [|exact Hh]. intros [d o] Hd. split; [exact Hd|]. left. split; [reflexivity|apply Hs]. }
  rewrite E in E0. injection E0 as <- <-. rewrite Es in Ei. injection Ei as <-.
  pose proof (Inv_shows _ _ _ c Hi Hc) as (_ & _ & Hf & Hb & _). rewrite <- (Ef c Hc) in Hf, Hb.
  unfold c_front in Hf. unfold c_back in Hb. unfold lg_front, lg_back, lg_deref. rewrite Hf, Hb.
  assert (Hl : exists y, last_item (s c) = Some y). { unfold last_item. destruct (rev (s c)) as [|y l] eqn:El; [|exists y; reflexivity]. exfalso. apply Hn. rewrite <- (rev_involutive (s c)), El. reflexivity. }
  destruct Hl as (y & ->). destruct (s c) as [|z l]; [congruence|]. cbn. auto 6.
Qed.
Print Assumptions C49_read_refuted.
Example C49_read_example : match calls (fun c => list_of 1000) (cont_mem 0 100) h49 with
  | Some (m, outs) => match ideals empties h49 outs with Some s => s 1 = [9; 6; 7; 8] | None => False end /\ lg_front true 1 m = LRes (Some 9) /\ lg_front false 1 m = NullLog
  | None => False
  end.
Proof. vm_compute. repeat split. Qed.
