(** C112: insertion into a list of an item that is given by a reference into a list of the same pool: l.insert(itr, *s),
    l.push_back(l.front()) and the like.  [h] is any history of calls on lists; [shows], [itr_at] and [insert_at] are
    those of C38 and C41.  The page of the item is assumed to stay mapped (C111). *)

From Coq Require Import ZArith List Bool Lia.
From Verif Require Import Base Cache_Model Linked_Model Linked_Proofs Cont_Model Cont_Spec Cont_Proofs Cont_Steps Cont_Erase Cont_Inner Cont_Runs Cont_Props Alias_Model Alias_Spec Alias_Proofs.
Import ListNotations.
Open Scope Z_scope.

(** What is inserted, for all lists, places and items: the item, unless it is [moved_away]; then the item before it. *)
Theorem C112_exact : forall A (zero : A) room size h m outs c d k j l,
  2 <= room <= 2 ^ 51 -> (forall c, 1 <= size c <= 2034) -> Forall (fun e => fst e <> 0) h ->
  calls (fun c => list_of (size c)) (cont_mem zero room) h = Some (m, outs) -> c <> 0 -> d <> 0 -> shows m d l -> (j < length l)%nat ->
  exists x m' r lc, nth_error l (if moved_away (list_of (size c)) m (itr_at m c k) (itr_at m d j) then j - 1 else j) = Some x /\
    c_insert_item (list_of (size c)) c m (itr_at m c k) (itr_at m d j) = COk (m', r) /\ shows m c lc /\
    (r_itr r = itr_at m' c (Nat.min k (length lc)) /\ c_deref m' (r_itr r) = Some x /\ shows m' c (insert_at k x lc) \/
     r_itr r = c_end c m' /\ fsize m' = room /\ shows m' c lc).
Proof.
  intros A zero rm size h m outs c d k j l Hr Hs Hh E Hc Hd Sh Hj.
  destruct (runs_start zero rm (fun c => list_of (size c)) size h Hr) as (m0 & outs0 & s & L & E0 & Ei & Hi & Ef & Er & N).
  { intro z. split; [left; auto|]. specialize (Hs z). lia. }
  { eapply Forall_impl; [|exact Hh]. intros [z o] Hz. split; [exact Hz|]. left. split; [reflexivity|apply Hs]. }
  rewrite E in E0. injection E0 as <- <-. pose proof Hi as [Wm G C T R]. pose proof (C d Hd) as Hcap.
  rewrite (shown_list _ _ _ _ _ Hi Hd Sh) in Hj |- *.
  destruct (locate (L d) j Hj) as (u & p & a & y & b & v & ED & Ej).
  assert (itr_at m d j = mkI true p (zl a) E_none) as Es by exact (itr_loc m L [] d _ Wm Hd (G d Hd) ltac:(lia) _ _ _ _ _ _ _ ED Ej).
  pose proof (value (fun c => list_of (size c)) m L c d k u p a y b v Hi Hc Hd (list_flags _ (Hs c)) ED) as V. cbn beta in V. rewrite <- Es in V.
  pose proof (page_items _ _ _ _ _ _ _ _ Wm Hd ED) as (_ & It). pose proof (tab_nth _ _ _ _ It) as Vy. fold (zl a) in Vy.
  set (f := moved_away (list_of (size c)) m (itr_at m c k) (itr_at m d j)) in *.
  assert (exists x, nth_error (flat (L d)) (if f then j - 1 else j) = Some x /\ item_of (itr_at m d j) (at_copy (list_of (size c)) c m (itr_at m c k)) = x) as (x & Ex & Vx).
  { rewrite V. destruct f eqn:Ff.
    - assert (0 < zl a) as Pa.
      { unfold f, moved_away in Ff. apply andb_true_iff in Ff. destruct Ff as (Ff & _). apply andb_true_iff in Ff. destruct Ff as (Ff & F2). rewrite Es in F2. cbn [i_item] in F2. apply Z.ltb_lt in F2.
        assert (0 <= i_item (itr_at m c k)); [|lia]. destruct (Nat.lt_ge_cases k (length (flat (L c)))) as [Hk|Hk].
        - destruct (locate (L c) k Hk) as (u1 & p1 & a1 & y1 & b1 & v1 & EL & Ek). pose proof (C c Hc) as Hcap'. rewrite (itr_loc m L [] c _ Wm Hc (G c Hc) ltac:(lia) _ _ _ _ _ _ _ EL Ek). cbn [i_item]. apply zl_pos.
        - pose proof (C c Hc) as Hcap'. rewrite (itr_end m L [] c _ Wm Hc (G c Hc) ltac:(lia) _ Hk). cbn. unfold item_nil. lia. }
      destruct (ends_case a) as [->|(a0 & z & ->)]; [cbn in Pa; lia|]. exists z. rewrite <- app_assoc in It. cbn [app] in It. pose proof (tab_nth _ _ _ _ It) as Vz.
      replace (zl (a0 ++ [z]) - 1) with (Z.of_nat (length a0)) by (rewrite zl_app; unfold zl; cbn [length]; lia). split; [|exact Vz].
      rewrite ED, flat_app. cbn [flat map concat snd]. rewrite <- !app_assoc. cbn [app]. rewrite app_assoc. rewrite !app_length in Ej. cbn [length] in Ej.
      rewrite nth_error_app2 by (rewrite app_length; lia). rewrite app_length. replace (j - 1 - (length (flat u) + length a0))%nat with O by lia. reflexivity.
    - exists y. split; [|exact Vy]. rewrite ED, flat_app. cbn [flat map concat snd]. rewrite <- !app_assoc. cbn [app]. rewrite app_assoc, nth_error_app2 by lia. rewrite Ej, Nat.sub_diag. reflexivity. }
  destruct (C41_insert A zero rm size h m outs c k x Hr Hs Hh E Hc) as (m' & r & lc & E1 & S1 & K).
  exists x, m', r, lc. split; [exact Ex|]. split; [rewrite insert_item, Vx; exact E1|]. split; [exact S1|exact K].
Qed.
(** Items of other lists, and items at or before the place of the insertion, are inserted as they are; so is every item
    that is put at the end, and push_front(front()).
    Partial: items behind the place on the same page; C112_refuted. *)
Theorem C112_before_partial : forall A (zero : A) room size h m outs c d k j l x,
  2 <= room <= 2 ^ 51 -> (forall c, 1 <= size c <= 2034) -> Forall (fun e => fst e <> 0) h ->
  calls (fun c => list_of (size c)) (cont_mem zero room) h = Some (m, outs) -> c <> 0 -> d <> 0 -> shows m d l -> nth_error l j = Some x ->
  c <> d \/ (j <= k)%nat ->
  exists m' r lc, c_insert_item (list_of (size c)) c m (itr_at m c k) (itr_at m d j) = COk (m', r) /\ shows m c lc /\
    (r_itr r = itr_at m' c (Nat.min k (length lc)) /\ c_deref m' (r_itr r) = Some x /\ shows m' c (insert_at k x lc) \/
     r_itr r = c_end c m' /\ fsize m' = room /\ shows m' c lc).
Proof.
  intros A zero rm size h m outs c d k j l x Hr Hs Hh E Hc Hd Sh Nj Ho.
  assert (Hj : (j < length l)%nat) by (apply nth_error_Some; congruence).
  destruct (C112_exact A zero rm size h m outs c d k j l Hr Hs Hh E Hc Hd Sh Hj) as (y & m' & r & lc & Ny & E1 & S1 & K).
  assert (moved_away (list_of (size c)) m (itr_at m c k) (itr_at m d j) = false) as Nm.
  { destruct (runs_start zero rm (fun c => list_of (size c)) size h Hr) as (m0 & outs0 & s & L & E0 & Ei & Hi & Ef & Er & N).
    { intro z. split; [left; auto|]. specialize (Hs z). lia. }
    { eapply Forall_impl; [|exact Hh]. intros [z o] Hz. split; [exact Hz|]. left. split; [reflexivity|apply Hs]. }
    rewrite E in E0. injection E0 as <- <-. rewrite (shown_list _ _ _ _ _ Hi Hd Sh) in Hj. exact (not_moved _ _ _ _ _ _ _ Hi Hc Hd Hj Ho). }
  rewrite Nm in Ny. rewrite Nj in Ny. injection Ny as <-. exists m', r, lc. auto.
Qed.
(** l.push_back( *s) appends a copy of the item for every item of every list of the pool. *)
Theorem C112_push_back : forall A (zero : A) room size h m outs c d j l x,
  2 <= room <= 2 ^ 51 -> (forall c, 1 <= size c <= 2034) -> Forall (fun e => fst e <> 0) h ->
  calls (fun c => list_of (size c)) (cont_mem zero room) h = Some (m, outs) -> c <> 0 -> d <> 0 -> shows m d l -> nth_error l j = Some x ->
  exists m' r lc, c_push_back_item (list_of (size c)) c m (itr_at m d j) = COk (m', r) /\ shows m c lc /\
    (shows m' c (lc ++ [x]) /\ c_deref m' (r_itr r) = Some x \/ r_itr r = c_end c m' /\ fsize m' = room /\ shows m' c lc).
Proof.
  intros A zero rm size h m outs c d j l x Hr Hs Hh E Hc Hd Sh Nj.
  destruct (runs_start zero rm (fun c => list_of (size c)) size h Hr) as (m0 & outs0 & s & L & E0 & Ei & Hi & Ef & Er & N).
  { intro z. split; [left; auto|]. specialize (Hs z). lia. }
  { eapply Forall_impl; [|exact Hh]. intros [z o] Hz. split; [exact Hz|]. left. split; [reflexivity|apply Hs]. }
  rewrite E in E0. injection E0 as <- <-. pose proof Hi as [Wm G C _ _]. pose proof (C c Hc) as Hcap.
  assert (Hj : (j < length l)%nat) by (apply nth_error_Some; congruence).
  set (k := Nat.max j (length (flat (L c)))). assert (length (flat (L c)) <= k)%nat as Hk by (unfold k; lia).
  assert (itr_at m c k = c_end c m) as Ek by exact (itr_end m L [] c _ Wm Hc (G c Hc) ltac:(lia) _ Hk).
  destruct (C112_before_partial A zero rm size h m outs c d k j l x Hr Hs Hh E Hc Hd Sh Nj (or_intror (Nat.le_max_l _ _))) as (m' & r & lc & E1 & S1 & K).
  exists m', r, lc. unfold c_push_back_item. rewrite <- Ek at 1. split; [exact E1|]. split; [exact S1|]. destruct K as [(_ & D & Sk)|K]; [left|right; exact K]. split; [|exact D].
  rewrite (shown_list _ _ _ _ _ Hi Hc S1) in Sk |- *. unfold insert_at in Sk. rewrite firstn_all2, skipn_all2 in Sk by lia. exact Sk.
Qed.
(** push_front(back()) and insertion in the middle put a copy of another item into the list; also when the page is full. *)
Theorem C112_refuted : exists h1 m1 o1 m1' r1 h2 m2 o2 m2' r2,
  calls (fun c => list_of 1000) (cont_mem 0 100) h1 = Some (m1, o1) /\ shows m1 1 [1; 2; 3] /\
  c_push_front_item (list_of 1000) 1 m1 (itr_at m1 1 2) = COk (m1', r1) /\ shows m1' 1 [2; 1; 2; 3] /\
  calls (fun c => list_of 1000) (cont_mem 0 100) h2 = Some (m2, o2) /\ shows m2 1 [1; 2; 3; 4] /\
  c_insert_item (list_of 1000) 1 m2 (itr_at m2 1 1) (itr_at m2 1 2) = COk (m2', r2) /\ shows m2' 1 [1; 2; 2; 3; 4].
Proof.
  pose (h1 := [(1, PushBack 1); (1, PushBack 2); (1, PushBack 3)] : list (Z * op Z)).
  pose (h2 := [(1, PushBack 1); (1, PushBack 2); (1, PushBack 3); (1, PushBack 4)] : list (Z * op Z)).
  pose (c1 := calls (fun c => list_of 1000) (cont_mem 0 100) h1). pose (e1 := c_push_front_item (list_of 1000) 1 (mem_of c1) (itr_at (mem_of c1) 1 2)).
  pose (c2 := calls (fun c => list_of 1000) (cont_mem 0 100) h2). pose (e2 := c_insert_item (list_of 1000) 1 (mem_of c2) (itr_at (mem_of c2) 1 1) (itr_at (mem_of c2) 1 2)).
  exists h1, (mem_of c1), (outs_of c1), (ers_mem e1), (ers_res e1), h2, (mem_of c2), (outs_of c2), (ers_mem e2), (ers_res e2).
  split; [vm_compute; reflexivity|]. split; [vm_compute; repeat split|]. split; [vm_compute; reflexivity|]. split; [vm_compute; repeat split|].
  split; [vm_compute; reflexivity|]. split; [vm_compute; repeat split|]. split; [vm_compute; reflexivity|]. vm_compute; repeat split.
Qed.

(** Cases: two lists, the first on two pages; both values of [moved_away] occur. *)
Definition two_lists : list (Z * op Z) := [(1, PushBack 1); (1, PushBack 2); (1, PushBack 3); (2, PushBack 8); (1, PushBack 4); (1, PushBack 5); (2, PushFront 7)].
Definition two_mem : mem Z := mem_of (calls (fun c => list_of 1000) (cont_mem 0 100) two_lists).
Example C112_case : Forall (fun e => fst e <> 0) two_lists /\ calls (fun c => list_of 1000) (cont_mem 0 100) two_lists = Some (two_mem, repeat Done 7) /\
  shows two_mem 1 [1; 2; 3; 4; 5] /\ shows two_mem 2 [7; 8] /\
  moved_away (list_of 1000) two_mem (itr_at two_mem 1 1) (itr_at two_mem 1 2) = true /\ moved_away (list_of 1000) two_mem (itr_at two_mem 1 1) (itr_at two_mem 1 3) = false /\
  moved_away (list_of 1000) two_mem (itr_at two_mem 2 0) (itr_at two_mem 2 1) = true /\ moved_away (list_of 1000) two_mem (itr_at two_mem 1 2) (itr_at two_mem 1 2) = false.
Proof.
  split; [repeat constructor; discriminate|]. split; [vm_compute; reflexivity|]. split; [vm_compute; repeat split|]. split; [vm_compute; repeat split|]. vm_compute. auto.
Qed.

Print Assumptions C112_exact.
Print Assumptions C112_before_partial.
Print Assumptions C112_push_back.
Print Assumptions C112_refuted.
