(** C111: references to items of vmem containers, as *itr, front() and back() return them.

    Any history of page handles ([l1]); then an iterator whose item is on the page [pos] is dereferenced ([deref]) and gives
    the address [r]; then any further history ([l2], which may contain the handles of other dereferences).  [shows w r pos]:
    the operating system has the page [pos] mapped at [r].  0: dereferencing throws. *)

From Coq Require Import ZArith List Bool Lia.
From Verif Require Import Base ListMem Cache_Model Cache_Spec Cache_Proofs Cache_World Ref_Model Ref_Spec Ref_Proofs.
Import ListNotations.
Open Scope Z_scope.

(** Dereferencing leaves no handle behind, so the reference does not hold its page; what it points to is the page of the
    item when the caller gets it, and as long as after each further operation some handle holds that page.
    Partial: the caller must hold the page; C111_dangling_refuted. *)
Theorem C111_held_partial : forall max l1 l2 w pos w' r w2, (1 <= max)%nat -> Forall mmap_works (l1 ++ l2) -> few_handles max (l1 ++ deref_ops (length (w_vars w)) pos ++ l2) ->
  run (start max) l1 = Some w -> deref w pos = Some (w', r) -> r <> 0 -> run w' l2 = Some w2 ->
  (forall a c x o, l2 = a ++ o :: c -> run w' (a ++ [o]) = Some x -> 0 < holders x pos) ->
  (forall q, holders w' q = holders w q) /\ shows w' r pos /\ shows w2 r pos.
Proof.
  intros max l1 l2 w pos w' r w2 Hm Mw F E D Nz E2 Ha. split; [|split].
  - intros q. destruct (deref_run _ _ _ _ D) as (Er & _). apply deref_vars_end in Er. unfold holders. rewrite Er, count_app. cbn. apply Z.add_0_r.
  - apply (shown max l1 [] w pos w' r w' Hm); [rewrite app_nil_r; apply Forall_app in Mw; tauto| |exact E|exact D|exact Nz|reflexivity|intros [|? ?] ? ? ? X; discriminate X].
    intros a c x El Ex. rewrite app_nil_r in El. apply (F a (c ++ l2) x); [rewrite (app_assoc l1), El, <- app_assoc; reflexivity|exact Ex].
  - exact (shown max l1 l2 w pos w' r w2 Hm Mw F E D Nz E2 Ha).
Qed.
(** If the pages that the whole history asks for are at most as many as the pool may map, dereferencing never throws and
    references stay good to the end, held or not.  Partial: the program must not use more pages than that. *)
Theorem C111_few_pages_partial : forall max ps l1 l2 w pos w' r w2, (1 <= max)%nat -> (length ps <= max)%nat -> ~ In page_nil ps -> In pos ps -> asks_within ps (l1 ++ l2) ->
  Forall mmap_works (l1 ++ l2) -> few_handles max (l1 ++ deref_ops (length (w_vars w)) pos ++ l2) ->
  run (start max) l1 = Some w -> deref w pos = Some (w', r) -> run w' l2 = Some w2 -> r <> 0 /\ shows w2 r pos.
Proof. exact few_shown. Qed.

(** The state after a history. *)
Definition world_of (o : option world) : world := match o with Some w => w | None => start 3 end.
(** The state after dereferencing iterators on the pages of a list one after the other, and the references. *)
Fixpoint derefs (w : world) (l : list Z) : option (world * list Z) :=
  match l with
  | [] => Some (w, [])
  | pos :: l => match deref w pos with Some (w, r) => match derefs w l with Some (w, rs) => Some (w, r :: rs) | None => None end | None => None end
  end.
(** A reference need not stay good: with the fewest pages a pool may map (3), a reference to an item is dangling once items
    on four further pages have been looked at in the same way; nothing is mapped at its address. *)
Theorem C111_dangling_refuted : exists w rs, derefs (start 3) [5; 6; 7; 8; 9] = Some (w, rs) /\ nth 0 rs 0 <> 0 /\ forall pos, ~ shows w (nth 0 rs 0) pos.
Proof.
  exists (match derefs (start 3) [5; 6; 7; 8; 9] with Some (w, _) => w | None => start 3 end). exists (match derefs (start 3) [5; 6; 7; 8; 9] with Some (_, rs) => rs | None => [] end).
  split; [vm_compute; reflexivity|]. split; [vm_compute; discriminate|]. intros pos. vm_compute. intros H. repeat (destruct H as [H|H]; [discriminate H|]). exact H.
Qed.
(** Dereferencing throws although the iterator is valid if all pages of the pool are held. *)
Theorem C111_throws_refuted : exists l w w', run (start 3) l = Some w /\ deref w 4 = Some (w', 0).
Proof.
  exists [New 1 true; New 2 true; New 3 true], (world_of (run (start 3) [New 1 true; New 2 true; New 3 true])).
  exists (match deref (world_of (run (start 3) [New 1 true; New 2 true; New 3 true])) 4 with Some (w, _) => w | None => start 3 end). split; vm_compute; reflexivity.
Qed.

(** Cases *)
(** Page 5 is held by one handle while the reference is taken, by a copy of it and then by that copy alone; three further pages pass. *)
Definition before : list op := [New 6 true; New 5 true].
Definition later : list op := [Copy 1 true; New 7 true; Destroy 1; Destroy 0; New 8 true; Destroy 5; Destroy 6; New 9 true].
Definition held_start : world := world_of (run (start 3) before).
Definition held_ref : world := match deref held_start 5 with Some (w, _) => w | None => start 3 end.
Example C111_held_case : Forall mmap_works (before ++ later) /\ few_handles 3 (before ++ deref_ops (length (w_vars held_start)) 5 ++ later) /\
  run (start 3) before = Some held_start /\ deref held_start 5 = Some (held_ref, 2) /\
  (exists w2, run held_ref later = Some w2 /\ holders w2 5 = 1 /\ os (w_pool w2) <> os (w_pool held_ref)) /\
  (forall a c x o, later = a ++ o :: c -> run held_ref (a ++ [o]) = Some x -> 0 < holders x 5).
Proof.
  split; [repeat constructor|]. split; [apply few_short; vm_compute; reflexivity|]. split; [vm_compute; reflexivity|]. split; [vm_compute; reflexivity|]. split.
  { exists (world_of (run held_ref later)). split; [vm_compute; reflexivity|]. split; [vm_compute; reflexivity|vm_compute; discriminate]. }
  intros a c x o E R. assert (a ++ [o] = firstn (S (length a)) later) as Ea by (rewrite E; change (a ++ o :: c) with (a ++ [o] ++ c); rewrite app_assoc, firstn_app, app_length, Nat.add_1_r, Nat.sub_diag, firstn_O, app_nil_r, firstn_all2 by (rewrite app_length; cbn; lia); reflexivity).
  assert (length a <= 7)%nat as La by (assert (length later = length a + S (length c))%nat as L by (rewrite E, app_length; reflexivity); cbn in L; lia).
  revert R. rewrite Ea. clear - La. remember (length a) as n. clear Heqn a. do 8 (destruct n as [|n]; [intros R; vm_compute in R; injection R as <-; vm_compute; reflexivity|]). lia.
Qed.
(** Three pages in a pool of three; two of them are held by nobody after the reference was taken. *)
Definition few_before : list op := [New 6 true; New 7 true; Destroy 0].
Definition few_later : list op := [Destroy 1; New 6 true; New 7 true; Destroy 4].
Definition few_start : world := world_of (run (start 3) few_before).
Definition few_ref : world := match deref few_start 5 with Some (w, _) => w | None => start 3 end.
Example C111_few_case : (length [5; 6; 7] <= 3)%nat /\ ~ In page_nil [5; 6; 7] /\ asks_within [5; 6; 7] (few_before ++ few_later) /\ Forall mmap_works (few_before ++ few_later) /\
  few_handles 3 (few_before ++ deref_ops (length (w_vars few_start)) 5 ++ few_later) /\ run (start 3) few_before = Some few_start /\ deref few_start 5 = Some (few_ref, 3) /\
  exists w2, run few_ref few_later = Some w2 /\ holders w2 5 = 0.
Proof.
  split; [cbn; lia|]. split; [unfold page_nil; cbn; lia|]. split; [intros pos ok H; cbn in H; cbn; repeat (destruct H as [H|H]; [try discriminate; injection H as <- _; tauto|]); contradiction|]. split; [repeat constructor|].
  split; [apply few_short; vm_compute; reflexivity|]. split; [vm_compute; reflexivity|]. split; [vm_compute; reflexivity|]. exists (world_of (run few_ref few_later)). split; vm_compute; reflexivity.
Qed.

Print Assumptions C111_held_partial.
Print Assumptions C111_few_pages_partial.
Print Assumptions C111_dangling_refuted.
Print Assumptions C111_throws_refuted.
