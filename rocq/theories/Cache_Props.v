(** C33, C34: the page cache of a pool.

    A history is any list of operations on page handles: constructing one for a page, copying, moving,
    assigning (also to itself), freeing and destroying.  [holds w i pos ptr]: the variable [i] is a live handle on
    the page [pos] whose pointer is [ptr].  [os] is what the operating system has mapped: pairs of a pointer and
    the page that is seen through it. *)

From Coq Require Import ZArith List Bool Lia.
From Verif Require Import Base ListMem Cache_Model Cache_Spec Cache_Proofs Cache_World Cache_Wrap.
Import ListNotations.
Open Scope Z_scope.

(** ** C33 *)

(** In every reachable state: the pointer of every live handle is mapped, and to the page of the handle; two
    handles have the same pointer exactly if they are on the same page; the lock count of every mapped page is the
    number of live handles on it; a page with a live handle is not evictable.  Fewer than 2^32 handles are alive
    at any time ([few_handles]), and mmap succeeds. *)
Theorem C33_handles : forall max l w, (1 <= max)%nat -> Forall mmap_works l -> few_handles max l -> run (start max) l = Some w ->
  (forall i pos ptr, holds w i pos ptr -> In (ptr, pos) (os (w_pool w)) /\
     forall j pos' ptr', holds w j pos' ptr' -> (pos = pos' <-> ptr = ptr')) /\
  (forall s, In s (mapped (w_pool w)) -> s_lock s = holders w (s_pos s)) /\
  (forall pos, 0 < holders w pos -> ~ evictable (w_pool w) pos).
Proof. exact handles_ok. Qed.
(** While a page has a live handle, whatever else happens (other pages may be locked and evicted, the handle may be
    copied, moved, assigned), its mapping stays and every handle on it has the same pointer as before. *)
Theorem C33_pointer_stable : forall max l1 l2 w1 w2 i pos ptr, (1 <= max)%nat -> Forall mmap_works (l1 ++ l2) -> few_handles max (l1 ++ l2) ->
  run (start max) l1 = Some w1 -> run w1 l2 = Some w2 -> holds w1 i pos ptr ->
  (forall a c x, l2 = a ++ c -> run w1 a = Some x -> 0 < holders x pos) ->
  In (ptr, pos) (os (w_pool w2)) /\ forall j ptr', holds w2 j pos ptr' -> ptr' = ptr.
Proof. exact pointer_kept. Qed.
(** The destructor of the pool unmaps everything. *)
Theorem C33_destructor : forall max l w, (1 <= max)%nat -> Forall mmap_works l -> few_handles max l -> run (start max) l = Some w -> os (destroy_pool (w_pool w)) = [].
Proof. exact destroyed. Qed.
(** The result of mmap is not checked: if it fails, the handle is taken for valid although nothing is mapped. *)
Theorem C33_mmap_failure_refuted : exists l w i pos ptr, run (start 3) l = Some w /\ holds w i pos ptr /\ forall pos', ~ In (ptr, pos') (os (w_pool w)).
Proof.
  exists [New 5 false]. exists {| w_pool := w_pool (match run (start 3) [New 5 false] with Some w => w | None => start 3 end); w_vars := [Some {| h_pool := true; h_pos := 5; h_ptr := -1 |}] |}.
  exists O, 5, (-1). split; [reflexivity|]. split; [eexists; split; [reflexivity|]; cbn; repeat split; lia|]. intros pos'. cbn. tauto.
Qed.

(** Six pages through a pool of three slots; two handles on page 2, one of them moved and reassigned. *)
Definition history : list op := [New 1 true; New 2 true; Copy 1 true; New 3 true; Destroy 0; New 4 true; Move 2; Destroy 3; New 6 true; Assign 4 1 true; MoveAssign 4 4 true; Free 6; New 7 true].
(** The state after a history. *)
Definition after (l : list op) : world := match run (start 3) l with Some w => w | None => start 3 end.
Example C33_history : Forall mmap_works history /\ few_handles 3 history /\
  exists w, run (start 3) history = Some w /\ os (w_pool w) = [(6, 7); (2, 2)] /\ holders w 2 = 2 /\ holders w 7 = 1 /\ alive w = 6.
Proof.
  split; [repeat constructor|]. split; [apply few_short; vm_compute; reflexivity|]. exists (after history). split; [vm_compute; reflexivity|]. vm_compute. auto.
Qed.
(** From the moment it is first locked, page 2 has a handle after each of the further operations. *)
Example C33_page_2 : exists w1 w2, run (start 3) (firstn 2 history) = Some w1 /\ holds w1 1 2 2 /\ run w1 (skipn 2 history) = Some w2 /\
  (forall a c x, skipn 2 history = a ++ c -> run w1 a = Some x -> 0 < holders x 2) /\ holds w2 5 2 2.
Proof.
  exists (after (firstn 2 history)), (after history). split; [vm_compute; reflexivity|]. split; [exists {| h_pool := true; h_pos := 2; h_ptr := 2 |}; split; [vm_compute; reflexivity|]; cbn; repeat split; lia|]. split; [vm_compute; reflexivity|]. split.
  - intros a c x E R. assert (a = firstn (length a) (skipn 2 history)) as Ea by (rewrite E, firstn_app, Nat.sub_diag, firstn_all, firstn_O, app_nil_r; reflexivity).
    assert (length a <= 11)%nat as La by (assert (length (skipn 2 history) = length a + length c)%nat as L by (rewrite E; apply app_length); cbn in L; lia).
    revert R. rewrite Ea. clear - La. remember (length a) as n. clear Heqn a. do 12 (destruct n as [|n]; [intros R; vm_compute in R; injection R as <-; vm_compute; reflexivity|]). lia.
  - exists {| h_pool := true; h_pos := 2; h_ptr := 2 |}. split; [vm_compute; reflexivity|]. cbn. repeat split; lia.
Qed.

(** ** C34 *)

(** At any time at most MaxMappedPages pages are mapped, and no page is mapped twice. *)
Theorem C34_bounded : forall max l w, (1 <= max)%nat -> Forall mmap_works l -> few_handles max l -> run (start max) l = Some w ->
  (length (os (w_pool w)) <= max)%nat /\ NoDup (map snd (os (w_pool w))).
Proof. exact bounded. Qed.
(** Locking a page fails exactly if MaxMappedPages other pages are in use - in the first 2^32 - 1 operations. *)
Theorem C34_lock_fails_iff_partial : forall max l w pos, (1 <= max)%nat -> Forall mmap_works l -> few_handles max (l ++ [New pos true]) -> zlen l < 2 ^ 32 - 1 -> pos <> page_nil -> run (start max) l = Some w ->
  h_ptr (snd (page_new (w_pool w) pos true)) = 0 <-> exists ps, NoDup ps /\ length ps = max /\ ~ In pos ps /\ forall q, In q ps -> 0 < holders w q.
Proof. exact fails_iff. Qed.
(** Three pages in use, no room for a fourth; one of them released, and it can be locked. *)
Example C34_full : exists w, run (start 3) [New 1 true; New 2 true; New 3 true] = Some w /\ h_ptr (snd (page_new (w_pool w) 4 true)) = 0 /\ holders w 1 = 1 /\ holders w 2 = 1 /\ holders w 3 = 1 /\ few_handles 3 ([New 1 true; New 2 true; New 3 true] ++ [New 4 true]).
Proof. exists (after [New 1 true; New 2 true; New 3 true]). split; [vm_compute; reflexivity|]. repeat (split; [vm_compute; reflexivity|]). apply few_short. reflexivity. Qed.
Example C34_room : exists w, run (start 3) [New 1 true; New 2 true; New 3 true; Destroy 1] = Some w /\ h_ptr (snd (page_new (w_pool w) 4 true)) = 4 /\ ~ evictable (w_pool w) 1 /\ evictable (w_pool w) 2.
Proof.
  assert (mapped (w_pool (after [New 1 true; New 2 true; New 3 true; Destroy 1])) = [{| s_pos := 1; s_ptr := 1; s_lock := 1; s_keep := 1 |}; {| s_pos := 2; s_ptr := 2; s_lock := 0; s_keep := 1 |}; {| s_pos := 3; s_ptr := 3; s_lock := 1; s_keep := 1 |}]) as M by (vm_compute; reflexivity).
  exists (after [New 1 true; New 2 true; New 3 true; Destroy 1]). split; [vm_compute; reflexivity|]. split; [vm_compute; reflexivity|]. split.
  - intros (s & I & E & L). rewrite M in I. destruct I as [<-|[<-|[<-|[]]]]; cbn in E, L; lia.
  - exists {| s_pos := 2; s_ptr := 2; s_lock := 0; s_keep := 1 |}. split; [rewrite M; right; left; reflexivity|]. split; reflexivity.
Qed.
(** Later it can fail although no page at all is in use: the total of the keep counts is kept in 32 bits. *)
Theorem C34_wrap_refuted : exists l w, Forall mmap_works l /\ run (start 3) l = Some w /\ (forall q, holders w q = 0) /\ alive w = 0 /\ h_ptr (snd (page_new (w_pool w) 4 true)) = 0.
Proof. exact wrap_witness. Qed.
(** With a log, the 2^32nd lock divides by the number of locks, which is 0 again by then. *)
Theorem C34_log_division_refuted : exists l w, Forall mmap_works l /\ run (start 3) l = Some w /\ log_totals (fst (page_new (w_pool w) 1 true)) = None.
Proof. exact log_witness. Qed.

Print Assumptions C33_handles.
Print Assumptions C33_pointer_stable.
Print Assumptions C33_destructor.
Print Assumptions C33_mmap_failure_refuted.
Print Assumptions C34_bounded.
Print Assumptions C34_lock_fails_iff_partial.
Print Assumptions C34_wrap_refuted.
Print Assumptions C34_log_division_refuted.
