(** C116: moving a vmem_pool moves the file, the mapped pages and the handles on them.  [released], [unmoved] and [unaffected] say what a user relies on. *)

From Coq Require Import ZArith List Bool Lia Permutation.
From Verif Require Import Base Cache_Model Pools_Model Pools_Spec Pools_Proofs.
Import ListNotations.
Open Scope Z_scope.

(** Whatever is moved and destroyed, in whatever order, with or without handles, and even when mmap fails: when all pools are gone every file
    was closed once and no page stays mapped. *)
Theorem C116_released : forall l w, run nothing l = Some w -> all_gone w -> released w.
Proof. exact run_released. Qed.

(** The full statement, [forall max l l', unmoved O [] l = Some l' -> unaffected max l l'], is false (below).  It is true if there are no handles
    whenever the pool is moved: then C33 and C34 hold of the program as if the pool had not been moved. *)
Theorem C116_unaffected_partial : forall max l l', unmoved O [] l = Some l' -> idle_moves (pool_open nothing max) l -> unaffected max l l'.
Proof.
  intros max l l' U I v R. destruct (sim_run l O [] (pool_open nothing max) (start max) l' v (sim_start max) U I R) as (w & E & S). exists w. split; [exact E|exact S].
Qed.

(** A handle that was made before the move: a copy of it made after the move is not null and points to no page. *)
Theorem C116_copy_refuted : exists l l' v w, unmoved O [] l = Some l' /\ Cache_Model.run (start 3) l' = Some v /\ run nothing (POpen 3 :: l) = Some w /\
  l = [HNew 0 5 true; PMove 0; HCopy 0 true] /\
  nth_error (Cache_Model.w_vars v) 1 = Some (Some {| h_pool := true; h_pos := 5; h_ptr := 1 |}) /\ nth_error (seen w) 1 = Some (Some {| h_pool := true; h_pos := 5; h_ptr := MAP_FAILED |}).
Proof.
  set (l := [HNew 0 5 true; PMove 0; HCopy 0 true]). set (l' := [New 5 true; Copy 0 true]).
  destruct (Cache_Model.run (start 3) l') as [v|] eqn:Ev; [|vm_compute in Ev; discriminate]. destruct (run nothing (POpen 3 :: l)) as [w|] eqn:Ew; [|vm_compute in Ew; discriminate].
  exists l, l', v, w. split; [reflexivity|]. split; [exact Ev|]. split; [exact Ew|]. split; [reflexivity|].
  vm_compute in Ev. injection Ev as <-. vm_compute in Ew. injection Ew as <-. split; reflexivity.
Qed.
(** The locks of handles that were made before the move are never released: no handle is alive, and the pool has no room for a page. *)
Theorem C116_locked_refuted : exists l l' v w, unmoved O [] l = Some l' /\ Cache_Model.run (start 3) l' = Some v /\ run nothing (POpen 3 :: l) = Some w /\
  l = [HNew 0 5 true; HNew 0 6 true; HNew 0 7 true; PMove 0; HDestroy 0; HDestroy 1; HDestroy 2; HNew 1 8 true] /\
  nth_error (Cache_Model.w_vars v) 3 = Some (Some {| h_pool := true; h_pos := 8; h_ptr := 4 |}) /\ seen w = [None; None; None; Some {| h_pool := true; h_pos := 8; h_ptr := 0 |}].
Proof.
  set (l := [HNew 0 5 true; HNew 0 6 true; HNew 0 7 true; PMove 0; HDestroy 0; HDestroy 1; HDestroy 2; HNew 1 8 true]).
  set (l' := [New 5 true; New 6 true; New 7 true; Destroy 0; Destroy 1; Destroy 2; New 8 true]).
  destruct (Cache_Model.run (start 3) l') as [v|] eqn:Ev; [|vm_compute in Ev; discriminate]. destruct (run nothing (POpen 3 :: l)) as [w|] eqn:Ew; [|vm_compute in Ew; discriminate].
  exists l, l', v, w. split; [reflexivity|]. split; [exact Ev|]. split; [exact Ew|]. split; [reflexivity|].
  vm_compute in Ev. injection Ev as <-. vm_compute in Ew. injection Ew as <-. split; reflexivity.
Qed.
(** If the pool object that was moved from is gone, the end of the handle uses it. *)
Theorem C116_gone_refuted : exists l l', unmoved O [] l = Some l' /\ Cache_Model.run (start 3) l' <> None /\ run nothing (POpen 3 :: l) = None /\
  l = [HNew 0 5 true; PMove 0; PEnd 0; HDestroy 0].
Proof. exists [HNew 0 5 true; PMove 0; PEnd 0; HDestroy 0], [New 5 true; Destroy 0]. split; [reflexivity|]. split; [vm_compute; discriminate|]. split; vm_compute; reflexivity. Qed.
(** A page that is freed through such a handle is lost: it is not given back to any pool. *)
Theorem C116_freed_refuted : exists a b, a = [POpen 3; HNew 0 5 true; HFree 0; PMove 0] /\ b = [POpen 3; HNew 0 5 true; PMove 0; HFree 0] /\
  option_map w_freed (run nothing a) = Some [(0, 5)] /\ option_map w_freed (run nothing b) = Some [].
Proof. do 2 eexists. split; [reflexivity|]. split; [reflexivity|]. split; vm_compute; reflexivity. Qed.

Example C116_released_case : exists l w, run nothing l = Some w /\ all_gone w /\ length (w_closed w) = 2%nat /\
  l = [POpen 3; HNew 0 5 true; PMove 0; POpen 4; HCopy 0 true; HNew 2 1 true; HNew 1 6 false; PEnd 1; HAssign 0 2 true; HDestroy 0; PEnd 0; PMove 2; PEnd 3; HDestroy 2; PEnd 2].
Proof.
  set (l := [POpen 3; HNew 0 5 true; PMove 0; POpen 4; HCopy 0 true; HNew 2 1 true; HNew 1 6 false; PEnd 1; HAssign 0 2 true; HDestroy 0; PEnd 0; PMove 2; PEnd 3; HDestroy 2; PEnd 2]).
  destruct (run nothing l) as [w|] eqn:Ew; [|vm_compute in Ew; discriminate]. exists l, w. split; [exact Ew|]. vm_compute in Ew. injection Ew as <-.
  split; [repeat constructor|]. split; reflexivity.
Qed.
Example C116_unaffected_case : exists l l' v, unmoved O [] l = Some l' /\ idle_moves (pool_open nothing 3) l /\ Cache_Model.run (start 3) l' = Some v /\
  l = [HNew 0 5 true; HCopy 0 true; HDestroy 0; HFree 1; PMove 0; PEnd 0; HNew 1 6 true; HMove 2] /\ length (Cache_Model.w_vars v) = 4%nat.
Proof.
  set (l := [HNew 0 5 true; HCopy 0 true; HDestroy 0; HFree 1; PMove 0; PEnd 0; HNew 1 6 true; HMove 2]). set (l' := [New 5 true; Copy 0 true; Destroy 0; Free 1; New 6 true; Move 2]).
  destruct (Cache_Model.run (start 3) l') as [v|] eqn:Ev; [|vm_compute in Ev; discriminate]. exists l, l', v. split; [reflexivity|]. split; [|split; [exact Ev|split; [reflexivity|vm_compute in Ev; injection Ev as <-; reflexivity]]].
  intros l1 k l2 w1 E R.
  destruct l1 as [|e0 l1]; [discriminate|]. destruct l1 as [|e1 l1]; [discriminate|]. destruct l1 as [|e2 l1]; [discriminate|]. destruct l1 as [|e3 l1]; [discriminate|].
  injection E as <- <- <- <- E. destruct l1 as [|e4 l1].
  - vm_compute in R. injection R as <-. intros i g. destruct i as [|[|i]]; intros H; [discriminate|injection H as <-; reflexivity|destruct i; discriminate].
  - injection E as _ E. destruct l1 as [|e5 l1]; [discriminate|]. destruct l1 as [|e6 l1]; [discriminate|]. destruct l1 as [|e7 l1]; [discriminate|]. injection E as _ _ _ E. destruct l1; discriminate.
Qed.

Print Assumptions C116_released.
Print Assumptions C116_unaffected_partial.
Print Assumptions C116_copy_refuted.
Print Assumptions C116_locked_refuted.
Print Assumptions C116_gone_refuted.
Print Assumptions C116_freed_refuted.
