(** Specification vocabulary for C33 and C34. *)

From Coq Require Import ZArith List Bool.
From Verif Require Import Base Cache_Model.
Import ListNotations.
Open Scope Z_scope.

(** The variable [i] is a live handle on the page [pos] with the pointer [ptr]. *)
Definition holds (w : world) (i : nat) (pos ptr : Z) : Prop := exists h, var w i = Some h /\ h_pos h = pos /\ h_ptr h = ptr /\ ptr <> 0.
Definition is_holder (pos : Z) (v : option handle) : bool :=
  match v with Some h => (h_pos h =? pos) && negb (h_ptr h =? 0) | None => false end.
(** The number of live handles on the page [pos]. *)
Definition holders (w : world) (pos : Z) : Z := zlen (filter (is_holder pos) (w_vars w)).
(** The number of variables that are alive. *)
Definition alive (w : world) : Z := zlen (filter (fun v : option handle => match v with Some _ => true | None => false end) (w_vars w)).
(** mmap never fails in this history. *)
Definition mmap_works (o : op) : Prop :=
  match o with New _ ok | Copy _ ok | Assign _ _ ok | MoveAssign _ _ ok => ok = true | _ => True end.
(** At every moment of the history fewer than 2^32 handles are alive. *)
Definition few_handles (max : nat) (l : list op) : Prop :=
  forall l1 l2 w, l = l1 ++ l2 -> run (start max) l1 = Some w -> alive w < 2 ^ 32.
(** The slots in use. *)
Definition mapped (p : pool) : list slot := firstn (count p) (slots p).
(** The page [pos] can be evicted: it is in a slot that is not locked. *)
Definition evictable (p : pool) (pos : Z) : Prop := exists s, In s (mapped p) /\ s_pos s = pos /\ s_lock s = 0.
