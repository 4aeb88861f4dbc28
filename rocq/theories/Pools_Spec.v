(** Specification vocabulary for C116. *)

From Coq Require Import ZArith List Bool Permutation.
From Verif Require Import Base Cache_Model Pools_Model.
Import ListNotations.
Open Scope Z_scope.

(** All pool objects have been destroyed. *)
Definition all_gone (w : world) : Prop := Forall (fun o => o = None) (w_pools w).
(** Every file that was opened was closed once, and nothing stays mapped. *)
Definition released (w : world) : Prop := NoDup (w_opened w) /\ Permutation (w_opened w) (w_closed w) /\ w_left w = [].

(** A program on one file, as if its pool were never moved: every new handle is on the pool object that owns the file ([c], which a move replaces
    by the next one), and the objects that were moved from are used no more, except that each may be destroyed once. *)
Fixpoint unmoved (c : nat) (ended : list nat) (l : list op) : option (list Cache_Model.op) :=
  match l with
  | [] => Some []
  | e :: l =>
      match e with
      | POpen _ => None
      | PMove k => if Nat.eqb k c then unmoved (S c) ended l else None
      | PEnd k => if Nat.ltb k c && negb (existsb (Nat.eqb k) ended) then unmoved c (k :: ended) l else None
      | HNew k pos ok => if Nat.eqb k c then option_map (cons (New pos ok)) (unmoved c ended l) else None
      | HCopy i ok => option_map (cons (Copy i ok)) (unmoved c ended l)
      | HMove i => option_map (cons (Move i)) (unmoved c ended l)
      | HAssign i j ok => option_map (cons (Assign i j ok)) (unmoved c ended l)
      | HMoveAssign i j ok => option_map (cons (MoveAssign i j ok)) (unmoved c ended l)
      | HFree i => option_map (cons (Free i)) (unmoved c ended l)
      | HDestroy i => option_map (cons (Destroy i)) (unmoved c ended l)
      end
  end.
(** No live handle refers to a pool. *)
Definition no_handles (w : world) : Prop := forall i g, hvar w i = Some g -> h_pool (g_h g) = false.
(** Whenever a pool is moved there are no handles. *)
Definition idle_moves (w : world) (l : list op) : Prop := forall l1 k l2 w1, l = l1 ++ PMove k :: l2 -> run w l1 = Some w1 -> no_handles w1.
(** The handles, without the pool objects they refer to. *)
Definition seen (w : world) : list (option handle) := map (option_map g_h) (w_vars w).
(** What a user relies on: the handles are as if the pool had never been moved. *)
Definition unaffected (max : nat) (l : list op) (l' : list Cache_Model.op) : Prop :=
  forall v, Cache_Model.run (start max) l' = Some v -> exists w, run nothing (POpen max :: l) = Some w /\ seen w = Cache_Model.w_vars v.
