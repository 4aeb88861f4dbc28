(** Model of references to items of vmem containers: *itr, front() and back() (src/x/vmem_iterator.x.h:218-247,
    src/x/vmem_container.x.h:263-295, 1195-1202, src/x/vmem_pool.x.h:1099-1104, 1160-1190), on the page cache of Cache_Model.

    A reference is the address of an item: the number of the mapping it points into.  Left out: where in the page the
    item is, and the log (which deref calls without a test, C49). *)

From Coq Require Import ZArith List Bool.
From Verif Require Import Base Cache_Model.
Import ListNotations.
Open Scope Z_scope.

(** src/x/vmem_iterator.x.h:230-238, 242-243: deref() locks the page with the pointer that at() returns and with the one that ptr() returns, then unlocks both: the
    first at the end of ptr(), the second at the end of deref().  [n] is the number of variables before. *)
Definition deref_ops (n : nat) (pos : Z) : list op := [New pos true; New pos true; Destroy n; Destroy (S n)].
(** src/x/vmem_iterator.x.h:241-252: the address is taken from the second pointer while it lives; 0: deref() throws *)
Definition deref (w : world) (pos : Z) : option (world * Z) :=
  let n := length (w_vars w) in
  match run w (firstn 3 (deref_ops n pos)) with
  | Some w1 =>
      match var w1 (S n), run w1 (skipn 3 (deref_ops n pos)) with
      | Some h, Some w2 => Some (w2, h_ptr h)
      | _, _ => None
      end
  | None => None
  end.
