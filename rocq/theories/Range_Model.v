(** Model of the calls of vmem containers and vmem_map that take ranges: insert(itr, first, last) and erase(first, last)
    of containers (src/x/vmem_container.x.h:385-400, 711-728), insert(first, last) of maps (src/x/vmem_map.x.h:294-306).

    They are loops over the calls modelled in Cont_Model and Map_Model, with the same simplifications.  The items to insert
    come from outside of the container and are given as a list; the log is not null (without it, [itr++] fails, C49). *)

From Coq Require Import ZArith List Bool.
From Verif Require Import Base Cache_Model Linked_Model Cont_Model Map_Model.
Import ListNotations.
Open Scope Z_scope.

Section Ranges.
Context {A : Type}.
Variable t : ctype.
Variable c : Z.
Implicit Types m : mem A.

(** src/x/vmem_iterator.x.h:167-177: itr++, the new value of the iterator *)
Definition step_itr m (i : citr) : citr := if i_ok i then c_next c m i else i.
(** src/x/vmem_container.x.h:390-397: the loop; [itr++] is done before the item is inserted *)
Fixpoint insert_from m (i : citr) (xs : list A) : cres (mem A) :=
  match xs with
  | [] => COk m
  | x :: xs =>
      let i' := step_itr m i in
      cbind (c_insert t c m i x) (fun '(m, r) => if can_deref (r_itr r) then insert_from m i' xs else COk m)
  end.
(** src/x/vmem_container.x.h:385-400: the iterator returned is the one given *)
Definition c_insert_range m (i : citr) (xs : list A) : cres (mem A * citr) :=
  cbind (insert_from m i xs) (fun m => COk (m, i)).

(** src/x/vmem_container.x.h:715-725: the loop; [None] when it has not ended after [n] turns *)
Fixpoint erase_from (n : nat) m (i last : citr) : option (cres (mem A * citr)) :=
  if citr_eqb i last then Some (COk (m, i))
  else if negb (can_deref i) then Some (COk (m, i))
  else match n with
       | O => None
       | S n =>
           match c_erase t c m i with
           | COk (m, r) => erase_from n m (r_itr r) last
           | CThrow => Some CThrow
           | CAbort => Some CAbort
           | COob => Some COob
           end
       end.
(** src/x/vmem_container.x.h:711-728 *)
Definition c_erase_range (n : nat) m (first last : citr) : option (cres (mem A * citr)) := erase_from n m first last.
End Ranges.

Section Map_ranges.
Context {V : Type}.
Variable s : msizes.
Variable junk : mem (mitem V) -> Z -> Z -> Z.
(** src/x/vmem_map.x.h:294-306: the loop ends at the first item that is not inserted *)
Fixpoint m_insert_range (m : mem (mitem V)) (es : list (Z * V)) : cres (mem (mitem V)) :=
  match es with
  | [] => COk m
  | (k, v) :: es => cbind (m_insert s junk m k v) (fun '(m, (_, ok)) => if ok : bool then m_insert_range m es else COk m)
  end.
End Map_ranges.
