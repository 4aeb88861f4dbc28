(** Containers with and without a log (C49).  All functions of vmem containers take an optional log; they check it
    before they use it, except the iterator operators ++, -- and * (src/x/vmem_iterator.x.h:156-200, 242-253).  This
    file follows the functions of the container that reach these operators; all others are as in Cont_Model.

    Left out: what is logged; range insertion, whose first step is ++ (src/x/vmem_container.x.h:391). *)

From Coq Require Import ZArith List Bool.
From Verif Require Import Base Cache_Model Linked_Model Cont_Model.
Import ListNotations.
Open Scope Z_scope.

(** A call through a null log, which is undefined (src/x/vmem_iterator.x.h:157), or a result. *)
Inductive lres (R : Type) := NullLog | LRes (r : R).
Arguments NullLog {R}. Arguments LRes {R}.
(** sequencing of the statements of a function (src/x/vmem_iterator.x.h:156-164) *)
Definition lbind {R S} (r : lres R) (f : R -> lres S) : lres S := match r with NullLog => NullLog | LRes r => f r end.

Section Log.
Context {A : Type}.
(** [log]: a log was given to the container (src/x/vmem_container.x.h:66-84), which gives it to its iterators *)
Variable log : bool.
Variable t : ctype.
Variable c : Z.
Implicit Types (m : mem A).

(** a call of the log without a check (src/x/vmem_iterator.x.h:157, 169, 183, 195, 250) *)
Definition put_any : lres unit := if log then LRes tt else NullLog.
(** src/x/vmem_iterator.x.h:156-177 *)
Definition lg_next m (i : citr) : lres citr := lbind put_any (fun _ => LRes (if i_ok i then c_next c m i else i)).
(** src/x/vmem_iterator.x.h:182-203 *)
Definition lg_prev m (i : citr) : lres citr := lbind put_any (fun _ => LRes (if i_ok i then c_prev c m i else i)).
(** src/x/vmem_iterator.x.h:242-253: the exception ([None]) comes before the log *)
Definition lg_deref m (i : citr) : lres (option A) :=
  match c_deref m i with None => LRes None | Some x => lbind put_any (fun _ => LRes (Some x)) end.
(** src/x/vmem_container.x.h:263-271 *)
Definition lg_front m : lres (option A) := lg_deref m (c_begin c m).
(** src/x/vmem_container.x.h:287-295 *)
Definition lg_back m : lres (option A) := lg_deref m (c_rend c m).

(** src/x/vmem_container.x.h:598-650: a page behind another page is found with ++ (625) *)
Definition lg_insert_page_after m (after : Z) : lres (cres (mem A * Z)) :=
  if snd (alloc_page m) =? page_nil then LRes (insert_page_after c m after)
  else if after =? page_nil then LRes (insert_page_after c m after)
  else lbind put_any (fun _ => LRes (insert_page_after c m after)).
(** src/x/vmem_container.x.h:497-541: the rest of the function is as in Cont_Model *)
Definition lg_insert_with_overflow m (i : citr) (x : A) : lres (cres (mem A * result2 A)) :=
  lbind (lg_insert_page_after m (i_page i)) (fun _ => LRes (insert_with_overflow t c m i x)).
(** src/x/vmem_container.x.h:455-493 *)
Definition lg_insert_nonempty m (i : citr) (x : A) : lres (cres (mem A * result2 A)) :=
  if p_cnt (pages m (i_page i)) =? t_cap t then lg_insert_with_overflow m i x else LRes (insert_with_capacity t m i x).
(** src/x/vmem_container.x.h:429-451 *)
Definition lg_insert_empty m (x : A) : lres (cres (mem A * result2 A)) :=
  lbind (lg_insert_page_after m page_nil) (fun _ => LRes (insert_empty t c m x)).
(** src/x/vmem_container.x.h:404-425 *)
Definition lg_insert_nostate m (i : citr) (x : A) : lres (cres (mem A * result2 A)) :=
  if i_page i =? page_nil then lg_insert_empty m x else lg_insert_nonempty m i x.
(** src/x/vmem_container.x.h:323-376: the checks come first; the rest of the function is as in Cont_Model *)
Definition lg_insert m (i : citr) (x : A) : lres (cres (mem A * result2 A)) :=
  if (i_page i =? page_nil) && (negb (i_item i =? item_nil) || negb (c_empty c m)) then LRes CThrow
  else if (i_item i =? item_nil) && (negb (i_page i =? back (sts m c)) && negb (edge_eqb (i_edge i) E_end)) then LRes CThrow
  else lbind (lg_insert_nostate m i x) (fun _ => LRes (c_insert t c m i x)).
(** src/x/vmem_container.x.h:299-301 *)
Definition lg_push_back m (x : A) := lg_insert m (c_end c m) x.
(** src/x/vmem_container.x.h:311-313 *)
Definition lg_push_front m (x : A) := lg_insert m (c_begin c m) x.
(** src/x/vmem_container.x.h:675-1083: erasing uses no iterator operator *)
Definition lg_erase m (i : citr) : lres (cres (mem A * result2 A)) := LRes (c_erase t c m i).
End Log.
