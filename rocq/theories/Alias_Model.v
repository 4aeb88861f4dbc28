(** Model of insertions into a vmem_container of an item that is given by a reference to an item in the pool
    (src/x/vmem_container.x.h:299-313, 323-376, 404-574): the item is read when it is copied to its place, after
    pages were split and items were shifted.  Everything else is as in Cont_Model.  The page of the item stays mapped (C111). *)

From Coq Require Import ZArith List Bool.
From Verif Require Import Base Cache_Model Linked_Model Cont_Model.
Import ListNotations.
Open Scope Z_scope.

Section Alias.
Context {A : Type}.
Implicit Types m : mem A.
Variable t : ctype.
Variable c : Z.

(** What a reference to the item at the iterator [s] reads (src/x/vmem_iterator.x.h:241-252, src/x/vmem_container.x.h:1195-1202) *)
Definition item_of (s : citr) m : A := p_arr (pages m (i_page s)) (i_item s).
(** src/x/vmem_container.x.h:545-574; the item is read at 562 *)
Definition insert_with_capacity_by m (i : citr) (item : mem A -> A) : cres (mem A * result2 A) :=
  let p := pages m (i_page i) in
  let pos := if i_item i =? item_nil then p_cnt p else i_item i in
  let n := p_cnt p - pos in
  if (n <? 0) || ((0 <? n) && (t_cap t <? pos + 1 + n)) then COob
  else
    let m := set_arr m (i_page i) (moved (p_arr p) (pos + 1) (p_arr p) pos n) in
    let m := set_cnt m (i_page i) (wrap_u16 (p_cnt p + 1)) in
    if t_cap t <=? pos then COob
    else
      let m := set_arr m (i_page i) (upd (p_arr (pages m (i_page i))) pos (item m)) in
      COk (m, mkR (mkI true (i_page i) pos E_none) (no_lead m) (no_lead m)).
(** src/x/vmem_container.x.h:497-541 *)
Definition insert_with_overflow_by m (i : citr) (item : mem A -> A) : cres (mem A * result2 A) :=
  let balance := should_balance_insert t m i in
  cbind (insert_page_after c m (i_page i)) (fun '(m, new) =>
    if new =? page_nil then COk (m, no_result m)
    else
      let m := if balance then balance_split t m (i_page i) new else m in
      let count := p_cnt (pages m (i_page i)) in
      cbind (if negb (i_item i =? item_nil) && (i_item i <=? count)
             then insert_with_capacity_by m i item
             else insert_with_capacity_by m (mkI true new (if i_item i =? item_nil then p_cnt (pages m new) else wrap_u16 (i_item i - count)) E_none) item)
        (fun '(m, r) =>
          COk (m, mkR (r_itr r) (mkLead Linsert new (p_arr (pages m new) 0) (m_zero m))
                               (mkLead Loriginal (i_page i) (p_arr (pages m (i_page i)) 0) (m_zero m))))).
(** src/x/vmem_container.x.h:455-493 *)
Definition insert_nonempty_by m (i : citr) (item : mem A -> A) : cres (mem A * result2 A) :=
  if p_cnt (pages m (i_page i)) =? t_cap t then insert_with_overflow_by m i item else insert_with_capacity_by m i item.
(** src/x/vmem_container.x.h:429-451 *)
Definition insert_empty_by m (item : mem A -> A) : cres (mem A * result2 A) :=
  cbind (insert_page_after c m page_nil) (fun '(m, new) =>
    if new =? page_nil then COk (m, no_result m) else insert_with_capacity_by m (mkI true new 0 E_none) item).
(** src/x/vmem_container.x.h:404-425 *)
Definition insert_nostate_by m (i : citr) (item : mem A -> A) : cres (mem A * result2 A) :=
  if i_page i =? page_nil then insert_empty_by m item else insert_nonempty_by m i item.
(** src/x/vmem_container.x.h:323-376: insert(i, *s) *)
Definition c_insert_item m (i s : citr) : cres (mem A * result2 A) :=
  if (i_page i =? page_nil) && (negb (i_item i =? item_nil) || negb (c_empty c m)) then CThrow
  else if (i_item i =? item_nil) && (negb (i_page i =? back (sts m c)) && negb (edge_eqb (i_edge i) E_end)) then CThrow
  else cbind (insert_nostate_by m i (item_of s)) (fun '(m, r) =>
    if i_ok (r_itr r) then
      let m := if front (sts m c) =? page_nil then set_front m c (i_page (r_itr r)) else m in
      let m := if back (sts m c) =? page_nil then set_back m c (i_page (r_itr r))
               else if (back (sts m c) =? i_page i) && negb (ld_page (r_l0 r) =? page_nil) then set_back m c (ld_page (r_l0 r))
               else m in
      COk (set_tot m c (wrap_u64 (tots m c + 1)), r)
    else COk (m, mkR (c_end c m) (no_lead m) (no_lead m))).
(** src/x/vmem_container.x.h:299-301: push_back of the item at [s] *)
Definition c_push_back_item m (s : citr) : cres (mem A * result2 A) := c_insert_item m (c_end c m) s.
(** src/x/vmem_container.x.h:311-313: push_front of the item at [s] *)
Definition c_push_front_item m (s : citr) : cres (mem A * result2 A) := c_insert_item m (c_begin c m) s.
End Alias.
