(** Model of vmem_container, and of vmem_list and vmem_stack, which differ from it only in their balancing flags
    (src/x/vmem_container.x.h:82-1275, src/x/vmem_list.x.h:36-48, src/i/vmem_list.i.h:72-73, 133-134).

    It sits on the model of pages and chains (Linked_Model) with its simplifications: every page can be locked,
    one item type, no log.  In addition:
    - a container is the number of its state and a [ctype] (page capacity and balancing flags); its constructor
      has run on its state (121-162), so the state is not zeroed memory;
    - the item array of a page has no end in the model; writes behind the page are a separate outcome [COob],
      reads behind the page have unspecified results and do not count as an outcome;
    - vmem_copy and memmove copy whole items. *)

From Coq Require Import ZArith List Bool.
From Verif Require Import Base Cache_Model Linked_Model.
Import ListNotations.
Open Scope Z_scope.

(** src/i/vmem_pool.i.h:47: vmem_item_pos_nil, the largest 16-bit number *)
Definition item_nil : Z := 65535.
(** What a call can do: return; throw to its caller (src/x/vmem_container.x.h:324-330, 676-678); throw inside a
    function declared noexcept, which ends the program (404, 598, 732, 1045); write outside a page. *)
Inductive cres (B : Type) := COk (b : B) | CThrow | CAbort | COob.
Arguments COk {B}. Arguments CThrow {B}. Arguments CAbort {B}. Arguments COob {B}.
(** sequencing of calls (src/x/vmem_container.x.h:323-376) *)
Definition cbind {B C} (r : cres B) (k : B -> cres C) : cres C :=
  match r with COk b => k b | CThrow => CThrow | CAbort => CAbort | COob => COob end.

(** src/i/vmem_container.i.h:48-79: balancing flags, and vmem_page_balance::test *)
Definition flag_begin : Z := 1.
(** src/i/vmem_container.i.h:62 *)
Definition flag_inner : Z := 2.
(** src/i/vmem_container.i.h:67 *)
Definition flag_end : Z := 4.
(** src/x/vmem_container.x.h:38 *)
Definition flag_test (value bits : Z) : bool := Z.land value bits =? bits.
(** page_capacity() (src/x/vmem_container.x.h:82-97), _balance_insert and _balance_erase (571-572 of the interface) *)
Record ctype := mkCT { t_cap : Z; t_ins : Z; t_ers : Z }.
(** src/i/vmem_list.i.h:72-73: ~end as an 8-bit number, and all *)
Definition list_type (cap : Z) : ctype := mkCT cap (wrap_u8 (Z.lnot flag_end)) 255.
(** src/i/vmem_list.i.h:133-134 *)
Definition stack_type (cap : Z) : ctype := mkCT cap 0 0.
(** src/x/vmem_container.x.h:82-97: items_pos is the offset of items in the packed page header (8+8+8+2 bytes and
    1 byte of an empty header, src/i/vmem_layout.i.h:50-73) *)
Definition page_capacity (item_size : Z) : Z := (4096 - 27) / item_size.

(** src/x/vmem_iterator.x.h:36-47; [i_ok] is _container != nullptr *)
Record citr := mkI { i_ok : bool; i_page : Z; i_item : Z; i_edge : edge }.
(** src/x/vmem_iterator.x.h:51-53: the iterator made from nullptr *)
Definition no_itr : citr := mkI false page_nil item_nil E_end.
(** src/x/vmem_iterator.x.h:57-67 for iterators of the same container *)
Definition citr_eqb (a b : citr) : bool :=
  Bool.eqb (i_ok a) (i_ok b) && (i_page a =? i_page b) && (i_item a =? i_item b) && edge_eqb (i_edge a) (i_edge b).
(** src/x/vmem_iterator.x.h:83-88 *)
Definition can_deref (i : citr) : bool :=
  i_ok i && negb (i_page i =? page_nil) && negb (i_item i =? item_nil) && edge_eqb (i_edge i) E_none.
(** src/i/vmem_container.i.h:104-138 *)
Inductive lead_op := Lnone | Lerase | Linsert | Lreplace | Loriginal.
(** src/i/vmem_container.i.h:147-196 *)
Record lead (A : Type) := mkLead { ld_op : lead_op; ld_page : Z; ld_0 : A; ld_1 : A }.
Arguments mkLead {A}. Arguments ld_op {A}. Arguments ld_page {A}. Arguments ld_0 {A}. Arguments ld_1 {A}.
(** src/i/vmem_container.i.h:207-210 *)
Record result2 (A : Type) := mkR { r_itr : citr; r_l0 : lead A; r_l1 : lead A }.
Arguments mkR {A}. Arguments r_itr {A}. Arguments r_l0 {A}. Arguments r_l1 {A}.

Section Container.
Context {A : Type}.
Implicit Types m : mem A.

(** src/x/vmem_container.x.h:49-51: the lead of no page; its items are not used by anyone *)
Definition no_lead m : lead A := mkLead Lnone page_nil (m_zero m) (m_zero m).
(** src/i/vmem_container.i.h:208-209: the initial result *)
Definition no_result m : result2 A := mkR no_itr (no_lead m) (no_lead m).

(** container_page->item_count = v (src/i/vmem_layout.i.h:71) *)
Definition set_cnt m (pos v : Z) : mem A :=
  let p := pages m pos in set_page m pos (mkPage (p_pos p) (p_prev p) (p_next p) v (p_arr p)).
(** the items of a page (src/i/vmem_layout.i.h:72) *)
Definition set_arr m (pos : Z) (a : Z -> A) : mem A :=
  let p := pages m pos in set_page m pos (mkPage (p_pos p) (p_prev p) (p_next p) (p_cnt p) a).
(** std::memmove of [n] items from src+j to dst+i (src/x/vmem_container.x.h:555, 588, 826, 924, 988) *)
Definition moved (dst : Z -> A) (i : Z) (src : Z -> A) (j n : Z) : Z -> A :=
  fun k => if (i <=? k) && (k <? i + n) then src (k - i + j) else dst k.
(** total_item_count (src/i/vmem_layout.i.h:146) *)
Definition set_tot m (c v : Z) : mem A := mkMem (pages m) (fsize m) (room m) (sts m) (upd (tots m) c v) (m_zero m).

Variable t : ctype.
Variable c : Z.

(** src/x/vmem_container.x.h:238-241 *)
Definition c_empty m : bool := l_empty m c.
(** src/x/vmem_container.x.h:245-247 *)
Definition c_size m : Z := tots m c.
(** src/x/vmem_container.x.h:1223-1232 *)
Definition c_end m : citr := mkI true (back (sts m c)) item_nil E_end.
(** src/x/vmem_container.x.h:1206-1219 *)
Definition c_begin m : citr :=
  if front (sts m c) =? page_nil then c_end m else mkI true (front (sts m c)) 0 E_none.
(** src/x/vmem_container.x.h:1264-1273 *)
Definition c_rbegin m : citr := mkI true (front (sts m c)) item_nil E_rbegin.
(** src/x/vmem_container.x.h:1236-1260; item positions are 16-bit numbers *)
Definition c_rend m : citr :=
  if back (sts m c) =? page_nil then c_rbegin m
  else mkI true (back (sts m c)) (wrap_u16 (p_cnt (pages m (back (sts m c))) - 1)) E_none.
(** src/x/vmem_container.x.h:1098-1137 *)
Definition c_next m (i : citr) : citr :=
  if (i_item i =? item_nil) && edge_eqb (i_edge i) E_rbegin then c_begin m
  else if i_page i =? page_nil then c_end m
  else
    let p := pages m (i_page i) in
    if i_item i <? p_cnt p - 1 then mkI true (i_page i) (wrap_u16 (i_item i + 1)) E_none
    else if p_next p =? page_nil then c_end m
    else mkI true (p_next p) 0 E_none.
(** src/x/vmem_container.x.h:1141-1191 *)
Definition c_prev m (i : citr) : citr :=
  if (i_item i =? item_nil) && edge_eqb (i_edge i) E_end then c_rend m
  else if i_page i =? page_nil then c_rbegin m
  else
    let p := pages m (i_page i) in
    if 0 <? i_item i then mkI true (i_page i) (i_item i - 1) E_none
    else if p_prev p =? page_nil then c_rbegin m
    else mkI true (p_prev p) (wrap_u16 (p_cnt (pages m (p_prev p)) - 1)) E_none.
(** src/x/vmem_container.x.h:1195-1202, src/x/vmem_pool.x.h:1159-1175: [None] is the exception *)
Definition c_deref m (i : citr) : option A :=
  if (i_page i =? page_nil) || (i_item i =? item_nil) then None else Some (p_arr (pages m (i_page i)) (i_item i)).
(** src/x/vmem_container.x.h:263-271, 287-295 *)
Definition c_front m : option A := c_deref m (c_begin m).
(** see [c_front] (src/x/vmem_container.x.h:287-295) *)
Definition c_back m : option A := c_deref m (c_rend m).

(** src/x/vmem_container.x.h:654-670 *)
Definition should_balance_insert m (i : citr) : bool :=
  let p := pages m (i_page i) in
  if (p_prev p =? page_nil) && (i_item i =? 0) then flag_test (t_ins t) flag_begin
  else if (p_next p =? page_nil) && (i_item i =? item_nil) && edge_eqb (i_edge i) E_end then flag_test (t_ins t) flag_end
  else flag_test (t_ins t) flag_inner.
(** src/x/vmem_container.x.h:1067-1083 *)
Definition should_balance_erase m (pos item : Z) : bool :=
  let p := pages m pos in
  if (p_prev p =? page_nil) && (item =? 0) then flag_test (t_ers t) flag_begin
  else if (p_next p =? page_nil) && (item =? p_cnt p - 1) then flag_test (t_ers t) flag_end
  else flag_test (t_ers t) flag_inner.

(** src/x/vmem_container.x.h:598-650; the second result is the new page, nil when no page can be had *)
Definition insert_page_after m (after : Z) : cres (mem A * Z) :=
  let '(m, new) := alloc_page m in
  if new =? page_nil then COk (m, page_nil)
  else
    let m := l_init m c in
    let i := if after =? page_nil then l_end else l_next m c (mkL after E_none) in
    match l_insert m c i new with
    | Throw => CAbort
    | Ok (m, _) => COk (set_cnt m new 0, new)
    end.
(** src/x/vmem_container.x.h:545-574 *)
Definition insert_with_capacity m (i : citr) (x : A) : cres (mem A * result2 A) :=
  let p := pages m (i_page i) in
  let pos := if i_item i =? item_nil then p_cnt p else i_item i in
  let n := p_cnt p - pos in
  if (n <? 0) || ((0 <? n) && (t_cap t <? pos + 1 + n)) then COob
  else
    let m := set_arr m (i_page i) (moved (p_arr p) (pos + 1) (p_arr p) pos n) in
    let m := set_cnt m (i_page i) (wrap_u16 (p_cnt p + 1)) in
    if t_cap t <=? pos then COob
    else
      let m := set_arr m (i_page i) (upd (p_arr (pages m (i_page i))) pos x) in
      COk (m, mkR (mkI true (i_page i) pos E_none) (no_lead m) (no_lead m)).
(** src/x/vmem_container.x.h:578-594 *)
Definition balance_split m (pos new : Z) : mem A :=
  let new_count := t_cap t / 2 in
  let count := t_cap t - new_count in
  let m := set_arr m new (moved (p_arr (pages m new)) 0 (p_arr (pages m pos)) count new_count) in
  let m := set_cnt m new (wrap_u16 new_count) in
  set_cnt m pos (wrap_u16 count).
(** src/x/vmem_container.x.h:497-541 *)
Definition insert_with_overflow m (i : citr) (x : A) : cres (mem A * result2 A) :=
  let balance := should_balance_insert m i in
  cbind (insert_page_after m (i_page i)) (fun '(m, new) =>
    if new =? page_nil then COk (m, no_result m)
    else
      let m := if balance then balance_split m (i_page i) new else m in
      let count := p_cnt (pages m (i_page i)) in
      cbind (if negb (i_item i =? item_nil) && (i_item i <=? count)
             then insert_with_capacity m i x
             else insert_with_capacity m (mkI true new (if i_item i =? item_nil then p_cnt (pages m new) else wrap_u16 (i_item i - count)) E_none) x)
        (fun '(m, r) =>
          COk (m, mkR (r_itr r) (mkLead Linsert new (p_arr (pages m new) 0) (m_zero m))
                               (mkLead Loriginal (i_page i) (p_arr (pages m (i_page i)) 0) (m_zero m))))).
(** src/x/vmem_container.x.h:455-493 *)
Definition insert_nonempty m (i : citr) (x : A) : cres (mem A * result2 A) :=
  if p_cnt (pages m (i_page i)) =? t_cap t then insert_with_overflow m i x else insert_with_capacity m i x.
(** src/x/vmem_container.x.h:429-451 *)
Definition insert_empty m (x : A) : cres (mem A * result2 A) :=
  cbind (insert_page_after m page_nil) (fun '(m, new) =>
    if new =? page_nil then COk (m, no_result m) else insert_with_capacity m (mkI true new 0 E_none) x).
(** src/x/vmem_container.x.h:404-425 *)
Definition insert_nostate m (i : citr) (x : A) : cres (mem A * result2 A) :=
  if i_page i =? page_nil then insert_empty m x else insert_nonempty m i x.
(** src/x/vmem_container.x.h:323-376 *)
Definition c_insert m (i : citr) (x : A) : cres (mem A * result2 A) :=
  if (i_page i =? page_nil) && (negb (i_item i =? item_nil) || negb (c_empty m)) then CThrow
  else if (i_item i =? item_nil) && (negb (i_page i =? back (sts m c)) && negb (edge_eqb (i_edge i) E_end)) then CThrow
  else cbind (insert_nostate m i x) (fun '(m, r) =>
    if i_ok (r_itr r) then
      let m := if front (sts m c) =? page_nil then set_front m c (i_page (r_itr r)) else m in
      let m := if back (sts m c) =? page_nil then set_back m c (i_page (r_itr r))
               else if (back (sts m c) =? i_page i) && negb (ld_page (r_l0 r) =? page_nil) then set_back m c (ld_page (r_l0 r))
               else m in
      COk (set_tot m c (wrap_u64 (tots m c + 1)), r)
    else COk (m, mkR (c_end m) (no_lead m) (no_lead m))).
(** src/x/vmem_container.x.h:299-301, 311-313 *)
Definition c_push_back m (x : A) : cres (mem A * result2 A) := c_insert m (c_end m) x.
(** src/x/vmem_container.x.h:311-313 *)
Definition c_push_front m (x : A) : cres (mem A * result2 A) := c_insert m (c_begin m) x.

(** src/x/vmem_container.x.h:1045-1063, then vmem_page::free on the same page (1030-1032,
    src/x/vmem_pool.x.h:1011-1027) *)
Definition erase_page m (pos : Z) : cres (mem A) :=
  match l_erase (l_init m c) c (mkL pos E_none) with
  | Throw => CAbort
  | Ok (m, _) => COk (free_page m pos)
  end.
(** src/x/vmem_container.x.h:799-853 *)
Definition erase_from_many m (i : citr) : cres (mem A * result2 A) :=
  let p := pages m (i_page i) in
  cbind
    (if i_item i <? p_cnt p - 1 then
       let l0 := if i_item i =? 0 then mkLead Lreplace (i_page i) (p_arr p 0) (p_arr p 1) else no_lead m in
       let n := p_cnt p - i_item i - 1 in
       if t_cap t <? i_item i + n then COob
       else COk (set_arr m (i_page i) (moved (p_arr p) (i_item i) (p_arr p) (i_item i + 1) n), mkR i l0 (no_lead m))
     else
       COk (m, mkR (if p_next p =? page_nil then c_end m else mkI true (p_next p) 0 E_none) (no_lead m) (no_lead m)))
    (fun '(m, r) => COk (set_cnt m (i_page i) (wrap_u16 (p_cnt p - 1)), r)).
(** src/x/vmem_container.x.h:886-946; [pos] is the page of the handle page *)
Definition balance_merge_next m (i : citr) (pos : Z) : cres (mem A * result2 A) :=
  let p := pages m pos in
  let nx := p_next p in
  let q := pages m nx in
  if p_cnt p + p_cnt q <=? t_cap t then
    let l1 := mkLead Lerase nx (p_arr q 0) (m_zero m) in
    if t_cap t <? p_cnt p + p_cnt q then COob
    else
      let r := if i_page i =? nx then mkI true pos (p_cnt p) E_none else i in
      let m := set_arr m pos (moved (p_arr p) (p_cnt p) (p_arr q) 0 (p_cnt q)) in
      let m := set_cnt m pos (wrap_u16 (p_cnt p + p_cnt q)) in
      cbind (erase_page m nx) (fun m => COk (m, mkR r (no_lead m) l1))
  else COk (m, mkR i (no_lead m) (no_lead m)).
(** src/x/vmem_container.x.h:950-1017 *)
Definition balance_merge_prev m (i : citr) (pos : Z) : cres (mem A * result2 A) :=
  let p := pages m pos in
  let pv := p_prev p in
  let q := pages m pv in
  if p_cnt p + p_cnt q <=? t_cap t then
    let l1 := mkLead Lerase pos (p_arr p 0) (m_zero m) in
    if t_cap t <? p_cnt q + p_cnt p then COob
    else
      let r := if i_page i =? pos then
                 (if i_item i =? item_nil then mkI true pv (i_item i) (i_edge i)
                  else mkI true pv (wrap_u16 (i_item i + p_cnt q)) E_none)
               else i in
      let m := set_arr m pv (moved (p_arr q) (p_cnt q) (p_arr p) 0 (p_cnt p)) in
      let m := set_cnt m pv (wrap_u16 (p_cnt q + p_cnt p)) in
      cbind (erase_page m pos) (fun m => COk (m, mkR r (no_lead m) l1))
  else COk (m, mkR i (no_lead m) (no_lead m)).
(** src/x/vmem_container.x.h:857-882 *)
Definition balance_merge m (i : citr) (pos : Z) : cres (mem A * result2 A) :=
  cbind (if p_next (pages m pos) =? page_nil then COk (m, mkR i (no_lead m) (no_lead m)) else balance_merge_next m i pos)
    (fun '(m, r) =>
      if p_prev (pages m pos) =? page_nil then COk (m, r) else balance_merge_prev m i pos).
(** src/x/vmem_container.x.h:732-795 *)
Definition erase_nostate m (i : citr) : cres (mem A * result2 A) :=
  let p := pages m (i_page i) in
  if 1 <? p_cnt p then
    let balance := should_balance_erase m (i_page i) (i_item i) in
    cbind (erase_from_many m i) (fun '(m, r) =>
      if balance && (2 * p_cnt (pages m (i_page i)) <=? t_cap t) then
        cbind (balance_merge m (r_itr r) (i_page i)) (fun '(m, r') => COk (m, mkR (r_itr r') (r_l0 r) (r_l1 r')))
      else COk (m, r))
  else
    let r := if p_next p =? page_nil then c_end m else mkI true (p_next p) 0 E_none in
    let l1 := mkLead Lerase (i_page i) (p_arr p 0) (m_zero m) in
    cbind (erase_page m (i_page i)) (fun m => COk (m, mkR r (no_lead m) l1)).
(** src/x/vmem_container.x.h:675-702 *)
Definition c_erase m (i : citr) : cres (mem A * result2 A) :=
  if negb (can_deref i) then CThrow
  else cbind (erase_nostate m i) (fun '(m, r) =>
    if i_ok (r_itr r) then COk (set_tot m c (wrap_u64 (tots m c - 1)), r)
    else COk (m, mkR (c_end m) (no_lead m) (no_lead m))).
(** src/x/vmem_container.x.h:305-307 *)
Definition c_pop_back m : cres (mem A * result2 A) := c_erase m (c_rend m).
(** src/x/vmem_container.x.h:317-319 *)
Definition c_pop_front m : cres (mem A * result2 A) := c_erase m (c_begin m).
(** src/x/vmem_container.x.h:1088-1092 *)
Definition c_clear m : cres (mem A) :=
  match l_clear (l_init m c) c with Throw => CAbort | Ok m => COk m end.
End Container.

(** A pool with containers whose constructors have run on zeroed states (src/x/vmem_container.x.h:121-162): every
    state holds nil, nil and the item count 0. *)
Definition cont_mem {A} (zero : A) (room : Z) : mem A :=
  mkMem (fun _ => mkPage 0 0 0 0 (fun _ => zero)) 2 room (fun _ => mkState page_nil page_nil) (fun _ => 0) zero.
