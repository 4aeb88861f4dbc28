(** Model of the pages of a vmem pool, of chains of pages (vmem_linked) and of the allocation of pages
    (src/x/vmem_linked.x.h:37-700, src/x/vmem_pool.x.h:307-453, 864-886, 996-1027; src/i/vmem_layout.i.h:55-73).

    Simplifications.
    - Every page that is accessed can be locked: the failures of lock_page are the subject of the model of the
      page cache (Cache_Model).  The branches taken when a page cannot be locked are left out.
    - The pool is ready, that is, its constructor has finished.
    - A page is seen as its linked-page header, its item count and its array of items.  The items of all
      containers of the pool have one type [A]; [m_zero] is the item whose bytes are all 0.
    - A state (front and back page of a chain) is a structure somewhere in memory; here it has a number.
      Number 0 is vmem_root_page::free_pages.
    - [fsize] is the number of pages in the file, and the file can grow to [room] pages.
    - Iterators of a chain always have item_pos nil; the field is left out together with the exception thrown
      for other values (src/x/vmem_linked.x.h:217-219).
    - The log is left out (see C49). *)

From Coq Require Import ZArith List Bool.
From Verif Require Import Base Cache_Model.
Import ListNotations.
Open Scope Z_scope.

(** src/i/vmem_layout.i.h:55-59, 69-73: vmem_linked_page followed by item_count and items *)
Record page (A : Type) := mkPage { p_pos : Z; p_prev : Z; p_next : Z; p_cnt : Z; p_arr : Z -> A }.
Arguments mkPage {A}. Arguments p_pos {A}. Arguments p_prev {A}. Arguments p_next {A}. Arguments p_cnt {A}. Arguments p_arr {A}.
(** src/i/vmem_layout.i.h:134-137: vmem_linked_state *)
Record lstate := mkState { front : Z; back : Z }.
(** The memory: pages of the file (src/x/vmem_pool.x.h), states, and the item counts
    vmem_container_state::total_item_count (src/i/vmem_layout.i.h:144-147). *)
Record mem (A : Type) := mkMem { pages : Z -> page A; fsize : Z; room : Z; sts : Z -> lstate; tots : Z -> Z; m_zero : A }.
Arguments mkMem {A}. Arguments pages {A}. Arguments fsize {A}. Arguments room {A}. Arguments sts {A}. Arguments tots {A}. Arguments m_zero {A}.

(** assignment to one place of a memory (a page at src/i/vmem_layout.i.h:55-59, a state at 134-137) *)
Definition upd {B} (f : Z -> B) (k : Z) (v : B) : Z -> B := fun x => if x =? k then v else f x.
(** writing a page (src/i/vmem_layout.i.h:55-73) *)
Definition set_page {A} (m : mem A) (pos : Z) (p : page A) : mem A :=
  mkMem (upd (pages m) pos p) (fsize m) (room m) (sts m) (tots m) (m_zero m).
(** linked_page->page_pos = v; linked_page->prev_page_pos = v; linked_page->next_page_pos = v
    (src/i/vmem_layout.i.h:56-58) *)
Definition set_pos {A} (m : mem A) (pos v : Z) : mem A :=
  let p := pages m pos in set_page m pos (mkPage v (p_prev p) (p_next p) (p_cnt p) (p_arr p)).
(** see [set_pos] (src/i/vmem_layout.i.h:57) *)
Definition set_prev {A} (m : mem A) (pos v : Z) : mem A :=
  let p := pages m pos in set_page m pos (mkPage (p_pos p) v (p_next p) (p_cnt p) (p_arr p)).
(** see [set_pos] (src/i/vmem_layout.i.h:58) *)
Definition set_next {A} (m : mem A) (pos v : Z) : mem A :=
  let p := pages m pos in set_page m pos (mkPage (p_pos p) (p_prev p) v (p_cnt p) (p_arr p)).
(** writing a state (src/i/vmem_layout.i.h:134-137) *)
Definition set_st {A} (m : mem A) (c : Z) (s : lstate) : mem A :=
  mkMem (pages m) (fsize m) (room m) (upd (sts m) c s) (tots m) (m_zero m).
(** _state->front_page_pos = v (src/i/vmem_layout.i.h:135) *)
Definition set_front {A} (m : mem A) (c v : Z) : mem A := set_st m c (mkState v (back (sts m c))).
(** _state->back_page_pos = v (src/i/vmem_layout.i.h:136) *)
Definition set_back {A} (m : mem A) (c v : Z) : mem A := set_st m c (mkState (front (sts m c)) v).

(** What a call can do: return, or throw (src/x/vmem_linked.x.h:217-223, 373-375, 509-511). *)
Inductive res (B : Type) := Ok (b : B) | Throw.
Arguments Ok {B}. Arguments Throw {B}.

(** src/i/vmem_iterator.i.h:40-55 *)
Inductive edge := E_none | E_rbegin | E_end.
(** src/x/vmem_iterator.x.h:57-67 on edges *)
Definition edge_eqb (a b : edge) : bool :=
  match a, b with E_none, E_none => true | E_rbegin, E_rbegin => true | E_end, E_end => true | _, _ => false end.
(** An iterator of a chain (src/x/vmem_iterator.x.h:36-47). *)
Record litr := mkL { li_page : Z; li_edge : edge }.
(** src/x/vmem_iterator.x.h:57-67: operator == of iterators of the same chain *)
Definition litr_eqb (a b : litr) : bool := (li_page a =? li_page b) && edge_eqb (li_edge a) (li_edge b).

(** src/x/vmem_linked.x.h:37-52, 56-82: the constructor of vmem_linked on the state [c] *)
Definition l_init {A} (m : mem A) (c : Z) : mem A :=
  let s := sts m c in
  if ((front s =? page_nil) && (back s =? page_nil)) || ((front s =? 0) && (back s =? 0))
  then set_st m c (mkState page_nil page_nil) else m.
(** src/x/vmem_linked.x.h:158-161 *)
Definition l_empty {A} (m : mem A) (c : Z) : bool := (front (sts m c) =? page_nil) || (back (sts m c) =? page_nil).
(** src/x/vmem_linked.x.h:680-682 *)
Definition l_end : litr := mkL page_nil E_end.
(** src/x/vmem_linked.x.h:696-698 *)
Definition l_rbegin : litr := mkL page_nil E_rbegin.
(** src/x/vmem_linked.x.h:670-676 *)
Definition l_begin {A} (m : mem A) (c : Z) : litr :=
  if front (sts m c) =? page_nil then l_end else mkL (front (sts m c)) E_none.
(** src/x/vmem_linked.x.h:686-692 *)
Definition l_rend {A} (m : mem A) (c : Z) : litr :=
  if back (sts m c) =? page_nil then l_rbegin else mkL (back (sts m c)) E_none.
(** src/x/vmem_linked.x.h:578-617 *)
Definition l_next {A} (m : mem A) (c : Z) (i : litr) : litr :=
  if litr_eqb i l_end then l_end
  else if litr_eqb i l_rbegin then l_begin m c
  else if litr_eqb i (l_rend m c) then l_end
  else if negb (li_page i =? page_nil) then
    let n := p_next (pages m (li_page i)) in
    mkL n (if n =? page_nil then E_end else E_none)
  else l_end.
(** src/x/vmem_linked.x.h:621-660 *)
Definition l_prev {A} (m : mem A) (c : Z) (i : litr) : litr :=
  if litr_eqb i l_rbegin then l_rbegin
  else if litr_eqb i (l_begin m c) then l_rbegin
  else if litr_eqb i l_end then l_rend m c
  else if negb (li_page i =? page_nil) then
    let n := p_prev (pages m (li_page i)) in
    mkL n (if n =? page_nil then E_rbegin else E_none)
  else l_rbegin.
(** src/x/vmem_linked.x.h:165-185, 664-666: front() and back() read the page_pos stored in the page *)
Definition l_front {A} (m : mem A) (c : Z) : Z := p_pos (pages m (li_page (l_begin m c))).
(** see [l_front] (src/x/vmem_linked.x.h:177-185) *)
Definition l_back {A} (m : mem A) (c : Z) : Z := p_pos (pages m (li_page (l_rend m c))).

(** src/x/vmem_linked.x.h:266-365 *)
Definition l_insert_nostate {A} (m : mem A) (c : Z) (i : litr) (pos back_pos : Z) : mem A :=
  let m := set_pos m pos pos in
  let m := set_prev m pos page_nil in
  let m := set_next m pos page_nil in
  if l_empty m c then m
  else if li_page i =? page_nil then
    let m := set_next m back_pos pos in
    set_prev m pos back_pos
  else
    let nx := li_page i in
    if p_prev (pages m nx) =? page_nil then
      let m := set_next m pos nx in
      set_prev m nx pos
    else
      let pv := p_prev (pages m nx) in
      let m := set_next m pv pos in
      let m := set_prev m pos pv in
      let m := set_next m pos nx in
      set_prev m nx pos.
(** src/x/vmem_linked.x.h:216-262 *)
Definition l_insert {A} (m : mem A) (c : Z) (i : litr) (pos : Z) : res (mem A * litr) :=
  if (li_page i =? page_nil) && negb (edge_eqb (li_edge i) E_end) then Throw
  else
    let m := l_insert_nostate m c i pos (back (sts m c)) in
    let m := if (front (sts m c) =? page_nil) || (front (sts m c) =? li_page i) then set_front m c pos else m in
    let m := if (back (sts m c) =? page_nil) || edge_eqb (li_edge i) E_end then set_back m c pos else m in
    Ok (m, mkL pos E_none).
(** src/x/vmem_linked.x.h:189-191 *)
Definition l_push_back {A} (m : mem A) (c pos : Z) : res (mem A * litr) := l_insert m c l_end pos.
(** src/x/vmem_linked.x.h:201-203 *)
Definition l_push_front {A} (m : mem A) (c pos : Z) : res (mem A * litr) := l_insert m c (l_begin m c) pos.

(** src/x/vmem_pool.x.h:397-420, 340-353: free_page of a ready pool.  push_back never throws there. *)
Definition free_page {A} (m : mem A) (pos : Z) : mem A :=
  if pos =? page_nil then m
  else
    let m := l_init m 0 in
    match l_push_back m 0 pos with Ok (m, _) => m | Throw => m end.
(** src/x/vmem_linked.x.h:412-486; the second result is the reference parameter back_page_pos, which the
    caller sets to nil *)
Definition l_erase_nostate {A} (m : mem A) (i : litr) : mem A * Z :=
  let pos := li_page i in
  let m := if p_prev (pages m pos) =? page_nil then m
           else set_next m (p_prev (pages m pos)) (p_next (pages m pos)) in
  let '(m, back_pos) :=
    if p_next (pages m pos) =? page_nil then (m, p_prev (pages m pos))
    else (set_prev m (p_next (pages m pos)) (p_prev (pages m pos)), page_nil) in
  (free_page m pos, back_pos).
(** src/x/vmem_linked.x.h:372-408 *)
Definition l_erase {A} (m : mem A) (c : Z) (i : litr) : res (mem A * litr) :=
  if (li_page i =? page_nil) || negb (edge_eqb (li_edge i) E_none) then Throw
  else
    let r := l_next m c i in
    let '(m, back_pos) := l_erase_nostate m i in
    let m := if front (sts m c) =? li_page i then set_front m c (li_page r) else m in
    let m := if back (sts m c) =? li_page i then set_back m c back_pos else m in
    Ok (m, r).
(** src/x/vmem_linked.x.h:195-197 *)
Definition l_pop_back {A} (m : mem A) (c : Z) : res (mem A * litr) := l_erase m c (l_rend m c).
(** src/x/vmem_linked.x.h:207-209 *)
Definition l_pop_front {A} (m : mem A) (c : Z) : res (mem A * litr) := l_erase m c (l_begin m c).
(** src/x/vmem_linked.x.h:502-571: [c].splice([d]) *)
Definition l_splice {A} (m : mem A) (c d : Z) : res (mem A) :=
  if c =? d then Throw
  else if l_empty m d then Ok m
  else if l_empty m c then Ok (set_st m c (sts m d))
  else
    let m := set_next m (back (sts m c)) (front (sts m d)) in
    let m := set_prev m (front (sts m d)) (back (sts m c)) in
    let m := set_back m c (back (sts m d)) in
    Ok (set_st m d (mkState page_nil page_nil)).
(** src/x/vmem_linked.x.h:493-495, src/x/vmem_pool.x.h:864-886 *)
Definition l_clear {A} (m : mem A) (c : Z) : res (mem A) := l_splice (l_init m 0) 0 c.

(** src/x/vmem_pool.x.h:424-453: write of a blank page at the end of the file *)
Definition create_page {A} (m : mem A) : mem A * Z :=
  if fsize m <? room m then
    (mkMem (upd (pages m) (fsize m) (mkPage 0 0 0 0 (fun _ => m_zero m))) (fsize m + 1) (room m) (sts m) (tots m) (m_zero m), fsize m)
  else (m, page_nil).
(** src/x/vmem_pool.x.h:356-393 *)
Definition pop_free {A} (m : mem A) : mem A * Z :=
  let m := l_init m 0 in
  if l_empty m 0 then (m, page_nil)
  else
    let pos := l_back m 0 in
    match l_pop_back m 0 with Ok (m, _) => (m, pos) | Throw => (m, pos) end.
(** src/x/vmem_pool.x.h:310-336 *)
Definition alloc_page {A} (m : mem A) : mem A * Z :=
  let '(m, pos) := pop_free m in
  if pos =? page_nil then create_page m else (m, pos).

(** A pool just created (src/x/vmem_pool.x.h:188-237): a root page and a start page; the free list is not in
    use, and no container has been made: all other states are still zeroed memory. *)
Definition new_mem {A} (zero : A) (room : Z) : mem A :=
  mkMem (fun _ => mkPage 0 0 0 0 (fun _ => zero)) 2 room (fun c => if c =? 0 then mkState page_nil page_nil else mkState 0 0) (fun _ => 0) zero.
