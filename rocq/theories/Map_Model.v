(** Model of vmem_map (src/x/vmem_map.x.h:34-862, src/i/vmem_map.i.h).

    A map is a container of values in key order, a stack of key levels, and - while a lookup is in use - a stack
    with the path of key pages from the root to the value page.  The model sits on the models of pages, chains and
    containers (Linked_Model, Cont_Model) with their simplifications.  In addition:
    - keys are whole numbers compared with <, <= and ==; a zeroed item has the key 0;
    - container states are numbered: 1 for the values, 2 for the stack of key levels, 3 for the path; a key level
      is used through the number 10 + level: its state is loaded from the item of the stack, and stored back
      (in the code the container works on the item in place, 421-424, 603-606);
    - states on the stack carry the right item_size, so constructors leave them alone;
    - a slot behind the items of a page holds what was left there.  Slots never used are zero; the key read from
      a slot behind the end of the page, or from an item of another type, is given by [junk], which is arbitrary;
    - a page position or state read from an item of another type is the outcome [COob];
    - find_result2 is constructed in place (return value optimisation), and its path is cleared at the end of its
      life by the destructor of vmem_temp (src/x/vmem_list.x.h:62-64). *)

From Coq Require Import ZArith List Bool.
From Verif Require Import Base Cache_Model Linked_Model Cont_Model.
Import ListNotations.
Open Scope Z_scope.

(** src/i/vmem_layout.i.h:92-107, 143-147: items of value pages, key pages, the stack of key levels and the path;
    a zeroed item *)
Inductive mitem (V : Type) := IVal (k : Z) (v : V) | IKey (k p : Z) | IState (s : lstate) (n : Z) | IPath (p : Z) | IBlank.
Arguments IVal {V}. Arguments IKey {V}. Arguments IState {V}. Arguments IPath {V}. Arguments IBlank {V}.
(** src/x/vmem_map.x.h:110-112 *)
Definition c_vals : Z := 1.
(** src/x/vmem_map.x.h:110-112 *)
Definition c_keys : Z := 2.
(** src/i/vmem_map.i.h:259-267 *)
Definition c_path : Z := 3.
(** the key level counted from the values (src/x/vmem_map.x.h:411-424) *)
Definition c_level (lev : nat) : Z := 10 + Z.of_nat lev.
(** sizes of a key and of a value (src/i/vmem_layout.i.h:92-107) *)
Record msizes := mkS { s_key : Z; s_val : Z }.
(** src/i/vmem_map.i.h:95-96: a container with all balancing flags *)
Definition t_vals (s : msizes) : ctype := mkCT (page_capacity (s_key s + s_val s)) 255 255.
(** src/i/vmem_map.i.h:48-49 *)
Definition t_keys (s : msizes) : ctype := mkCT (page_capacity (s_key s + 8)) 255 255.
(** src/i/vmem_map.i.h:71: a stack of vmem_container_state, 26 bytes each (src/i/vmem_layout.i.h:134-147) *)
Definition t_stack : ctype := stack_type (page_capacity 26).
(** src/i/vmem_map.i.h:267: a stack of page positions *)
Definition t_path : ctype := stack_type (page_capacity 8).
(** src/x/vmem_container.x.h:55-58: a lead with the keys of its items *)
Record klead := mkKL { k_op : lead_op; k_page : Z; k_0 : Z; k_1 : Z }.
(** is the operation none? (src/x/vmem_map.x.h:407, 417, 497) *)
Definition is_none (o : lead_op) : bool := match o with Lnone => true | _ => false end.
(** is the operation replace? (src/x/vmem_map.x.h:455) *)
Definition is_replace (o : lead_op) : bool := match o with Lreplace => true | _ => false end.
(** src/i/vmem_map.i.h:228-267 *)
Record fres := mkF { f_itr : citr; f_ok : bool }.

Section Map.
Context {V : Type}.
Variable s : msizes.
Variable junk : mem (mitem V) -> Z -> Z -> Z.
Implicit Types m : mem (mitem V).

(** the key of a lead's item (src/x/vmem_container.x.h:57); the second item of most leads is zero *)
Definition item_key (i : mitem V) : Z := match i with IVal k _ | IKey k _ => k | _ => 0 end.
(** src/x/vmem_container.x.h:55-58 *)
Definition to_klead (l : lead (mitem V)) : klead := mkKL (ld_op l) (ld_page l) (item_key (ld_0 l)) (item_key (ld_1 l)).
(** value_page->items[i].key (src/x/vmem_map.x.h:748, 752) *)
Definition val_key m (pos i : Z) : Z :=
  if t_cap (t_vals s) <=? i then junk m pos i
  else match p_arr (pages m pos) i with IVal k _ => k | IBlank => 0 | _ => junk m pos i end.
(** key_page->items[i].key (src/x/vmem_map.x.h:577, 706) *)
Definition key_key m (pos i : Z) : Z :=
  match p_arr (pages m pos) i with IKey k _ => k | IBlank => 0 | _ => junk m pos i end.
(** key_page->items[i].page_pos (src/x/vmem_map.x.h:701, 707); [None] for an item of another type *)
Definition key_pos m (pos i : Z) : option Z := match p_arr (pages m pos) i with IKey _ p => Some p | _ => None end.

(** The number of steps of a loop of the form for (i = from; i < item_count && test(i); i++)
    (src/x/vmem_map.x.h:577, 706, 748), starting with [n] items to go. *)
Fixpoint scan (n : nat) (i : Z) (test : Z -> bool) : Z :=
  match n with
  | O => i
  | S n => if test i then scan n (i + 1) test else i
  end.
(** src/x/vmem_map.x.h:559-592 *)
Definition key_item_pos m (pos k : Z) : Z :=
  scan (Z.to_nat (p_cnt (pages m pos))) 0 (fun i => key_key m pos i <? k).
(** src/x/vmem_map.x.h:701-711: the child page for a key *)
Definition child m (pos k : Z) : option Z :=
  key_pos m pos (scan (Z.to_nat (p_cnt (pages m pos) - 1)) 1 (fun i => key_key m pos i <=? k) - 1).

(** results of calls on the path and on new levels are not looked at, and exceptions meet a noexcept function
    (src/x/vmem_map.x.h:399, 662) *)
Definition done {B} (r : cres (mem (mitem V) * B)) : cres (mem (mitem V)) :=
  match r with COk (m, _) => COk m | CThrow => CAbort | CAbort => CAbort | COob => COob end.
(** src/x/vmem_map.x.h:684-718: the loop over [n] remaining key levels *)
Fixpoint descend (n : nat) m (pos k : Z) : cres (mem (mitem V) * Z) :=
  match n with
  | O => COk (m, pos)
  | S n =>
      if pos =? page_nil then COk (m, pos)
      else match child m pos k with
           | None => COob
           | Some p =>
               cbind (match n with O => COk m | _ => done (c_push_back t_path c_path m (IPath p)) end)
                 (fun m => descend n m p k)
           end
  end.
(** src/x/vmem_map.x.h:662-768; page_pos is compared with vmem_item_pos_nil (758) *)
Definition find2 m (k : Z) : cres (mem (mitem V) * fres) :=
  let m := set_tot (set_st m c_path (mkState page_nil page_nil)) c_path 0 in
  cbind
    (if negb (c_empty c_keys m) then
       match c_back c_keys m with
       | Some (IState st _) =>
           cbind (done (c_push_back t_path c_path m (IPath (front st))))
             (fun m => descend (Z.to_nat (c_size c_keys m)) m (front st) k)
       | _ => COob
       end
     else COk (m, front (sts m c_vals)))
    (fun '(m, pos) =>
      if pos =? page_nil then COk (m, mkF no_itr false)
      else
        let item := scan (Z.to_nat (p_cnt (pages m pos))) 0 (fun i => val_key m pos i <? k) in
        COk (m, mkF (if pos =? item_nil then no_itr else mkI true pos item E_none) (val_key m pos item =? k))).

(** loads the state of a key level from the stack (src/x/vmem_map.x.h:421-423) *)
Definition load_level m (lev : nat) (i : citr) : cres (mem (mitem V)) :=
  match c_deref m i with
  | Some (IState st n) => COk (set_tot (set_st m (c_level lev) st) (c_level lev) n)
  | _ => COob
  end.
(** the state of the level is the item on the stack (src/x/vmem_map.x.h:421-423) *)
Definition store_level m (lev : nat) (i : citr) : mem (mitem V) :=
  set_arr m (i_page i) (upd (p_arr (pages m (i_page i))) (i_item i) (IState (sts m (c_level lev)) (tots m (c_level lev)))).

(** src/x/vmem_map.x.h:427-446: insertion of the key of a new page into the parent page *)
Definition parent_insert m (lev : nat) (page : Z) (l0 : klead) : cres (mem (mitem V) * result2 (mitem V)) :=
  let pos := key_item_pos m page (k_0 l0) in
  c_insert (t_keys s) (c_level lev) m (mkI true page pos E_none) (IKey (k_0 l0) (k_page l0)).
(** src/x/vmem_map.x.h:447-478: replacement and erasure of a key on the parent page; an item written behind the
    page is [COob], and a slot without a key keeps no page position *)
Definition parent_erase m (lev : nat) (page : Z) (l0 l1 : klead) : cres (mem (mitem V) * result2 (mitem V)) :=
  cbind
    (if is_replace (k_op l0) then
       let pos := key_item_pos m page (k_0 l0) in
       if t_cap (t_keys s) <=? pos then COob
       else
         let p := match key_pos m page pos with Some p => p | None => 0 end in
         COk (set_arr m page (upd (p_arr (pages m page)) pos (IKey (k_1 l0) p)))
     else COk m)
    (fun m => c_erase (t_keys s) (c_level lev) m (mkI true page (key_item_pos m page (k_0 l1)) E_none)).
(** src/x/vmem_map.x.h:411-503: the loop up the levels; it has [n] levels to go.  The result is ok and the leads *)
Fixpoint climb (n lev : nat) (ins : bool) m (ki pi : citr) (l0 l1 : klead) : cres (mem (mitem V) * (bool * klead * klead)) :=
  match n with
  | O => COk (m, (true, l0, l1))
  | S n =>
      if (negb (is_none (k_op l0)) || negb (is_none (k_op l1))) && negb (citr_eqb ki (c_end c_keys m)) && negb (citr_eqb pi (c_rbegin c_path m)) then
        cbind (load_level m lev ki) (fun m =>
          match c_deref m pi with
          | Some (IPath page) =>
              match (if ins then parent_insert m lev page l0 else parent_erase m lev page l0 l1) with
              | CThrow | CAbort => CAbort
              | COob => COob
              | COk (m, r) =>
                  let m := store_level m lev ki in
                  if i_ok (r_itr r) then climb n (S lev) ins m (c_next c_keys m ki) (c_prev c_path m pi) (to_klead (r_l0 r)) (to_klead (r_l1 r))
                  else COk (m, (false, l0, l1))
              end
          | _ => COob
          end)
      else COk (m, (true, l0, l1))
  end.
(** src/x/vmem_map.x.h:508-525: a new key level above two pages *)
Definition new_level m (lev : nat) (l0 l1 : klead) : cres (mem (mitem V)) :=
  let c := c_level lev in
  let m := set_tot (set_st m c (mkState page_nil page_nil)) c 0 in
  cbind (done (c_push_back (t_keys s) c m (IKey (k_0 l1) (k_page l1)))) (fun m =>
  cbind (done (c_push_back (t_keys s) c m (IKey (k_0 l0) (k_page l0)))) (fun m =>
  done (c_push_back t_stack c_keys m (IState (sts m c) (tots m c))))).
(** src/x/vmem_map.x.h:527-540: removal of the top key level when it has one key *)
Definition drop_level m : cres (mem (mitem V)) :=
  if c_empty c_keys m then COk m
  else match c_back c_keys m with
       | Some (IState _ n) => if n =? 1 then done (c_pop_back t_stack c_keys m) else COk m
       | _ => COob
       end.
(** src/x/vmem_map.x.h:399-555 *)
Definition update_key_levels m (ins : bool) (r : result2 (mitem V)) : cres (mem (mitem V) * bool) :=
  let l0 := to_klead (r_l0 r) in
  let l1 := to_klead (r_l1 r) in
  if is_none (k_op l0) && is_none (k_op l1) then COk (m, true)
  else if negb (c_size c_keys m =? c_size c_path m) then COk (m, false)
  else
    let n := Z.to_nat (c_size c_keys m) in
    cbind (climb n 0 ins m (c_begin c_keys m) (c_rend c_path m) l0 l1) (fun '(m, (ok, l0, l1)) =>
      if ok then
        cbind (if ins then (if k_page l0 =? page_nil then COk m else new_level m n l0 l1) else drop_level m)
          (fun m => COk (m, true))
      else COk (m, false)).

(** the end of the life of a find_result2 (src/x/vmem_list.x.h:62-64) *)
Definition drop_path {B} m (b : B) : cres (mem (mitem V) * B) := cbind (c_clear c_path m) (fun m => COk (m, b)).
(** src/x/vmem_map.x.h:309-329 and 253-283: the iterator and ok *)
Definition m_insert m (k : Z) (v : V) : cres (mem (mitem V) * (citr * bool)) :=
  cbind (find2 m k) (fun '(m, f) =>
    if f_ok f then drop_path m (f_itr f, false)
    else
      match c_insert (t_vals s) c_vals m (mkI true (i_page (f_itr f)) (i_item (f_itr f)) (i_edge (f_itr f))) (IVal k v) with
      | CThrow | CAbort => CAbort
      | COob => COob
      | COk (m, r) =>
          if i_ok (r_itr r) then
            cbind (update_key_levels m true r) (fun '(m, ok) => drop_path m (if ok then (r_itr r, true) else (no_itr, false)))
          else drop_path m (no_itr, false)
      end).
(** src/x/vmem_map.x.h:336-359 and 372-392: the number of erased keys *)
Definition m_erase m (k : Z) : cres (mem (mitem V) * Z) :=
  cbind (find2 m k) (fun '(m, f) =>
    if f_ok f then
      match c_erase (t_vals s) c_vals m (mkI true (i_page (f_itr f)) (i_item (f_itr f)) (i_edge (f_itr f))) with
      | CThrow | CAbort => CAbort
      | COob => COob
      | COk (m, r) =>
          if i_ok (r_itr r) then cbind (update_key_levels m false r) (fun '(m, _) => drop_path m 1) else drop_path m 0
      end
    else drop_path m 0).
(** src/x/vmem_map.x.h:772-775 *)
Definition m_find m (k : Z) : cres (mem (mitem V) * citr) :=
  cbind (find2 m k) (fun '(m, f) => drop_path m (if f_ok f then f_itr f else c_end c_vals m)).
(** src/x/vmem_map.x.h:236-246 *)
Definition m_empty m : bool := (front (sts m c_vals) =? page_nil) || (back (sts m c_vals) =? page_nil).
(** src/x/vmem_map.x.h:243-246 *)
Definition m_size m : Z := tots m c_vals.
(** src/x/vmem_map.x.h:599-607: the loop over the key levels, from the top *)
Fixpoint clear_levels (n : nat) m (ki : citr) : cres (mem (mitem V)) :=
  match n with
  | O => COk m
  | S n =>
      if citr_eqb ki (c_rbegin c_keys m) then COk m
      else cbind (load_level m n ki) (fun m => cbind (c_clear (c_level n) m) (fun m =>
             let m := store_level m n ki in clear_levels n m (c_prev c_keys m ki)))
  end.
(** src/x/vmem_map.x.h:599-611 *)
Definition m_clear m : cres (mem (mitem V)) :=
  cbind (clear_levels (Z.to_nat (c_size c_keys m)) m (c_rend c_keys m)) (fun m =>
  cbind (c_clear c_keys m) (fun m => c_clear c_vals m)).
End Map.

(** A pool in which the constructor of the map has run (src/x/vmem_map.x.h:105-161); pages are zeroed memory. *)
Definition map_mem (V : Type) (room : Z) : mem (mitem V) := cont_mem IBlank room.
