(** Model of the page cache of a vmem pool: locking, unlocking, mapping and eviction of pages, and the
    page handles (src/x/vmem_pool.x.h:50-57, 99-137, 459-855, 892-1068; src/i/vmem_pool.i.h:57-75).

    Simplifications.
    - A pointer returned by mmap is the number of the mapping, so that a mapping made later is a different
      pointer; [os] lists the mappings that exist, with the page each of them shows.  Null is 0 and
      MAP_FAILED is -1.
    - The log, msync and the counts that are only logged (hit_count, miss_count, unlock_count, check_count,
      unmap_count) have no effect on the rest and are left out, except hit_count + miss_count (see
      [log_totals]).
    - The allocation of a page position (alloc_page) and its return to the free list (free_page) use page
      handles of their own; for the cache they are further handle operations. *)

From Coq Require Import ZArith List Bool.
From Verif Require Import Base.
Import ListNotations.
Open Scope Z_scope.

(** sys/mman.h; used (unchecked) at src/x/vmem_pool.x.h:783 *)
Definition MAP_FAILED : Z := -1.
(** src/i/vmem_pool.i.h:46 *)
Definition page_nil : Z := 2 ^ 64 - 1.
(** src/i/vmem_pool.i.h:57-62: vmem_mapped_page *)
Record slot := { s_pos : Z; s_ptr : Z; s_lock : Z; s_keep : Z }.
(** src/x/vmem_pool.x.h:713: a slot set to { } *)
Definition no_slot : slot := {| s_pos := 0; s_ptr := 0; s_lock := 0; s_keep := 0 |}.
(** src/i/vmem_pool.i.h:68-75, 330-338: the members of vmem_pool used here.  [slots] is the array
    _mapped_pages, whose length is MaxMappedPages. *)
Record pool := { slots : list slot; count : nat; total_keep : Z; total_locks : Z; os : list (Z * Z); os_next : Z }.
(** src/x/vmem_pool.x.h:52-56: the pool as it is constructed *)
Definition new_pool (max : nat) : pool := {| slots := repeat no_slot max; count := 0; total_keep := 0; total_locks := 0; os := []; os_next := 1 |}.

(** src/x/vmem_pool.x.h:554-566, 656-793: _mapped_pages[i] *)
Definition get_slot (p : pool) (i : nat) : slot := nth i (slots p) no_slot.
(** src/x/vmem_pool.x.h:668-795: assignment to an element of an array *)
Fixpoint set_nth {A} (i : nat) (x : A) (l : list A) : list A :=
  match l with
  | [] => []
  | y :: l => match i with O => x :: l | S i => y :: set_nth i x l end
  end.
(** src/x/vmem_pool.x.h:668-795: _mapped_pages[i] = s *)
Definition set_slot (p : pool) (i : nat) (s : slot) : pool :=
  {| slots := set_nth i s (slots p); count := count p; total_keep := total_keep p; total_locks := total_locks p; os := os p; os_next := os_next p |}.
(** src/x/vmem_pool.x.h:132, 480-494: _mapped_page_count = n *)
Definition set_count (p : pool) (n : nat) : pool :=
  {| slots := slots p; count := n; total_keep := total_keep p; total_locks := total_locks p; os := os p; os_next := os_next p |}.
(** src/x/vmem_pool.x.h:669-673, 738-745: _mapped_page_totals.keep_count = k (32 bits) *)
Definition set_total (p : pool) (k : Z) : pool :=
  {| slots := slots p; count := count p; total_keep := wrap_u32 k; total_locks := total_locks p; os := os p; os_next := os_next p |}.
(** _mapped_page_totals.hit_count++ or miss_count++ (their sum, 32 bits) *)
Definition add_lock (p : pool) : pool :=
  {| slots := slots p; count := count p; total_keep := total_keep p; total_locks := wrap_u32 (total_locks p + 1); os := os p; os_next := os_next p |}.
(** munmap(ptr) at src/x/vmem_pool.x.h:710 *)
Definition munmap (p : pool) (ptr : Z) : pool :=
  {| slots := slots p; count := count p; total_keep := total_keep p; total_locks := total_locks p; os := filter (fun m => negb (fst m =? ptr)) (os p); os_next := os_next p |}.
(** mmap of the page at [pos] at src/x/vmem_pool.x.h:783; [ok]: the operating system can do it *)
Definition mmap (p : pool) (pos : Z) (ok : bool) : pool * Z :=
  if ok then ({| slots := slots p; count := count p; total_keep := total_keep p; total_locks := total_locks p; os := (os_next p, pos) :: os p; os_next := os_next p + 1 |}, os_next p)
  else (p, MAP_FAILED).

(** src/x/vmem_pool.x.h:547-579: find_mapped_page over the first [n] slots from [i]; the index and whether it was found *)
Fixpoint find_from (p : pool) (pos : Z) (n i : nat) : nat * bool :=
  match n with
  | O => (i, false)
  | S n => if s_pos (get_slot p i) =? pos then (i, true) else find_from p pos n (S i)
  end.
(** src/x/vmem_pool.x.h:547-579 *)
Definition find_mapped_page (p : pool) (pos : Z) : nat * bool := find_from p pos (count p) O.
(** src/x/vmem_pool.x.h:583-585 *)
Definition has_mapping_capacity (p : pool) : bool := (count p <? length (slots p))%nat.
(** src/x/vmem_pool.x.h:655-657 *)
Definition should_keep_mapped_page (p : pool) (i : nat) (min_keep : Z) : bool := (0 <? s_lock (get_slot p i)) || (min_keep <? s_keep (get_slot p i)).
(** src/x/vmem_pool.x.h:836-838: the loop of next_empty_i *)
Fixpoint next_empty_loop (fuel : nat) (p : pool) (i next : nat) : nat :=
  match fuel with
  | O => next
  | S fuel => if (next <? i)%nat && negb (s_ptr (get_slot p next) =? 0) then next_empty_loop fuel p i (S next) else next
  end.
(** src/x/vmem_pool.x.h:832-841: next_empty_i; it ends at i at the latest *)
Definition next_empty_i (p : pool) (i empty_i : nat) : nat := next_empty_loop i p i (S empty_i).
(** src/x/vmem_pool.x.h:661-699: keep_mapped_page; empty_i is passed and returned *)
Definition keep_mapped_page (p : pool) (i : nat) (min_keep : Z) (empty_i : nat) : pool * nat :=
  let s := get_slot p i in
  let '(p, s) :=
    if min_keep <? s_keep s
    then (set_total p (total_keep p - min_keep), {| s_pos := s_pos s; s_ptr := s_ptr s; s_lock := s_lock s; s_keep := wrap_u32 (s_keep s - min_keep) |})
    else (set_total p (total_keep p - s_keep s), {| s_pos := s_pos s; s_ptr := s_ptr s; s_lock := s_lock s; s_keep := 0 |}) in
  let p := set_slot p i s in
  if (empty_i <? count p)%nat then
    let p := set_slot p empty_i s in
    let p := set_slot p i no_slot in
    (p, next_empty_i p i empty_i)
  else (p, empty_i).
(** src/x/vmem_pool.x.h:703-733: unmap_mapped_page; empty_i and unmapped_count are passed and returned *)
Definition unmap_mapped_page (p : pool) (i : nat) (empty_i unmapped : nat) : pool * nat * nat :=
  let p := munmap p (s_ptr (get_slot p i)) in
  let p := set_slot p i no_slot in
  (p, if (unmapped =? 0)%nat then i else empty_i, S unmapped).
(** src/x/vmem_pool.x.h:633-640: the loop over the mapped pages, [n] of them from [i] *)
Fixpoint capacity_loop (n : nat) (p : pool) (i : nat) (min_keep : Z) (empty_i unmapped : nat) : pool * nat :=
  match n with
  | O => (p, unmapped)
  | S n =>
      if should_keep_mapped_page p i min_keep
      then let '(p, empty_i) := keep_mapped_page p i min_keep empty_i in capacity_loop n p (S i) min_keep empty_i unmapped
      else let '(p, empty_i, unmapped) := unmap_mapped_page p i empty_i unmapped in capacity_loop n p (S i) min_keep empty_i unmapped
  end.
(** src/x/vmem_pool.x.h:620-651: make_mapping_capacity(min_keep_count) *)
Definition make_capacity_above (p : pool) (min_keep : Z) : pool * nat :=
  let '(p, unmapped) := capacity_loop (count p) p O min_keep (length (slots p)) O in
  (set_count p (count p - unmapped), unmapped).
(** src/x/vmem_pool.x.h:589-616: make_mapping_capacity(); it is called when all slots are used, of which
    there are at least 3 (src/x/vmem_pool.x.h:141), so the division is defined *)
Definition make_mapping_capacity (p : pool) : pool :=
  let '(p, unmapped) := make_capacity_above p (total_keep p / Z.of_nat (count p)) in
  if (0 <? unmapped)%nat then p else fst (make_capacity_above p (wrap_u32 (total_keep p + 1))).
(** src/x/vmem_pool.x.h:737-754: lock_mapped_page *)
Definition lock_mapped_page (p : pool) (i : nat) : pool * Z :=
  let s := get_slot p i in
  let p := set_slot p i {| s_pos := s_pos s; s_ptr := s_ptr s; s_lock := wrap_u32 (s_lock s + 1); s_keep := wrap_u32 (s_keep s + 1) |} in
  (add_lock (set_total p (total_keep p + 1)), s_ptr s).
(** src/x/vmem_pool.x.h:758-776: unlock_mapped_page *)
Definition unlock_mapped_page (p : pool) (i : nat) : pool :=
  let s := get_slot p i in
  set_slot p i {| s_pos := s_pos s; s_ptr := s_ptr s; s_lock := wrap_u32 (s_lock s - 1); s_keep := s_keep s |}.
(** src/x/vmem_pool.x.h:780-803: map_new_page *)
Definition map_new_page (p : pool) (i : nat) (pos : Z) (ok : bool) : pool * Z :=
  let '(p, ptr) := mmap p pos ok in
  let p := set_count p (S (count p)) in
  let p := set_slot p i {| s_pos := pos; s_ptr := ptr; s_lock := 1; s_keep := 1 |} in
  (add_lock (set_total p (total_keep p + 1)), ptr).
(** src/x/vmem_pool.x.h:809-828: the loop of optimize_mapped_page, [n] slots from [j] *)
Fixpoint optimize_loop (n : nat) (p : pool) (j i : nat) : pool :=
  match n with
  | O => p
  | S n => if s_keep (get_slot p j) <? s_keep (get_slot p i)
           then let t := get_slot p j in set_slot (set_slot p j (get_slot p i)) i t
           else optimize_loop n p (S j) i
  end.
(** src/x/vmem_pool.x.h:807-829: optimize_mapped_page *)
Definition optimize_mapped_page (p : pool) (i : nat) : pool := optimize_loop i p O i.
(** src/x/vmem_pool.x.h:460-513: lock_page; the pool and the pointer *)
Definition lock_page (p : pool) (pos : Z) (ok : bool) : pool * Z :=
  let '(i, found) := find_mapped_page p pos in
  let p := if negb found && negb (has_mapping_capacity p) then make_mapping_capacity p else p in
  if negb found && negb (has_mapping_capacity p) then (p, 0)
  else
    let i := if found then i else count p in
    let '(p, ptr) := if (i <? count p)%nat then lock_mapped_page p i else map_new_page p i pos ok in
    (optimize_mapped_page p i, ptr).
(** src/x/vmem_pool.x.h:517-543: unlock_page *)
Definition unlock_page (p : pool) (pos : Z) : pool :=
  let '(i, found) := find_mapped_page p pos in
  if found then unlock_mapped_page p i else p.
(** src/x/vmem_pool.x.h:845-850: log_totals with a log; None = the division by zero *)
Definition log_totals (p : pool) : option Z := if total_locks p =? 0 then None else Some (total_locks p).

(** ** Page handles *)
(** src/i/vmem_pool.i.h:451-454: vmem_page; [h_pool]: the pool pointer is not null *)
Record handle := { h_pool : bool; h_pos : Z; h_ptr : Z }.
(** src/x/vmem_pool.x.h:1062-1068: invalidate *)
Definition no_handle : handle := {| h_pool := false; h_pos := page_nil; h_ptr := 0 |}.
(** src/x/vmem_pool.x.h:1028-1045: lock *)
Definition page_lock (p : pool) (h : handle) (ok : bool) : pool * handle :=
  let '(p, ptr) := lock_page p (h_pos h) ok in (p, {| h_pool := h_pool h; h_pos := h_pos h; h_ptr := ptr |}).
(** src/x/vmem_pool.x.h:1048-1059: unlock *)
Definition page_unlock (p : pool) (h : handle) : pool * handle :=
  if h_pool h && negb (h_pos h =? page_nil) && negb (h_ptr h =? 0)
  then (unlock_page p (h_pos h), {| h_pool := h_pool h; h_pos := h_pos h; h_ptr := 0 |})
  else (p, h).
(** src/x/vmem_pool.x.h:892-916: the constructor, with the position given or allocated (an allocation that
    fails leaves the position nil and locks nothing) *)
Definition page_new (p : pool) (pos : Z) (ok : bool) : pool * handle :=
  let h := {| h_pool := true; h_pos := pos; h_ptr := 0 |} in
  if pos =? page_nil then (p, h) else page_lock p h ok.
(** src/x/vmem_pool.x.h:919-929: the copy constructor *)
Definition page_copy (p : pool) (o : handle) (ok : bool) : pool * handle :=
  if h_pool o && negb (h_pos o =? page_nil) then page_lock p o ok else (p, o).
(** src/x/vmem_pool.x.h:932-940: the move constructor; the new handle and what is left of the other one *)
Definition page_move (o : handle) : handle * handle := (o, no_handle).
(** src/x/vmem_pool.x.h:952-956: the destructor *)
Definition page_destroy (p : pool) (h : handle) : pool := fst (page_unlock p h).
(** src/x/vmem_pool.x.h:1016-1025: free, without what free_page does on its own *)
Definition page_free (p : pool) (h : handle) : pool * handle := (fst (page_unlock p h), no_handle).

(** ** Histories *)
(** src/x/vmem_pool.x.h:892-1025: The variables of a program: [None] is one that has been destroyed. *)
Record world := { w_pool : pool; w_vars : list (option handle) }.
(** src/x/vmem_pool.x.h:892-1025: The operations on handles; the booleans say whether mmap succeeds when it is called. *)
Inductive op :=
| New (pos : Z) (ok : bool)          (* vmem_page v(pool, pos) or vmem_page v(pool) *)
| Copy (i : nat) (ok : bool)         (* vmem_page v(i) *)
| Move (i : nat)                     (* vmem_page v(std::move(i)) *)
| Assign (i j : nat) (ok : bool)     (* i = j *)
| MoveAssign (i j : nat) (ok : bool) (* i = std::move(j) *)
| Free (i : nat)                     (* i.free() *)
| Destroy (i : nat).                 (* the end of the life of i *)
(** src/x/vmem_pool.x.h:892-1025: The variable [i], if it is alive. *)
Definition var (w : world) (i : nat) : option handle := match nth_error (w_vars w) i with Some (Some h) => Some h | _ => None end.
(** src/x/vmem_pool.x.h:892-1025: a change of the variable [i] *)
Definition set_var (w : world) (p : pool) (i : nat) (h : option handle) : world := {| w_pool := p; w_vars := set_nth i h (w_vars w) |}.
(** src/x/vmem_pool.x.h:892-1025: a further variable *)
Definition add_var (w : world) (p : pool) (h : handle) : world := {| w_pool := p; w_vars := w_vars w ++ [Some h] |}.
(** src/x/vmem_pool.x.h:892-1025: one operation; None if it uses a variable that is not alive *)
Definition step (w : world) (o : op) : option world :=
  match o with
  | New pos ok => let '(p, h) := page_new (w_pool w) pos ok in Some (add_var w p h)
  | Copy i ok => match var w i with
                 | Some h => let '(p, h) := page_copy (w_pool w) h ok in Some (add_var w p h)
                 | None => None
                 end
  | Move i => match var w i with
              | Some h => let '(h, h') := page_move h in Some (add_var (set_var w (w_pool w) i (Some h')) (w_pool w) h)
              | None => None
              end
  | Assign i j ok =>                                                    (* 959-973 *)
      match var w i, var w j with
      | Some h, Some _ =>
          let '(p, h) := page_unlock (w_pool w) h in
          let w := set_var w p i (Some h) in
          match var w j with                                            (* read after the unlock: i and j may be the same *)
          | Some o => let '(p, h) := page_copy (w_pool w) o ok in Some (set_var w p i (Some h))
          | None => None
          end
      | _, _ => None
      end
  | MoveAssign i j ok =>                                                (* 976-993 *)
      match var w i, var w j with
      | Some h, Some _ =>
          let '(p, h) := page_unlock (w_pool w) h in
          let w := set_var w p i (Some h) in
          match var w j with
          | Some o =>
              let '(p, h) := page_copy (w_pool w) o ok in
              let w := set_var w p i (Some h) in
              match var w j with
              | Some o => let '(p, _) := page_unlock (w_pool w) o in Some (set_var w p j (Some no_handle))
              | None => None
              end
          | None => None
          end
      | _, _ => None
      end
  | Free i => match var w i with
              | Some h => let '(p, h) := page_free (w_pool w) h in Some (set_var w p i (Some h))
              | None => None
              end
  | Destroy i => match var w i with
                 | Some h => Some (set_var w (page_destroy (w_pool w) h) i None)
                 | None => None
                 end
  end.
(** src/x/vmem_pool.x.h:892-1025: A history from a pool with [max] slots. *)
Fixpoint run (w : world) (l : list op) : option world :=
  match l with
  | [] => Some w
  | o :: l => match step w o with Some w => run w l | None => None end
  end.
(** src/x/vmem_pool.x.h:892-1025 *)
Definition start (max : nat) : world := {| w_pool := new_pool max; w_vars := [] |}.
(** src/x/vmem_pool.x.h:114-122: the loop of the destructor of the pool, [n] slots from [i] *)
Fixpoint destroy_loop (n : nat) (p : pool) (i : nat) : pool :=
  match n with
  | O => p
  | S n => destroy_loop n (fst (fst (unmap_mapped_page p i (count p) O))) (S i)
  end.
(** src/x/vmem_pool.x.h:100-137: the destructor of the pool *)
Definition destroy_pool (p : pool) : pool := set_count (destroy_loop (count p) p O) O.
