(** Model of vmem_pool objects that are made, moved and destroyed while page handles are alive (src/x/vmem_pool.x.h:44-137, 332-352, 892-1068).

    The cache of each pool object is that of Cache_Model.

    Simplifications.
    - The constructor of a pool that succeeds is one step; the handles it uses for the root and start pages are gone when it ends, and the pages
      that it leaves mapped are left out.  A constructor that throws is not modelled.
    - The number of a file (the descriptor) is not used again after close().
    - mmap() fails for the descriptor -1.  A position for a new handle is given (alloc_page() is not modelled).

    [None] = undefined behaviour: the use of a variable or of a pool object that is gone. *)

From Coq Require Import ZArith List Bool.
From Verif Require Import Base Cache_Model.
Import ListNotations.
Open Scope Z_scope.

(** src/i/vmem_pool.i.h:330-338: a pool object *)
Record owner := mkP { p_cache : pool; p_fd : Z; p_ready : bool }.
(** src/i/vmem_pool.i.h:451-454: a handle; [g_of]: the pool object that _pool points to, unless _pool is null *)
Record hnd := mkG { g_h : handle; g_of : nat }.
(** src/x/vmem_pool.x.h:44-137: the pool objects (none: destroyed), the handles, the descriptors returned by open() and given to close(), the
    mappings left by destroyed pools, and the pages given back (descriptor and position) *)
Record world := mkW { w_pools : list (option owner); w_vars : list (option hnd); w_opened : list Z; w_closed : list Z; w_left : list (Z * Z); w_freed : list (Z * Z) }.
(** src/x/vmem_pool.x.h:44-137: before the program *)
Definition nothing : world := mkW [] [] [] [] [] [].

(** src/x/vmem_pool.x.h:44-137, 892-1068: the operations *)
Inductive op :=
| POpen (max : nat)                     (* vmem_pool p(path): 44-77 *)
| PMove (k : nat)                       (* vmem_pool p(std::move(k)): 80-97 *)
| PEnd (k : nat)                        (* the end of the life of the pool k: 100-137 *)
| HNew (k : nat) (pos : Z) (ok : bool)  (* vmem_page v(&k, pos): 899-916 *)
| HCopy (i : nat) (ok : bool)           (* vmem_page v(i): 919-929 *)
| HMove (i : nat)                       (* vmem_page v(std::move(i)): 932-940 *)
| HAssign (i j : nat) (ok : bool)       (* i = j: 959-973 *)
| HMoveAssign (i j : nat) (ok : bool)   (* i = std::move(j): 976-993 *)
| HFree (i : nat)                       (* i.free(): 1016-1025 *)
| HDestroy (i : nat).                   (* the end of the life of the handle i: 952-956 *)

(** src/x/vmem_pool.x.h:44-137: the pool object [k], if it is alive *)
Definition pool_at (w : world) (k : nat) : option owner := match nth_error (w_pools w) k with Some (Some o) => Some o | _ => None end.
(** src/x/vmem_pool.x.h:44-137: a change of the pool object [k] *)
Definition set_pool (w : world) (k : nat) (o : option owner) : world := mkW (set_nth k o (w_pools w)) (w_vars w) (w_opened w) (w_closed w) (w_left w) (w_freed w).
(** src/x/vmem_pool.x.h:892-956: the handle [i], if it is alive *)
Definition hvar (w : world) (i : nat) : option hnd := match nth_error (w_vars w) i with Some (Some g) => Some g | _ => None end.
(** src/x/vmem_pool.x.h:892-956: a change of the handle [i]; a further handle *)
Definition set_hvar (w : world) (i : nat) (g : option hnd) : world := mkW (w_pools w) (set_nth i g (w_vars w)) (w_opened w) (w_closed w) (w_left w) (w_freed w).
(** src/x/vmem_pool.x.h:892-956 *)
Definition add_hvar (w : world) (g : hnd) : world := mkW (w_pools w) (w_vars w ++ [Some g]) (w_opened w) (w_closed w) (w_left w) (w_freed w).

(** src/x/vmem_pool.x.h:53-57, 65-74: the constructor *)
Definition pool_open (w : world) (max : nat) : world :=
  let fd := Z.of_nat (length (w_opened w)) in
  mkW (w_pools w ++ [Some (mkP (new_pool max) fd true)]) (w_vars w) (fd :: w_opened w) (w_closed w) (w_left w) (w_freed w).
(** src/x/vmem_pool.x.h:90-95: what is left of a pool that was moved from *)
Definition pool_emptied (p : pool) : pool := {| slots := repeat no_slot (length (slots p)); count := 0; total_keep := 0; total_locks := 0; os := []; os_next := os_next p |}.
(** src/x/vmem_pool.x.h:80-97: the move constructor *)
Definition pool_move (w : world) (k : nat) : option world :=
  match pool_at w k with
  | Some o =>
      let w' := set_pool w k (Some (mkP (pool_emptied (p_cache o)) (-1) false)) in
      Some (mkW (w_pools w' ++ [Some o]) (w_vars w') (w_opened w') (w_closed w') (w_left w') (w_freed w'))
  | None => None
  end.
(** src/x/vmem_pool.x.h:100-137: the destructor *)
Definition pool_end (w : world) (k : nat) : option world :=
  match pool_at w k with
  | Some o =>
      let w' := set_pool w k None in
      if p_ready o && (0 <=? p_fd o)
      then Some (mkW (w_pools w') (w_vars w') (w_opened w') (p_fd o :: w_closed w') (os (destroy_pool (p_cache o)) ++ w_left w') (w_freed w'))
      else Some (mkW (w_pools w') (w_vars w') (w_opened w') (w_closed w') (os (p_cache o) ++ w_left w') (w_freed w'))
  | None => None
  end.

(** src/x/vmem_pool.x.h:1028-1045: lock() *)
Definition h_lock (w : world) (g : hnd) (ok : bool) : option (world * hnd) :=
  match pool_at w (g_of g) with
  | Some o => let '(p, h) := page_lock (p_cache o) (g_h g) (ok && (0 <=? p_fd o)) in
              Some (set_pool w (g_of g) (Some (mkP p (p_fd o) (p_ready o))), mkG h (g_of g))
  | None => None
  end.
(** src/x/vmem_pool.x.h:1048-1059: unlock() *)
Definition h_unlock (w : world) (g : hnd) : option (world * hnd) :=
  if h_pool (g_h g) && negb (h_pos (g_h g) =? page_nil) && negb (h_ptr (g_h g) =? 0)
  then match pool_at w (g_of g) with
       | Some o => let '(p, h) := page_unlock (p_cache o) (g_h g) in
                   Some (set_pool w (g_of g) (Some (mkP p (p_fd o) (p_ready o))), mkG h (g_of g))
       | None => None
       end
  else Some (w, g).
(** src/x/vmem_pool.x.h:920-928: a copy of [g] *)
Definition h_copy (w : world) (g : hnd) (ok : bool) : option (world * hnd) :=
  if h_pool (g_h g) && negb (h_pos (g_h g) =? page_nil) then h_lock w g ok else Some (w, g).
(** src/x/vmem_pool.x.h:1019-1021, 357-369: free_page() of the page of a handle *)
Definition h_free_page (w : world) (g : hnd) : option world :=
  if h_pos (g_h g) =? page_nil then Some w
  else if h_pool (g_h g)
       then match pool_at w (g_of g) with
            | Some o => Some (if p_ready o then mkW (w_pools w) (w_vars w) (w_opened w) (w_closed w) (w_left w) ((p_fd o, h_pos (g_h g)) :: w_freed w) else w)
            | None => None
            end
       else None.

(** src/x/vmem_pool.x.h:44-137, 892-1068: one operation *)
Definition step (w : world) (e : op) : option world :=
  match e with
  | POpen max => Some (pool_open w max)
  | PMove k => pool_move w k
  | PEnd k => pool_end w k
  | HNew k pos ok =>
      match pool_at w k with
      | Some _ =>
          let g := mkG {| h_pool := true; h_pos := pos; h_ptr := 0 |} k in
          if pos =? page_nil then Some (add_hvar w g)
          else match h_lock w g ok with Some (w, g) => Some (add_hvar w g) | None => None end
      | None => None
      end
  | HCopy i ok =>
      match hvar w i with
      | Some g => match h_copy w g ok with Some (w, g) => Some (add_hvar w g) | None => None end
      | None => None
      end
  | HMove i =>
      match hvar w i with
      | Some g => Some (add_hvar (set_hvar w i (Some (mkG no_handle (g_of g)))) g)
      | None => None
      end
  | HAssign i j ok =>
      match hvar w i, hvar w j with
      | Some g, Some _ =>
          match h_unlock w g with
          | Some (w, g) =>
              let w := set_hvar w i (Some g) in
              match hvar w j with
              | Some o => match h_copy w o ok with Some (w, g) => Some (set_hvar w i (Some g)) | None => None end
              | None => None
              end
          | None => None
          end
      | _, _ => None
      end
  | HMoveAssign i j ok =>
      match hvar w i, hvar w j with
      | Some g, Some _ =>
          match h_unlock w g with
          | Some (w, g) =>
              let w := set_hvar w i (Some g) in
              match hvar w j with
              | Some o =>
                  match h_copy w o ok with
                  | Some (w, g) =>
                      let w := set_hvar w i (Some g) in
                      match hvar w j with
                      | Some o => match h_unlock w o with Some (w, o) => Some (set_hvar w j (Some (mkG no_handle (g_of o)))) | None => None end
                      | None => None
                      end
                  | None => None
                  end
              | None => None
              end
          | None => None
          end
      | _, _ => None
      end
  | HFree i =>
      match hvar w i with
      | Some g => match h_unlock w g with
                  | Some (w, g) => match h_free_page w g with Some w => Some (set_hvar w i (Some (mkG no_handle (g_of g)))) | None => None end
                  | None => None
                  end
      | None => None
      end
  | HDestroy i =>
      match hvar w i with
      | Some g => match h_unlock w g with Some (w, _) => Some (set_hvar w i None) | None => None end
      | None => None
      end
  end.
(** src/x/vmem_pool.x.h:44-137, 892-1068: a program *)
Fixpoint run (w : world) (l : list op) : option world :=
  match l with
  | [] => Some w
  | e :: l => match step w e with Some w => run w l | None => None end
  end.
