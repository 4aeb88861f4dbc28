(** What a user expects of page chains and of page allocation, in terms of lists: each chain is a list of
    pages, the free list is a list of pages, and the pages handed out that are in no chain are a set. *)

From Coq Require Import ZArith List Bool.
From Verif Require Import Base Cache_Model Linked_Model.
Import ListNotations.
Open Scope Z_scope.

(** Following [nxt] from [start] lists exactly the pages [l] and then ends (nil). *)
Fixpoint path (nxt : Z -> Z) (start : Z) (l : list Z) : Prop :=
  match l with
  | [] => start = page_nil
  | x :: l => start = x /\ x <> page_nil /\ path nxt (nxt x) l
  end.

(** What a program can ask of a pool and of the chains in it.  Chains have numbers other than 0. *)
Inductive op :=
| OAlloc                    (* a new page *)
| OFree (p : Z)             (* the page [p], which is in no chain, is freed *)
| OPushBack (c p : Z)
| OPushFront (c p : Z)
| OInsert (c q p : Z)       (* [p] is inserted before [q] *)
| OErase (c q : Z)
| OPopBack (c : Z)
| OPopFront (c : Z)
| OSplice (c d : Z)         (* [d] is moved to the end of [c] *)
| OClear (c : Z).

(** The run of one operation by the code: a chain object is made on the state, and the function is called.
    The result of an allocation is a page; that of an insertion or erasure the page of the iterator. *)
Definition exec {A} (m : mem A) (o : op) : res (mem A * Z) :=
  let ret r := match r with Ok (m, i) => Ok (m, li_page i) | Throw => Throw end in
  let ret0 r := match r with Ok m => Ok (m, 0) | Throw => Throw end in
  match o with
  | OAlloc => Ok (alloc_page m)
  | OFree p => Ok (free_page m p, 0)
  | OPushBack c p => ret (l_push_back (l_init m c) c p)
  | OPushFront c p => ret (l_push_front (l_init m c) c p)
  | OInsert c q p => ret (l_insert (l_init m c) c (mkL q E_none) p)
  | OErase c q => ret (l_erase (l_init m c) c (mkL q E_none))
  | OPopBack c => ret (l_pop_back (l_init m c) c)
  | OPopFront c => ret (l_pop_front (l_init m c) c)
  | OSplice c d => ret0 (l_splice (l_init (l_init m c) d) c d)
  | OClear c => ret0 (l_clear (l_init m c) c)
  end.

(** A history: the memory at the end and the results, or [Throw]. *)
Fixpoint run {A} (m : mem A) (h : list op) : res (mem A * list Z) :=
  match h with
  | [] => Ok (m, [])
  | o :: h => match exec m o with
              | Throw => Throw
              | Ok (m, r) => match run m h with Ok (m, rs) => Ok (m, r :: rs) | Throw => Throw end
              end
  end.

(** The same in terms of lists. *)
Record astate := mkA { ch : Z -> list Z; loose : list Z; npages : Z }.
(** at the start: root page, start page, nothing else *)
Definition a0 : astate := mkA (fun _ => []) [] 2.

(** is [x] in [l]? *)
Definition mem_of (x : Z) (l : list Z) : bool := existsb (Z.eqb x) l.
(** [l] without [x] *)
Definition without (x : Z) (l : list Z) : list Z := filter (fun y => negb (y =? x)) l.
(** [l] with [p] inserted before [q] *)
Fixpoint before (q p : Z) (l : list Z) : list Z :=
  match l with
  | [] => []
  | x :: l => if x =? q then p :: x :: l else x :: before q p l
  end.
(** what follows [q] in [l] *)
Fixpoint after (q : Z) (l : list Z) : Z :=
  match l with
  | [] => page_nil
  | x :: l => if x =? q then hd page_nil l else after q l
  end.
Definition set_ch (a : astate) (c : Z) (l : list Z) : astate := mkA (upd (ch a) c l) (loose a) (npages a).
Definition set_loose (a : astate) (l : list Z) : astate := mkA (ch a) l (npages a).
(** the page [q] of the chain [c] goes to the free list *)
Definition a_erase (a : astate) (c q : Z) : astate :=
  set_ch (set_ch a c (without q (ch a c))) 0 (ch a 0 ++ [q]).

(** [astep room a o] is what [o] should do, or [None] if a program may not do [o] now. *)
Definition astep (room : Z) (a : astate) (o : op) : option (astate * Z) :=
  let own c := negb (c =? 0) in
  match o with
  | OAlloc =>
      match rev (ch a 0) with
      | p :: r => Some (set_loose (set_ch a 0 (rev r)) (p :: loose a), p)
      | [] => if npages a <? room
              then Some (mkA (ch a) (npages a :: loose a) (npages a + 1), npages a)
              else Some (a, page_nil)
      end
  | OFree p => if mem_of p (loose a) then Some (set_loose (set_ch a 0 (ch a 0 ++ [p])) (without p (loose a)), 0) else None
  | OPushBack c p => if own c && mem_of p (loose a) then Some (set_loose (set_ch a c (ch a c ++ [p])) (without p (loose a)), p) else None
  | OPushFront c p => if own c && mem_of p (loose a) then Some (set_loose (set_ch a c (p :: ch a c)) (without p (loose a)), p) else None
  | OInsert c q p => if own c && mem_of p (loose a) && mem_of q (ch a c)
                     then Some (set_loose (set_ch a c (before q p (ch a c))) (without p (loose a)), p) else None
  | OErase c q => if own c && mem_of q (ch a c) then Some (a_erase a c q, after q (ch a c)) else None
  | OPopBack c => match rev (ch a c) with
                  | q :: _ => if own c then Some (a_erase a c q, page_nil) else None
                  | [] => None
                  end
  | OPopFront c => match ch a c with
                   | q :: l => if own c then Some (a_erase a c q, hd page_nil l) else None
                   | [] => None
                   end
  | OSplice c d => if own c && own d && negb (c =? d)
                   then Some (set_ch (set_ch a c (ch a c ++ ch a d)) d [], 0) else None
  | OClear c => if own c then Some (set_ch (set_ch a 0 (ch a 0 ++ ch a c)) c [], 0) else None
  end.

Fixpoint arun (room : Z) (a : astate) (h : list op) : option (astate * list Z) :=
  match h with
  | [] => Some (a, [])
  | o :: h => match astep room a o with
              | None => None
              | Some (a, r) => match arun room a h with Some (a, rs) => Some (a, r :: rs) | None => None end
              end
  end.

(** No chain with pages is moved into a chain without pages (see C44_splice_refuted). *)
Definition no_takeover (a : astate) (o : op) : Prop :=
  match o with
  | OSplice c d => ch a c = [] -> ch a d = []
  | OClear c => ch a 0 = [] -> ch a c = []
  | _ => True
  end.
Fixpoint no_takeovers (room : Z) (a : astate) (h : list op) : Prop :=
  match h with
  | [] => True
  | o :: h => no_takeover a o /\ match astep room a o with Some (a, _) => no_takeovers room a h | None => True end
  end.

(** The chain [c] of the memory is the list [l], in both directions; a state that was never used is zeroed. *)
Definition is_chain {A} (m : mem A) (c : Z) (l : list Z) : Prop :=
  (path (fun x => p_next (pages m x)) (front (sts m c)) l /\ path (fun x => p_prev (pages m x)) (back (sts m c)) (rev l))
  \/ (l = [] /\ sts m c = mkState 0 0).

(** The page is in use: it was handed out and was not freed since. *)
Definition in_use (a : astate) (p : Z) : Prop := In p (loose a) \/ exists c, c <> 0 /\ In p (ch a c).
