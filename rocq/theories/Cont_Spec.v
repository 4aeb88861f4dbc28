(** What users of a vmem_list or vmem_stack rely on, without looking at pages. *)

From Coq Require Import ZArith List Bool.
From Verif Require Import Base Cache_Model Linked_Model Cont_Model.
Import ListNotations.
Open Scope Z_scope.

(** Walking forward from [i] with ++ one reads exactly the items [l] and is then at end(). *)
Fixpoint visits {A} (m : mem A) (c : Z) (i : citr) (l : list A) : Prop :=
  match l with
  | [] => citr_eqb i (c_end c m) = true
  | x :: l => citr_eqb i (c_end c m) = false /\ can_deref i = true /\ c_deref m i = Some x /\ visits m c (c_next c m i) l
  end.
(** Walking backward from [i] with -- one reads exactly the items [l] and is then at rbegin(). *)
Fixpoint visits_back {A} (m : mem A) (c : Z) (i : citr) (l : list A) : Prop :=
  match l with
  | [] => citr_eqb i (c_rbegin c m) = true
  | x :: l => citr_eqb i (c_rbegin c m) = false /\ can_deref i = true /\ c_deref m i = Some x /\ visits_back m c (c_prev c m i) l
  end.
(** The last item of a sequence. *)
Definition last_item {A} (l : list A) : option A := hd_error (rev l).
(** The container [c] shows the sequence [l]. *)
Definition shows {A} (m : mem A) (c : Z) (l : list A) : Prop :=
  c_size c m = Z.of_nat (length l) /\ c_empty c m = match l with [] => true | _ => false end /\
  c_front c m = hd_error l /\ c_back c m = last_item l /\
  visits m c (c_begin c m) l /\ visits_back m c (c_rend c m) (rev l).

(** Operations; positions are counted from begin(). *)
Inductive op (A : Type) := PushBack (x : A) | PushFront (x : A) | Insert (k : nat) (x : A) | PopBack | PopFront | Erase (k : nat).
Arguments PushBack {A}. Arguments PushFront {A}. Arguments Insert {A}. Arguments PopBack {A}. Arguments PopFront {A}. Arguments Erase {A}.
(** The iterator [k] steps behind begin(). *)
Definition itr_at {A} (m : mem A) (c : Z) (k : nat) : citr := Nat.iter k (c_next c m) (c_begin c m).
(** What the caller sees: the operation was done, no item was inserted, or an exception was thrown. *)
Inductive outcome := Done | Full | Threw.

(** A call made on container [c] of type [t]: its memory and outcome; [None] when the program ends or a page is
    overrun. *)
Definition observe {A} (m : mem A) (r : cres (mem A * result2 A)) (inserting : bool) : option (mem A * outcome) :=
  match r with
  | COk (m', r) => Some (m', if inserting && negb (can_deref (r_itr r)) then Full else Done)
  | CThrow => Some (m, Threw)
  | CAbort | COob => None
  end.
Definition call {A} (t : ctype) (c : Z) (m : mem A) (o : op A) : option (mem A * outcome) :=
  match o with
  | PushBack x => observe m (c_push_back t c m x) true
  | PushFront x => observe m (c_push_front t c m x) true
  | Insert k x => observe m (c_insert t c m (itr_at m c k) x) true
  | PopBack => observe m (c_pop_back t c m) false
  | PopFront => observe m (c_pop_front t c m) false
  | Erase k => observe m (c_erase t c m (itr_at m c k)) false
  end.
(** A history of calls on any number of containers of one pool. *)
Fixpoint calls {A} (ts : Z -> ctype) (m : mem A) (h : list (Z * op A)) : option (mem A * list outcome) :=
  match h with
  | [] => Some (m, [])
  | (c, o) :: h =>
      match call (ts c) c m o with
      | Some (m, out) => match calls ts m h with Some (m, outs) => Some (m, out :: outs) | None => None end
      | None => None
      end
  end.

(** The same on an ordinary sequence: the sequence afterwards, or [None] if the outcome is not acceptable. *)
Definition insert_at {A} (k : nat) (x : A) (l : list A) : list A := firstn k l ++ x :: skipn k l.
Definition erase_at {A} (k : nat) (l : list A) : list A := firstn k l ++ skipn (S k) l.
Definition ideal {A} (l : list A) (o : op A) (out : outcome) : option (list A) :=
  match o, out with
  | PushBack x, Done => Some (l ++ [x])
  | PushFront x, Done => Some (x :: l)
  | Insert k x, Done => Some (insert_at k x l)
  | (PushBack _ | PushFront _ | Insert _ _), Full => Some l
  | PopBack, Done => if l then None else Some (removelast l)
  | PopFront, Done => if l then None else Some (tl l)
  | Erase k, Done => if (k <? length l)%nat then Some (erase_at k l) else None
  | (PopBack | PopFront), Threw => if l then Some [] else None
  | Erase k, Threw => if (k <? length l)%nat then None else Some l
  | _, _ => None
  end.
Fixpoint ideals {A} (s : Z -> list A) (h : list (Z * op A)) (outs : list outcome) : option (Z -> list A) :=
  match h, outs with
  | [], [] => Some s
  | (c, o) :: h, out :: outs =>
      match ideal (s c) o out with Some l => ideals (upd s c l) h outs | None => None end
  | _, _ => None
  end.
Definition empties {A} : Z -> list A := fun _ => [].

(** Erasures after which the page of the returned iterator is no longer a page of the container: the erased item
    was the only one on the last page; or it was the last item on a page with pages on both sides, and what is
    left of the page fits with the items of the next page on one page. *)
Definition lost {A} (t : ctype) (m : mem A) (i : citr) : bool :=
  let p := pages m (i_page i) in let q := pages m (p_next p) in
  ((p_cnt p =? 1) && (p_next p =? page_nil)) ||
  ((1 <? p_cnt p) && (i_item i =? p_cnt p - 1) && negb (p_next p =? page_nil) && negb (p_prev p =? page_nil) && flag_test (t_ers t) flag_inner &&
   (2 * (p_cnt p - 1) <=? t_cap t) && (p_cnt p - 1 + p_cnt q <=? t_cap t)).

(** Lists and stacks of items of [size] bytes. *)
Definition list_of (size : Z) : ctype := list_type (page_capacity size).
Definition stack_of (size : Z) : ctype := stack_type (page_capacity size).
(** A container of type [t] supports the operation [o]: items of up to 2034 bytes (two on a page) in a list with
    any operation, items of up to 4069 bytes without insertions before the end. *)
Definition supported {A} (t : ctype) (size : Z) (o : op A) : Prop :=
  (t = list_of size /\ 1 <= size <= 2034) \/
  ((t = list_of size \/ t = stack_of size) /\ 1 <= size <= 4069 /\ match o with PushFront _ | Insert _ _ => False | _ => True end).

(** Last in, first out: the stack with its top first. *)
Definition lifo {A} (s : list A) (o : op A) (out : outcome) : option (list A) :=
  match o, out with
  | PushBack x, Done => Some (x :: s)
  | PushBack x, Full => Some s
  | PopBack, Done => match s with [] => None | _ :: s => Some s end
  | PopBack, Threw => match s with [] => Some [] | _ => None end
  | _, _ => None
  end.
Fixpoint lifos {A} (s : list A) (h : list (op A * outcome)) : option (list A) :=
  match h with [] => Some s | (o, out) :: h => match lifo s o out with Some s => lifos s h | None => None end end.
(** The calls on container [c] and their outcomes. *)
Definition on {A} (c : Z) (h : list (Z * op A)) (outs : list outcome) : list (op A * outcome) :=
  map (fun e => (snd (fst e), snd e)) (filter (fun e => fst (fst e) =? c) (combine h outs)).
