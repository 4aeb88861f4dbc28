(** What users of a vmem_map rely on, without looking at pages or key levels. *)

From Coq Require Import ZArith List Bool.
From Verif Require Import Base Cache_Model Linked_Model Cont_Model Cont_Spec Map_Model.
Import ListNotations.
Open Scope Z_scope.

Inductive mop (V : Type) := MInsert (k : Z) (v : V) | MFind (k : Z) | MErase (k : Z).
Arguments MInsert {V}. Arguments MFind {V}. Arguments MErase {V}.
(** What the caller sees: whether the key was inserted; the key and value at the returned iterator if it is not end();
    the number of keys erased. *)
Inductive mout (V : Type) := Inserted (b : bool) | Found (e : option (Z * V)) | Erased (n : Z) | Unreadable.
Arguments Inserted {V}. Arguments Found {V}. Arguments Erased {V}. Arguments Unreadable {V}.

Definition mcall {V} (s : msizes) junk (m : mem (mitem V)) (o : mop V) : option (mem (mitem V) * mout V) :=
  match o with
  | MInsert k v => match m_insert s junk m k v with COk (m, (_, ok)) => Some (m, Inserted ok) | _ => None end
  | MFind k =>
      match m_find s junk m k with
      | COk (m, i) =>
          Some (m, if citr_eqb i (c_end c_vals m) then Found None
                   else match c_deref m i with Some (IVal k v) => Found (Some (k, v)) | _ => Unreadable end)
      | _ => None
      end
  | MErase k => match m_erase s junk m k with COk (m, n) => Some (m, Erased n) | _ => None end
  end.
Fixpoint mcalls {V} (s : msizes) junk (m : mem (mitem V)) (h : list (mop V)) : option (mem (mitem V) * list (mout V)) :=
  match h with
  | [] => Some (m, [])
  | o :: h =>
      match mcall s junk m o with
      | Some (m, out) => match mcalls s junk m h with Some (m, outs) => Some (m, out :: outs) | None => None end
      | None => None
      end
  end.

(** An ordinary map: a list of keys and values without duplicate keys, in ascending order. *)
Fixpoint put {V} (k : Z) (v : V) (l : list (Z * V)) : list (Z * V) :=
  match l with
  | [] => [(k, v)]
  | (j, w) :: r => if k <? j then (k, v) :: l else if k =? j then l else (j, w) :: put k v r
  end.
Definition get {V} (k : Z) (l : list (Z * V)) : option (Z * V) := find (fun e => fst e =? k) l.
Definition without {V} (k : Z) (l : list (Z * V)) : list (Z * V) := filter (fun e => negb (fst e =? k)) l.
Definition ideal_op {V} (l : list (Z * V)) (o : mop V) : list (Z * V) * mout V :=
  match o with
  | MInsert k v => (put k v l, Inserted (if get k l then false else true))
  | MFind k => (l, Found (get k l))
  | MErase k => (without k l, Erased (if get k l then 1 else 0))
  end.
Fixpoint ideal_map {V} (l : list (Z * V)) (h : list (mop V)) : list (Z * V) * list (mout V) :=
  match h with
  | [] => (l, [])
  | o :: h => let '(l, out) := ideal_op l o in let '(l, outs) := ideal_map l h in (l, out :: outs)
  end.
(** The keys and values a walk from begin() to end() comes across. *)
Definition entries {V} (l : list (Z * V)) : list (mitem V) := map (fun e => IVal (fst e) (snd e)) l.
(** The map holds [l]. *)
Definition map_shows {V} (m : mem (mitem V)) (l : list (Z * V)) : Prop := shows m c_vals (entries l).

(** The bytes of the key in slot [i] of a page of values lie on the page (src/i/vmem_layout.i.h:92-107). *)
Definition key_on_page (s : msizes) (i : Z) : Prop := 27 + i * (s_key s + s_val s) + s_key s <= 4096.

(** Histories for which the map works. *)
Definition inserted {V} (h : list (mop V)) : list Z := flat_map (fun o => match o with MInsert k _ => [k] | _ => [] end) h.
Definition called {V} (h : list (mop V)) : list Z := map (fun o => match o with MInsert k _ => k | MFind k => k | MErase k => k end) h.
(** No key that is inserted is less than the first one. *)
Definition lowest_first (l : list Z) : Prop := forall k, In k l -> hd k l <= k.
Definition no_erase {V} (h : list (mop V)) : Prop := forall k, ~ In (MErase k) h.
(** Before every call, the pool can give out as many pages as there are key levels, twice, and 4 more. *)
Fixpoint roomy {V} (s : msizes) junk (m : mem (mitem V)) (h : list (mop V)) : Prop :=
  match h with
  | [] => True
  | o :: h => fsize m + 2 * c_size c_keys m + 4 <= room m /\ match mcall s junk m o with Some (m, _) => roomy s junk m h | None => True end
  end.
(** Sizes of keys and values with which at least two items are on a page (src/i/vmem_layout.i.h:92-107). *)
Definition two_on_page (s : msizes) : Prop := 1 <= s_key s /\ 0 <= s_val s /\ 2 * (s_key s + s_val s) <= 4069 /\ 2 * (s_key s + 8) <= 4069.
(** The number of values that fit on a page (src/i/vmem_layout.i.h:85-107). *)
Definition fit (s : msizes) : Z := (4096 - 27) / (s_key s + s_val s).
(** Starting with the keys of [l], an ordinary map never holds more than [n] keys, and the greatest key it holds is never erased. *)
Fixpoint small_map {V} (n : Z) (l : list (Z * V)) (h : list (mop V)) : Prop :=
  match h with
  | [] => True
  | o :: h =>
      (forall k, o = MErase k -> In k (map fst l) -> exists k', In k' (map fst l) /\ k < k') /\
      Z.of_nat (length (fst (ideal_op l o))) <= n /\ small_map n (fst (ideal_op l o)) h
  end.
