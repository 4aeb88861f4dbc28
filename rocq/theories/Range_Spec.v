(** What users of the calls with ranges rely on. *)

From Coq Require Import ZArith List Bool.
From Verif Require Import Base Cache_Model Linked_Model Cont_Model Cont_Spec Map_Model Map_Spec Range_Model.
Import ListNotations.
Open Scope Z_scope.

(** The items [xs] are put before the item number [k]. *)
Definition insert_all {A} (k : nat) (xs l : list A) : list A := firstn k l ++ xs ++ skipn k l.
(** The item at [i] is not the last one on its page, and the page has room for [n] more (src/i/vmem_layout.i.h:61-73). *)
Definition room_inside {A} (t : ctype) (m : mem A) (i : citr) (n : nat) : Prop :=
  i_item i + 1 < p_cnt (pages m (i_page i)) /\ p_cnt (pages m (i_page i)) + Z.of_nat n <= t_cap t.
(** The last page has room for [n] more items. *)
Definition room_behind {A} (t : ctype) (m : mem A) (c : Z) (n : nat) : Prop :=
  p_cnt (pages m (back (sts m c))) + Z.of_nat n <= t_cap t.

(** Insertions of keys and values into a map, one by one. *)
Definition one_by_one {V} (es : list (Z * V)) : list (mop V) := map (fun e => MInsert (fst e) (snd e)) es.
(** No key is among the keys [l], and none is there twice. *)
Definition new_keys {V} (l : list Z) (es : list (Z * V)) : Prop := NoDup (map fst es) /\ forall k, In k (map fst es) -> ~ In k l.
