(** Specification vocabulary for C112. *)

From Coq Require Import ZArith List Bool.
From Verif Require Import Base Cache_Model Linked_Model Cont_Model.
Import ListNotations.
Open Scope Z_scope.

(** The item at [s] is moved away before it is copied: it is behind the place [i] of the insertion on the same page, and
    if the page is full, both are among the items that stay on it or the first that leaves it (the first half, rounded up). *)
Definition moved_away {A} (t : ctype) (m : mem A) (i s : citr) : bool :=
  (i_page i =? i_page s) && negb (i_item i =? item_nil) && (i_item i <? i_item s) &&
  (negb (p_cnt (pages m (i_page i)) =? t_cap t) || (i_item s <=? t_cap t - t_cap t / 2)).
