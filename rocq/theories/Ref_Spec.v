(** Specification vocabulary for C111. *)

From Coq Require Import ZArith List.
From Verif Require Import Base Cache_Model.
Import ListNotations.
Open Scope Z_scope.

(** What is at the address [r] is the page [pos]. *)
Definition shows (w : world) (r pos : Z) : Prop := In (r, pos) (os (w_pool w)).
(** The pages that a history asks for. *)
Definition asks_within (ps : list Z) (l : list op) : Prop := forall pos ok, In (New pos ok) l -> In pos ps.
