(** What players rely on when the fast engines keep scores: at every visit a board state has the scores that all earlier
    visits to it left, and nothing else changes them. *)

From Coq Require Import ZArith List Bool.
From Verif Require Import Base Cache_Model Linked_Model Cont_Model Map_Model Map_Spec Scores_Model.
From Verif Require Fast_Model.
Import ListNotations.
Open Scope Z_scope.

(** A visit: the board state, and what becomes of its scores (nothing, when they are only read). *)
Notation visited V := (Z * option (V -> V))%type.
(** The scores of [k] after some visits: new ones, changed by every visit to [k], in order. *)
Definition scores_of {V} (v0 : V) (h : list (visited V)) (k : Z) : V :=
  fold_left (fun w e => if fst e =? k then match snd e with Some f => f w | None => w end else w) h v0.
(** What each visit reads: the scores left by the visits before it. *)
Fixpoint readings {V} (v0 : V) (before h : list (visited V)) : list V :=
  match h with
  | [] => []
  | e :: h => scores_of v0 before (fst e) :: readings v0 (before ++ [e]) h
  end.
(** Before every visit, the pool can give out as many pages as there are key levels, three times, and 4 more. *)
Fixpoint roomy_visits {V} (s : msizes) junk (m : mem (mitem V)) (v0 : V) (h : list (visited V)) : Prop :=
  match h with
  | [] => True
  | (k, f) :: h =>
      fsize m + 3 * c_size c_keys m + 4 <= room m /\
      match visit s junk m v0 k f with COk (m, _) => roomy_visits s junk m v0 h | _ => True end
  end.
(** The same visits with the ideal map of Fast_Model in a pool with room for everything: [n] scores for a board state. *)
Fixpoint ideal_visits (n : nat) (k : Fast_Model.knowledge) (h : list (visited (list Z))) : list (option (list Z)) :=
  match h with
  | [] => []
  | (key, f) :: h =>
      let '(w, k) := Fast_Model.ensure (fun _ _ => true) n k key in
      w :: ideal_visits n (match w, f with Some w, Some f => Fast_Model.store k key (f w) | _, _ => k end) h
  end.
