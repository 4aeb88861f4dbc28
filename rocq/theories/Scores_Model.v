(** Model of how the fast engines keep their scores in a vmem_map: ensure_board_state_in_map (samples/tictactoe/game.h:499-520,
    samples/connect4/game.h:720-739) and the reads and writes through the iterator it returns
    (samples/tictactoe/game.h:349-433, 452-490, samples/connect4/game.h:550-640, 660-710).

    This is the real map of Map_Model, with its simplifications; Fast_Model has an ideal one in its place.  The scores of
    a board state are one value, which is written as a whole (the code writes one score of it).  A page stays mapped while
    it is written, and the lock is left out. *)

From Coq Require Import ZArith List Bool.
From Verif Require Import Base Cache_Model Linked_Model Cont_Model Map_Model.
Import ListNotations.
Open Scope Z_scope.

(** samples/tictactoe/game.i.h:45, 47, 69, 84: the state is a uint32_t, and there are nine scores of one byte *)
Definition t_sizes : msizes := mkS 4 9.
(** samples/connect4/game.i.h:61, 69, 87, 102: the state is a uint64_t, and there are seven scores of one byte *)
Definition c_sizes : msizes := mkS 8 7.

Section Scores.
Context {V : Type}.
Variable s : msizes.
Variable junk : mem (mitem V) -> Z -> Z -> Z.
Implicit Types m : mem (mitem V).

(** samples/tictactoe/game.h:499-520, samples/connect4/game.h:720-739: the iterator; [v0] are the scores of a new item *)
Definition ensure_in_map m (k : Z) (v0 : V) : cres (mem (mitem V) * citr) :=
  cbind (m_find s junk m k) (fun '(m, i) =>
    if can_deref i then COk (m, i)
    else cbind (m_insert s junk m k v0) (fun '(m, (i, _)) => COk (m, i))).
(** itr->value, read (samples/tictactoe/game.h:456; src/x/vmem_iterator.x.h:207-210, 231-239) *)
Definition scores_at m (i : citr) : cres V :=
  match c_deref m i with
  | Some (IVal _ v) => COk v
  | Some _ => COob
  | None => CThrow
  end.
(** itr->value, written (samples/tictactoe/game.h:461, 471, 481) *)
Definition set_scores m (i : citr) (v : V) : cres (mem (mitem V)) :=
  match c_deref m i with
  | Some (IVal k _) => COk (set_arr m (i_page i) (upd (p_arr (pages m (i_page i))) (i_item i) (IVal k v)))
  | Some _ => COob
  | None => CThrow
  end.
(** One visit to a board state: the scores are read, and, when learning, new ones are written
    (samples/tictactoe/game.h:346-350, 452-490; samples/connect4/game.h:547-551, 655-710) *)
Definition visit m (v0 : V) (k : Z) (f : option (V -> V)) : cres (mem (mitem V) * V) :=
  cbind (ensure_in_map m k v0) (fun '(m, i) =>
  cbind (scores_at m i) (fun w =>
    match f with
    | None => COk (m, w)
    | Some f => cbind (set_scores m i (f w)) (fun m => COk (m, w))
    end)).
(** Visits one after the other, as games go (samples/tictactoe/game.h:337-350, 445-455): the scores read, or that one of
    them fails *)
Fixpoint visits_to m (v0 : V) (h : list (Z * option (V -> V))) : cres (mem (mitem V) * list V) :=
  match h with
  | [] => COk (m, [])
  | (k, f) :: h =>
      cbind (visit m v0 k f) (fun '(m, w) =>
      cbind (visits_to m v0 h) (fun '(m, ws) => COk (m, w :: ws)))
  end.
End Scores.
