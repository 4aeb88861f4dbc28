(** C53: the connect-four board. *)

From Coq Require Import ZArith List Bool.
From Verif Require Import Base Connect4_Model Connect4_Spec Connect4_Calls Connect4_Proofs.
Import ListNotations.
Open Scope Z_scope.

(** *** C53: after any attempts, with any integers for rows and columns, the board shows a game
    [ms] played by the rules.  The next attempt is accepted exactly if it is legal (the lowest free
    cell of a column, the game not finished), and then the board shows the game with that move;
    otherwise the board does not change.  No loop of the model runs out of fuel. *)
Theorem C53_board : forall l, exists b ms, attempts reset l = Some b /\ played ms /\ shows b ms /\
  forall m, exists ok b', accept_move b m = Some (ok, b') /\ (ok = true <-> legal ms m) /\ (if ok then shows b' (m :: ms) else b' = b).
Proof. exact board_rules. Qed.
Definition demo : list move :=
  [(0, 3); (1, 4); (0, 4); (0, 4); (1, 4); (0, 5); (1, 5); (0, 6); (2, 5); (1, 6); (2, 6); (7, 7); (-1, 0); (0, 0)].
Example C53_board_ex : exists b, attempts reset demo = Some b /\
  (over b, winner b, current b, count b) = (false, 2, 0, 10) /\ map (col_size b) [0; 1; 2; 3; 4; 5; 6] = [1; 0; 0; 1; 2; 3; 3] /\
  map (fun r => get_move b (r, 6)) [0; 1; 2; 3; 4; 5] = [1; 1; 0; 2; 2; 2].
Proof. eexists. split; [vm_compute; reflexivity|]. repeat split. Qed.
(** The last disc of a rising diagonal wins. *)
Example C53_winner_ex : exists b, attempts reset (demo ++ [(3, 6)]) = Some b /\ (over b, winner b, count b) = (true, 0, 11).
Proof. eexists. split; [vm_compute; reflexivity|]. repeat split. Qed.

(** Undoing an accepted move restores the position completely. *)
Theorem C53_undo : forall l b m b', attempts reset l = Some b -> accept_move b m = Some (true, b') -> undo_move b' m = (true, b).
Proof. exact undo_exact. Qed.
Example C53_undo_ex : exists b b', attempts reset [(0, 0); (0, 1); (1, 0); (1, 1); (2, 0); (2, 1)] = Some b /\
  accept_move b (3, 0) = Some (true, b') /\ over b' = true /\ winner b' = 0 /\ undo_move b' (3, 0) = (true, b).
Proof. eexists _, _. split; [vm_compute; reflexivity|]. split; [vm_compute; reflexivity|]. repeat split. Qed.

(** undo_move does not look whether there is a disc: on an empty column it reports success and
    leaves a column of seven discs and 2^32 - 1 moves. *)
Theorem C53_undo_empty_refuted : exists m, get_move reset m = nobody /\
  let r := undo_move reset m in fst r = true /\ col_size (snd r) (snd m) = 7 /\ count (snd r) = 4294967295.
Proof. exists (0, 6). vm_compute. repeat split. Qed.

Print Assumptions C53_board.
Print Assumptions C53_undo.
Print Assumptions C53_undo_empty_refuted.
