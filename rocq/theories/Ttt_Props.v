(** C50-C52 and C59: the tic-tac-toe board, undo, the slow engine and the seats of a game. *)

From Coq Require Import ZArith List Bool.
From Verif Require Import Base Ttt_Model Ttt_Spec Ttt_Calls Ttt_Proofs Ttt_Engine Ttt_Seats.
Import ListNotations.
Open Scope Z_scope.

(** *** C50: after any attempts, with any integers for rows and columns, the board shows a game
    [ms] played by the rules; the next attempt is accepted exactly if it is legal, and then the
    board shows the game with that move; otherwise the board does not change. *)
Theorem C50_board : forall l, exists ms, played ms /\ shows (attempts reset l) ms /\
  forall m, let r := accept_move (attempts reset l) m in
    (fst r = true <-> legal ms m) /\ (fst r = true -> shows (snd r) (m :: ms)) /\ (fst r = false -> snd r = attempts reset l).
Proof. exact board_rules. Qed.
Example C50_board_ex :
  let b := attempts reset [(1, 1); (1, 1); (-1, 7); (0, 0); (2, 1); (0, 1); (0, 2); (2, 0); (5, 5); (1, 0); (1, 2)] in
  (over b, winner b, count b, map (get_move b) cells) = (false, 0, 8, [3; 3; 2; 2; 2; 3; 3; 2; 0]) /\
  fst (accept_move b (2, 2)) = true /\ over (snd (accept_move b (2, 2))) = true /\ winner (snd (accept_move b (2, 2))) = 0.
Proof. vm_compute. repeat split. Qed.
Example C50_winner_ex :
  let b := attempts reset [(0, 0); (1, 1); (0, 1); (2, 2); (0, 2); (2, 0)] in (over b, winner b, count b) = (true, 2, 5).
Proof. vm_compute. reflexivity. Qed.

(** *** C51: undoing an accepted move restores the position completely. *)
Theorem C51_undo : forall l m b', accept_move (attempts reset l) m = (true, b') -> undo_move b' m = (true, attempts reset l).
Proof. exact undo_exact. Qed.
Example C51_undo_ex :
  let b := attempts reset [(0, 0); (1, 1); (0, 1); (2, 2)] in
  let b' := snd (accept_move b (0, 2)) in over b' = true /\ undo_move b' (0, 2) = (true, b).
Proof. vm_compute. split; reflexivity. Qed.

(** *** C52: the engine, playing [s] from the start against any opponent, ... *)
(** ... never loses ... *)
Theorem C52_never_loses : forall s b, s = X \/ s = O -> reached s b -> winner b <> other s.
Proof. exact engine_never_loses. Qed.
(** ... and whenever it is its turn it finds a move (which it initialised) that the board accepts. *)
Theorem C52_defined_move : forall s b, s = X \/ s = O -> reached s b -> over b = false -> current b = s ->
  exists m b', slow_best s b = Some (Some m) /\ accept_move b m = (true, b').
Proof. exact engine_moves. Qed.
(** In any position at all, if the opponent cannot avoid losing, that stays so after the engine's move. *)
Theorem C52_keeps_wins : forall l ms, shows (attempts reset l) ms -> played ms -> ~ finished ms -> ~ safe (other (turn (length ms))) ms ->
  exists m, slow_best (turn (length ms)) (attempts reset l) = Some (Some m) /\ legal ms m /\ ~ safe (other (turn (length ms))) (m :: ms).
Proof. exact engine_wins. Qed.
(** A position of a game of the engine as O. *)
Example C52_reached_ex : exists b, reached O b /\ count b = 2 /\ over b = false /\ current b = X.
Proof.
  set (b1 := snd (accept_move reset (0, 0))).
  assert (R1 : reached O b1) by (apply reached_opponent with reset (0, 0); [constructor|discriminate|vm_compute; reflexivity]).
  destruct (C52_defined_move O b1 (or_intror eq_refl) R1 eq_refl eq_refl) as (m & b2 & E & A).
  exists b2. split; [exact (reached_engine O b1 m b2 R1 eq_refl eq_refl E A)|].
  assert (P : played [(0, 0)]) by (apply played_b_ok; reflexivity).
  destruct (accept_true b1 [(0, 0)] m b2 (played_rep _ P) A) as (L & (S & P2 & _)).
  assert (NF : ~ finished [m; (0, 0)]).
  { clear - L. destruct L as (B & N & _). assert (I := cells_all m B). rewrite <- finished_iff.
    unfold cells in I. cbn [In] in I, N. destruct I as [<-|I]; [exfalso; apply N; left; reflexivity|].
    repeat (destruct I as [<-|I]; [vm_compute; discriminate|]). destruct I. }
  split; [exact (shows_count _ _ S)|]. split; [apply (over_false b2 _ S), NF|]. exact (current_turn b2 _ S NF).
Qed.
Example C52_keeps_wins_ex : let ms := [(1, 0); (0, 2); (0, 1); (0, 0)] in
  shows (attempts reset (rev ms)) ms /\ played ms /\ ~ finished ms /\ ~ safe (other (turn (length ms))) ms.
Proof.
  cbv zeta. set (ms := [(1, 0); (0, 2); (0, 1); (0, 0)]). assert (P : played ms) by (apply played_b_ok; reflexivity).
  split; [apply (played_rep ms P)|]. split; [exact P|]. split; [rewrite <- finished_iff; discriminate|].
  apply (won_by_search ms (Some (1, 1))); vm_compute; reflexivity.
Qed.
(** In a position that is lost already (which its own play never reaches) the engine has no move:
    the variable for the best move is never initialised. *)
Theorem C52_lost_position_refuted : exists l, over (attempts reset l) = false /\
  slow_best (current (attempts reset l)) (attempts reset l) = Some None.
Proof. exists [(0, 0); (0, 1); (0, 2); (1, 0); (2, 0); (1, 1)]. vm_compute. split; reflexivity. Qed.

(** *** C59: in every history of requests to a game with the ids [x] and [o] (0: an engine plays), *)
(** each seat is handed out at most once, with its id, and never if an engine has it; the game is
    started once if both seats are taken and not otherwise. *)
Theorem C59_seats : forall ms x o l, length ms = 9%nat ->
  exists al g, serve_all (egame_reset ms x o) l = Some (al, g) /\
    (forall s, s = X \/ s = O -> handed s l al = [] \/ handed s l al = [if s =? X then x else o] /\ (if s =? X then x else o) <> 0) /\
    started g = if ((x =? 0) || negb (Nat.eqb (length (handed X l al)) 0)) && ((o =? 0) || negb (Nat.eqb (length (handed O l al)) 0)) then 1%nat else 0%nat.
Proof. exact seats_once. Qed.
Definition no_moves : list (option move) := repeat None 9.
Example C59_seats_ex : exists al g,
  serve_all (egame_reset no_moves 71 72) [Claim 0; Claim 0; Move 71 (1, 1); Claim 1; Claim 1; Move 71 (0, 0); Move 72 (0, 0); Move 5 (0, 2)] = Some (al, g) /\
  al = [Claimed (Some 71); Claimed None; Moved true; Claimed (Some 72); Claimed None; Moved false; Moved true; Moved false] /\ started g = 1%nat.
Proof. eexists _, _. split; [vm_compute; reflexivity|]. split; reflexivity. Qed.
(** A move is accepted exactly from the id of the seat whose turn it is, when it is legal. *)
Theorem C59_turns : forall ms x o l al g, length ms = 9%nat -> serve_all (egame_reset ms x o) l = Some (al, g) ->
  exists gm, played gm /\ shows (g_board (e_game g)) gm /\
  forall id m, exists a g', serve g (Move id m) = Some (Moved a, g') /\
    (a = true <-> id <> 0 /\ (id = x /\ turn (length gm) = X \/ id = o /\ id <> x /\ turn (length gm) = O) /\ legal gm m) /\
    (if a then shows (g_board (e_game g')) (m :: gm) else g_board (e_game g') = g_board (e_game g)).
Proof. exact moves_by_turn. Qed.
Example C59_turns_ex : exists al g, serve_all (egame_reset no_moves 71 72) [Claim 0; Move 71 (1, 1); Claim 1] = Some (al, g) /\
  option_map fst (serve g (Move 72 (0, 0))) = Some (Moved true) /\ option_map fst (serve g (Move 71 (0, 0))) = Some (Moved false).
Proof. eexists _, _. split; [vm_compute; reflexivity|]. split; reflexivity. Qed.
(** Moves are accepted before the game is started: above X moves while O's seat is free. *)
Theorem C59_move_before_start_refuted : exists x o l al g, serve_all (egame_reset no_moves x o) l = Some (al, g) /\
  In (Moved true) al /\ started g = 0%nat.
Proof. exists 71, 72, [Claim 0; Move 71 (1, 1)]. eexists _, _. split; [vm_compute; reflexivity|]. split; [right; left; reflexivity|reflexivity]. Qed.
(** The ids are random and not compared: if they are equal, the holder of O's seat can never move. *)
Theorem C59_equal_ids_refuted : exists x o l al g, x <> 0 /\ o <> 0 /\ serve_all (egame_reset no_moves x o) l = Some (al, g) /\
  handed X l al = [x] /\ handed O l al = [o] /\ over (g_board (e_game g)) = false /\ current (g_board (e_game g)) = O /\
  forall m, option_map fst (serve g (Move o m)) = Some (Moved false).
Proof.
  exists 71, 71, [Claim 0; Claim 1; Move 71 (1, 1)]. eexists _, _. split; [discriminate|]. split; [discriminate|].
  split; [vm_compute; reflexivity|]. repeat split.
Qed.

Print Assumptions C50_board.
Print Assumptions C51_undo.
Print Assumptions C52_never_loses.
Print Assumptions C52_defined_move.
Print Assumptions C52_keeps_wins.
Print Assumptions C52_lost_position_refuted.
Print Assumptions C59_seats.
Print Assumptions C59_turns.
Print Assumptions C59_move_before_start_refuted.
Print Assumptions C59_equal_ids_refuted.
