(** Specification vocabulary for C99-C101: what the fast engines know, by positions (lists of moves, the newest first,
    of Ttt_Spec.v and Connect4_Spec.v), and the games they play and learn from. *)

From Coq Require Import ZArith List Bool.
From Verif Require Import Fast_Model.
From Verif Require Ttt_Model Ttt_Spec Ttt_Calls Connect4_Model Connect4_Spec Connect4_Calls Slow4_Model.
Import ListNotations.
Open Scope Z_scope.

(** A score: unknown (-1), or between the least and the greatest. *)
Definition score_ok (least greatest s : Z) : Prop := s = -1 \/ least <= s <= greatest.
(** The score at a key; unknown when the key is. *)
Definition score (k : knowledge) (key : Z) (i : Z) : Z :=
  match find k key with Some v => nth (Z.to_nat i) v (-1) | None => -1 end.
(** What a score counts for: an unknown one is taken to be in the middle. *)
Definition weight (mid s : Z) : Z := if s =? -1 then mid else s.
(** The weights of the moves that are before [m] in a list, and of the whole list. *)
Fixpoint before (w : move -> Z) (l : list move) (m : move) : Z :=
  match l with
  | [] => 0
  | x :: l' => if (fst x =? fst m) && (snd x =? snd m) then 0 else w x + before w l' m
  end.
Fixpoint total (w : move -> Z) (l : list move) : Z := match l with [] => 0 | x :: l' => w x + total w l' end.

(** ** Tic-tac-toe *)
(** Knowledge of the right shape: nine scores, unknown or from 1 to 20. *)
Definition t_known (k : knowledge) : Prop := Forall (fun e => length (snd e) = 9%nat /\ Forall (score_ok 1 20) (snd e)) k.
(** The board after the moves [ms], and its state. *)
Definition t_at (ms : list move) : Ttt_Model.board := Ttt_Calls.attempts Ttt_Model.reset (rev ms).
Definition t_key (ms : list move) : Z := Ttt_Model.state (t_at ms).
(** The score of a move in a position. *)
Definition t_score (k : knowledge) (ms : list move) (m : move) : Z := score k (t_key ms) (fst m * 3 + snd m).
(** The engine can look the position up: it is known, or there is room for it. *)
Definition available (room : space) (k : knowledge) (key : Z) : Prop := find k key <> None \/ room k key = true.
(** The cells row by row, and those that are free. *)
Definition t_free (ms : list move) : list move :=
  filter (fun m => Ttt_Spec.owner ms m =? 0) [(0, 0); (0, 1); (0, 2); (1, 0); (1, 1); (1, 2); (2, 0); (2, 1); (2, 2)].
(** Games of the fast engine (playing [s]) against the slow one, one after the other, and what is known meanwhile. *)
Definition t_types (s : Z) : player_type * player_type := if s =? Ttt_Spec.X then (Fast, Slow) else (Slow, Fast).
Inductive t_session (room : space) (s : Z) : t_game -> knowledge -> Prop :=
| ts_start : t_session room s t_new []
| ts_again : forall g k, t_session room s g k -> Ttt_Model.over (t_board g) = true -> t_session room s t_new k
| ts_fast : forall g k rand m k' g' k'', t_session room s g k -> Ttt_Model.over (t_board g) = false -> Ttt_Model.current (t_board g) = s ->
    0 <= rand -> t_fast room k (t_board g) rand = (Chosen m, k') ->
    t_game_accept room (fst (t_types s)) (snd (t_types s)) g s m k' = Some (true, g', k'') -> t_session room s g' k''
| ts_slow : forall g k m g' k'', t_session room s g k -> Ttt_Model.over (t_board g) = false -> Ttt_Model.current (t_board g) = Ttt_Spec.other s ->
    Ttt_Model.slow_best (Ttt_Spec.other s) (t_board g) = Some (Some m) ->
    t_game_accept room (fst (t_types s)) (snd (t_types s)) g (Ttt_Spec.other s) m k = Some (true, g', k'') -> t_session room s g' k''.
(** Learning from some games, one after the other (moves in their order), with room for everything. *)
Definition plenty : space := fun _ _ => true.
Fixpoint t_study (pid : Z) (gs : list (list move)) (k : knowledge) : option knowledge :=
  match gs with
  | [] => Some k
  | ms :: gs' => match t_learn plenty pid (Ttt_Calls.attempts Ttt_Model.reset ms) ms k with Some k => t_study pid gs' k | None => None end
  end.

(** ** Connect four *)
(** Seven scores, unknown or from 1 to 100. *)
Definition c_known (k : knowledge) : Prop := Forall (fun e => length (snd e) = 7%nat /\ Forall (score_ok 1 100) (snd e)) k.
(** The board after the moves [ms] (there always is one: C53), and its state. *)
Definition c_at (ms : list move) (b : Connect4_Model.board) : Prop := Connect4_Calls.attempts Connect4_Model.reset (rev ms) = Some b.
Definition c_key (ms : list move) : Z :=
  match Connect4_Calls.attempts Connect4_Model.reset (rev ms) with Some b => Connect4_Model.state b | None => -1 end.
Definition c_score (k : knowledge) (ms : list move) (m : move) : Z := score k (c_key ms) (snd m).
(** The moves there are, column by column. *)
Definition c_free (ms : list move) : list move :=
  filter (fun m => fst m <? 6) (map (fun c => (Connect4_Spec.height ms c, c)) [0; 1; 2; 3; 4; 5; 6]).
(** Games of the fast engine (playing [s]) against the slow one, one after the other, and what is known meanwhile. *)
Definition c_types (s : Z) : player_type * player_type := if s =? 0 then (Fast, Slow) else (Slow, Fast).
Inductive c_session (room : space) (s : Z) : c_game -> knowledge -> Prop :=
| cs_start : c_session room s c_new []
| cs_again : forall g k, c_session room s g k -> Connect4_Model.over (c_board g) = true -> c_session room s c_new k
| cs_fast : forall g k rand m k' g' k'', c_session room s g k -> Connect4_Model.over (c_board g) = false -> Connect4_Model.current (c_board g) = s ->
    0 <= rand -> c_fast room k (c_board g) rand = (Chosen m, k') ->
    c_game_accept room (fst (c_types s)) (snd (c_types s)) g s m k' = Some (true, g', k'') -> c_session room s g' k''
| cs_slow : forall g k m g' k'', c_session room s g k -> Connect4_Model.over (c_board g) = false -> Connect4_Model.current (c_board g) = 1 - s ->
    Slow4_Model.slow_best (1 - s) (c_board g) = Some (Some m) ->
    c_game_accept room (fst (c_types s)) (snd (c_types s)) g (1 - s) m k = Some (true, g', k'') -> c_session room s g' k''.
Fixpoint c_study (pid : Z) (gs : list (list move)) (k : knowledge) : option knowledge :=
  match gs with
  | [] => Some k
  | ms :: gs' =>
      match Connect4_Calls.attempts Connect4_Model.reset ms with
      | None => None
      | Some b => match c_learn plenty pid b ms k with Some k => c_study pid gs' k | None => None end
      end
  end.
(** What a game that was not won adds, by its length. *)
Definition bonus (moves : nat) : Z := if (32 <? moves)%nat then 3 else if (24 <? moves)%nat then 2 else if (18 <? moves)%nat then 1 else 0.
