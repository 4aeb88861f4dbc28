(** The vocabulary of the theorems in Ttt_Props.v: what a user of the board, the engine and the
    seats sees.  Only the calls of the model are used. *)

From Coq Require Import ZArith List Bool.
From Verif Require Import Ttt_Model Ttt_Spec.
Import ListNotations.
Open Scope Z_scope.

(** The accessors of the board say exactly what the moves [ms] say. *)
Record shows (b : board) (ms : list move) : Prop := {
  shows_cells : forall m, on_board m -> get_move b m = owner ms m;
  shows_count : count b = Z.of_nat (length ms);
  shows_over : over b = true <-> finished ms;
  shows_winner : forall p, p = X \/ p = O -> (winner b = p <-> three ms p);
  shows_nobody : winner b = p_none <-> ~ three ms X /\ ~ three ms O;
  (* the player to move; when the game is over, the one who made the last move *)
  shows_current : current b = if over b then turn (length ms - 1) else turn (length ms) }.

(** Some attempts, one after the other. *)
Fixpoint attempts (b : board) (l : list move) : board :=
  match l with [] => b | m :: l => attempts (snd (accept_move b m)) l end.

(** Boards of a game in which the engine plays [s] and anybody plays the other side. *)
Inductive reached (s : Z) : board -> Prop :=
| reached_start : reached s reset
| reached_opponent : forall b m b', reached s b -> current b <> s -> accept_move b m = (true, b') -> reached s b'
| reached_engine : forall b m b', reached s b -> current b = s -> over b = false ->
    slow_best s b = Some (Some m) -> accept_move b m = (true, b') -> reached s b'.

(** Requests to a game: claims of a seat, moves of a player, and moves of an engine's thread.
    samples/tictactoe/game.h:1092-1094, 1170-1185: id 0 and unknown ids are refused. *)
Inductive request := Claim (i : Z) | Move (id : Z) (m : move) | Engine (p : Z) (m : move).
Inductive answer := Claimed (r : option Z) | Moved (ok : bool).
Definition set_game (g : egame) (e : game) : egame :=
  {| e_game := e; x_id := x_id g; x_claimed := x_claimed g; o_id := o_id g; o_claimed := o_claimed g; started := started g |}.
(** None: an access outside an array *)
Definition serve (g : egame) (r : request) : option (answer * egame) :=
  match r with
  | Claim i => let '(a, g) := claim_player g i in Some (Claimed a, g)
  | Move id m =>
      if (id =? 0) || (player_of g id =? p_none) then Some (Moved false, g)
      else match game_accept_move (e_game g) (player_of g id) m with
           | Some (ok, e) => Some (Moved ok, set_game g e)
           | None => None
           end
  | Engine p m => match game_accept_move (e_game g) p m with Some (ok, e) => Some (Moved ok, set_game g e) | None => None end
  end.
Fixpoint serve_all (g : egame) (l : list request) : option (list answer * egame) :=
  match l with
  | [] => Some ([], g)
  | r :: l => match serve g r with
              | Some (a, g) => match serve_all g l with Some (al, g) => Some (a :: al, g) | None => None end
              | None => None
              end
  end.
(** The ids given out for a seat. *)
Definition seat_of (i : Z) : Z := if i =? 0 then X else O.
Definition given (seat : Z) (ra : request * answer) : list Z :=
  match ra with
  | (Claim i, Claimed (Some id)) => if seat_of i =? seat then [id] else []
  | _ => []
  end.
Definition handed (s : Z) (l : list request) (al : list answer) : list Z := flat_map (given s) (combine l al).
