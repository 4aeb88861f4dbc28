(** The vocabulary of the theorems in Connect4_Props.v. *)

From Coq Require Import ZArith List Bool.
From Verif Require Import Connect4_Model Connect4_Spec.
Import ListNotations.
Open Scope Z_scope.

(** The accessors of the board say exactly what the moves [ms] say. *)
Record shows (b : board) (ms : list move) : Prop := {
  shows_cells : forall m, on_board m -> get_move b m = owner ms m;
  shows_heights : forall c, 0 <= c <= 6 -> col_size b c = height ms c;
  shows_count : count b = Z.of_nat (length ms);
  shows_over : over b = true <-> finished ms;
  shows_winner : forall p, p = 0 \/ p = 1 -> (winner b = p <-> four ms p);
  shows_nobody : winner b = nobody <-> ~ four ms 0 /\ ~ four ms 1;
  (* the player to move; when the game is over, the one who made the last move *)
  shows_current : current b = if over b then turn (length ms - 1) else turn (length ms) }.

(** Some attempts, one after the other; None = a loop of the model is out of fuel. *)
Fixpoint attempts (b : board) (l : list move) : option board :=
  match l with
  | [] => Some b
  | m :: l => match accept_move b m with Some (_, b) => attempts b l | None => None end
  end.
