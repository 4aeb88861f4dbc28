(** Specification vocabulary for C50-C52 and C59: tic-tac-toe by its rules, independent of the
    model of samples/tictactoe/game.h.  A game is the list of its moves, the newest first. *)

From Coq Require Import ZArith List Bool.
Import ListNotations.
Open Scope Z_scope.

(** The players by their ids (X = 2, O = 3), 0 is nobody. *)
Definition X : Z := 2.
Definition O : Z := 3.
Definition other (p : Z) : Z := if p =? X then O else X.
(** X plays the first, third, ... move. *)
Fixpoint turn (n : nat) : Z := match n with 0%nat => X | S n => other (turn n) end.

Definition on_board (m : Z * Z) : Prop := 0 <= fst m <= 2 /\ 0 <= snd m <= 2.
Definition same_cell (a b : Z * Z) : bool := (fst a =? fst b) && (snd a =? snd b).
(** Whose mark is in a cell. *)
Fixpoint owner (ms : list (Z * Z)) (m : Z * Z) : Z :=
  match ms with
  | [] => 0
  | m' :: ms' => if same_cell m m' then turn (length ms') else owner ms' m
  end.
(** The rows, the columns and the diagonals. *)
Definition lines : list (list (Z * Z)) :=
  [[(0, 0); (0, 1); (0, 2)]; [(1, 0); (1, 1); (1, 2)]; [(2, 0); (2, 1); (2, 2)];
   [(0, 0); (1, 0); (2, 0)]; [(0, 1); (1, 1); (2, 1)]; [(0, 2); (1, 2); (2, 2)];
   [(0, 0); (1, 1); (2, 2)]; [(0, 2); (1, 1); (2, 0)]].
Definition three (ms : list (Z * Z)) (p : Z) : Prop := Exists (Forall (fun m => owner ms m = p)) lines.
Definition finished (ms : list (Z * Z)) : Prop := three ms X \/ three ms O \/ length ms = 9%nat.
Definition legal (ms : list (Z * Z)) (m : Z * Z) : Prop := on_board m /\ ~ In m ms /\ ~ finished ms.
(** Games played by the rules. *)
Inductive played : list (Z * Z) -> Prop :=
| played_none : played []
| played_move : forall m ms, played ms -> legal ms m -> played (m :: ms).

(** [safe s ms]: from this position player [s] can avoid losing, whatever the other one does. *)
Inductive safe (s : Z) : list (Z * Z) -> Prop :=
| safe_end : forall ms, finished ms -> ~ three ms (other s) -> safe s ms
| safe_own : forall ms m, turn (length ms) = s -> legal ms m -> safe s (m :: ms) -> safe s ms
| safe_other : forall ms, ~ finished ms -> turn (length ms) = other s -> (forall m, legal ms m -> safe s (m :: ms)) -> safe s ms.
