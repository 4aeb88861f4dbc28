(** Specification vocabulary for C53: connect four by its rules, independent of the model of
    samples/connect4/game.h.  A game is the list of its moves {row, column}, the newest first. *)

From Coq Require Import ZArith List Bool.
Import ListNotations.
Open Scope Z_scope.

(** The players 0 and 1 take turns; 2 is nobody. *)
Definition nobody : Z := 2.
Fixpoint turn (n : nat) : Z := match n with O => 0 | S n => 1 - turn n end.
Definition on_board (m : Z * Z) : Prop := 0 <= fst m <= 5 /\ 0 <= snd m <= 6.
Definition same_cell (a b : Z * Z) : bool := (fst a =? fst b) && (snd a =? snd b).
Fixpoint owner (ms : list (Z * Z)) (m : Z * Z) : Z :=
  match ms with
  | [] => nobody
  | m' :: ms' => if same_cell m m' then turn (length ms') else owner ms' m
  end.
(** The number of discs in a column. *)
Fixpoint height (ms : list (Z * Z)) (c : Z) : Z :=
  match ms with
  | [] => 0
  | m' :: ms' => (if snd m' =? c then 1 else 0) + height ms' c
  end.
(** Four cells in a row, a column or a diagonal. *)
Definition directions : list (Z * Z) := [(0, 1); (1, 0); (1, 1); (1, -1)].
Definition four (ms : list (Z * Z)) (p : Z) : Prop :=
  exists r c dr dc, In (dr, dc) directions /\ forall i, 0 <= i <= 3 -> owner ms (r + i * dr, c + i * dc) = p.
Definition finished (ms : list (Z * Z)) : Prop := four ms 0 \/ four ms 1 \/ length ms = 42%nat.
(** A disc falls to the lowest free cell of its column. *)
Definition legal (ms : list (Z * Z)) (m : Z * Z) : Prop := on_board m /\ fst m = height ms (snd m) /\ ~ finished ms.
Inductive played : list (Z * Z) -> Prop :=
| played_none : played []
| played_move : forall m ms, played ms -> legal ms m -> played (m :: ms).
