(** Specification vocabulary for C96-C98: forced wins in connect four, by the rules of Connect4_Spec.v, and the
    games the engine plays. *)

From Coq Require Import ZArith List Bool.
From Verif Require Import Connect4_Model Connect4_Spec Slow4_Model.
Import ListNotations.
Open Scope Z_scope.

(** [forces p n ms]: player [p] can have four in a row after at most [n] more moves (of both players), whatever
    the other one does. *)
Inductive forces (p : Z) : nat -> list (Z * Z) -> Prop :=
| forces_won : forall n ms, four ms p -> forces p n ms
| forces_own : forall n ms m, turn (length ms) = p -> legal ms m -> forces p n (m :: ms) -> forces p (S n) ms
| forces_other : forall n ms, turn (length ms) = 1 - p -> ~ finished ms -> (forall m, legal ms m -> forces p n (m :: ms)) -> forces p (S n) ms.

(** How many moves ahead the engine looks, its own included, after so many moves. *)
Definition ahead (moves : nat) : nat :=
  (if moves <? 12 then 7 else if moves <? 18 then 9 else if moves <? 24 then 11 else if moves <? 30 then 17 else 21)%nat.

(** Boards of a game in which the engine plays [s] and anybody plays the other side. *)
Inductive reached (s : Z) : board -> Prop :=
| reached_start : reached s reset
| reached_opponent : forall b m b', reached s b -> current b <> s -> accept_move b m = Some (true, b') -> reached s b'
| reached_engine : forall b m b', reached s b -> current b = s -> over b = false ->
    slow_best s b = Some (Some m) -> accept_move b m = Some (true, b') -> reached s b'.

(** [carries s n b]: the engine, playing [s] on from [b], wins within [n] moves of both players, whatever the other
    one does. *)
Inductive carries (s : Z) : nat -> board -> Prop :=
| carries_won : forall n b, over b = true -> winner b = s -> carries s n b
| carries_engine : forall n b m b', over b = false -> current b = s -> slow_best s b = Some (Some m) ->
    accept_move b m = Some (true, b') -> carries s n b' -> carries s (S n) b
| carries_other : forall n b, over b = false -> current b <> s ->
    (forall m b', accept_move b m = Some (true, b') -> carries s n b') -> carries s (S n) b.
