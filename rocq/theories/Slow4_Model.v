(** Model of the slow engine of connect four: samples/connect4/game.h:425-535.  Logging is left out.  The
    board is that of Connect4_Model.v; [None] at the outside is a loop of the board out of fuel (it never is). *)

From Coq Require Import ZArith List Bool.
From Verif Require Import Base Connect4_Model.
Import ListNotations.
Open Scope Z_scope.

(** samples/connect4/game.h:471-491: slow_choose_max_depth *)
Definition slow_choose_max_depth (b : board) : nat :=
  let move_count := count b in
  if move_count <? 12 then 6
  else if move_count <? 18 then 8
  else if move_count <? 24 then 10
  else if move_count <? 30 then 16
  else 20.

(** samples/connect4/game.h:442-469: slow_make_first_move; [None] = it returns false *)
Definition slow_make_first_move (pid : Z) (b : board) : option move :=
  let move_count := count b in
  if 4 <=? move_count then None
  else
    let mid_next := (col_size b (Z.quot col_count 2), Z.quot col_count 2) in
    let right := (0, Z.quot col_count 2 + 1) in
    let left := (0, Z.quot col_count 2 - 1) in
    let opo := opponent pid in
    if move_count <? 2 then Some mid_next
    else if get_move b (0, Z.quot col_count 2) =? pid then Some mid_next
    else if get_move b right =? opo then Some left
    else Some right.

(** samples/connect4/game.h:498-532: the loop of slow_find_best_move.  [rec] is the recursive call, [n] the
    number of turns left, [i] and [sign] the variables of the loop.  The best move is [None] while the variable is
    not initialised.  The results: best_score, best_move, _temp_board. *)
Section slow_loop.
Variable max_depth : Z.
Variable depth : Z.
Variable rec : board -> option (Z * option move * board).
(** samples/connect4/game.h:498-532 *)
Fixpoint slow_loop (n : nat) (i sign : Z) (best : Z) (bm : option move) (tb : board) : option (Z * option move * board) :=
  match n with
  | O => Some (best, bm, tb)
  | S n' =>
      let c := Z.quot col_count 2 + Z.quot (sign * (i + 1)) 2 in
      let mv := (col_size tb c, c) in
      if is_valid mv then
        match accept_move tb mv with
        | None => None
        | Some (false, tb1) => slow_loop n' (i + 1) (- sign) best bm tb1
        | Some (true, tb1) =>
            match (if over tb1 then Some (if negb (winner tb1 =? p_none) then depth + 2 else 0, tb1)
                   else if (0 <? depth) && (count tb1 <? row_count * col_count)
                   then match rec tb1 with Some (s, _, tb2) => Some (- s, tb2) | None => None end
                   else Some (-1, tb1)) with
            | None => None
            | Some (score, tb2) =>
                let tb3 := snd (undo_move tb2 mv) in
                if best <? score then slow_loop n' (i + 1) (- sign) score (Some mv) tb3
                else slow_loop n' (i + 1) (- sign) best bm tb3
            end
        end
      else slow_loop n' (i + 1) (- sign) best bm tb
  end.
End slow_loop.
(** samples/connect4/game.h:494-535: slow_find_best_move *)
Fixpoint slow_find (max_depth : Z) (depth : nat) (tb : board) : option (Z * option move * board) :=
  let rec := match depth with O => fun _ => None | S d => slow_find max_depth d end in
  slow_loop (Z.of_nat depth) rec (Z.to_nat col_count) 0 (-1) (- (2 * max_depth)) None tb.

(** samples/connect4/game.h:425-440: slow_make_move, with the move it passes to the game ([Some None] = a variable that
    was not initialised) *)
Definition slow_best (pid : Z) (b : board) : option (option move) :=
  match slow_make_first_move pid b with
  | Some m => Some (Some m)
  | None =>
      let max_depth := slow_choose_max_depth b in
      match slow_find (Z.of_nat max_depth) max_depth b with
      | Some (_, bm, _) => Some bm
      | None => None
      end
  end.
