(** Model of samples/tictactoe/game.h: the board, the slow engine, game::accept_move and the seats
    of endpoint_game.  Threads are not started: make_move_async (274-280) is recorded by its caller.
    The fast engine (337-520) is in Fast_Model.v; the endpoint's HTTP handlers (672-) are not here. *)

From Coq Require Import ZArith List Bool.
From Verif Require Import Base.
Import ListNotations.
Open Scope Z_scope.

(** samples/tictactoe/game.i.h:102-107: player_id (uint8_t) *)
Definition p_none : Z := 0.
(** samples/tictactoe/game.i.h:102-107 *)
Definition p_x : Z := 2.
(** samples/tictactoe/game.i.h:102-107 *)
Definition p_o : Z := 3.
(** samples/tictactoe/game.i.h:102-107 *)
Definition p_mask : Z := 3.
(** samples/tictactoe/game.i.h:48-49 *)
Definition row_count : Z := 3.
(** samples/tictactoe/game.i.h:48-49 *)
Definition col_count : Z := 3.

(** samples/tictactoe/game.i.h:126-131: struct move *)
Notation move := (Z * Z)%type.
(** samples/tictactoe/game.i.h:126-131 *)
Definition row (m : move) : Z := fst m.
(** samples/tictactoe/game.i.h:126-131 *)
Definition col (m : move) : Z := snd m.
(** samples/tictactoe/game.h:74-76: move::is_valid *)
Definition is_valid (m : move) : bool := (0 <=? row m) && (row m <? row_count) && (0 <=? col m) && (col m <? col_count).

(** samples/tictactoe/game.i.h:137-173: class board *)
Record board := { over : bool; winner : Z; current : Z; state : Z; count : Z }.
(** samples/tictactoe/game.h:82-88: reset *)
Definition reset : board := {| over := false; winner := p_none; current := p_x; state := 0; count := 0 |}.
(** samples/tictactoe/game.h:219-221: opponent *)
Definition opponent (p : Z) : Z := Z.lxor p 1.
(** samples/tictactoe/game.h:225, 231: the cell (a valid move only: the board checks first) *)
Definition cell (m : move) : Z := row m * col_count + col m.
(** samples/tictactoe/game.h:224-227: shift_up, on uint32_t *)
Definition shift_up (p : Z) (m : move) : Z := wrap_u32 (Z.shiftl p (cell m * 2)).
(** samples/tictactoe/game.h:230-233: shift_down *)
Definition shift_down (b : board) (m : move) : Z := Z.land (Z.shiftr (state b) (cell m * 2)) p_mask.
(** samples/tictactoe/game.h:142-144: get_move *)
Definition get_move (b : board) (m : move) : Z := shift_down b m.
(** samples/tictactoe/game.h:147-150: set_move *)
Definition set_move (b : board) (m : move) : board :=
  {| over := over b; winner := winner b; current := current b; state := Z.lor (state b) (shift_up (current b) m); count := wrap_s32 (count b + 1) |}.
(** samples/tictactoe/game.h:147-150: ~ on uint32_t *)
Definition not_u32 (x : Z) : Z := Z.lxor x (2 ^ 32 - 1).
(** samples/tictactoe/game.h:153-156: clear_move *)
Definition clear_move (b : board) (m : move) : board :=
  {| over := over b; winner := winner b; current := current b; state := Z.land (state b) (not_u32 (shift_up p_mask m)); count := wrap_s32 (count b - 1) |}.
(** samples/tictactoe/game.h:164-168: has_move *)
Definition has_move (b : board) (p : Z) (m : move) : bool := Z.land (state b) (shift_up p_mask m) =? shift_up p m.
(** samples/tictactoe/game.h:172-200: check_winner *)
Definition check_winner (b : board) : board :=
  let h r c := has_move b (current b) (r, c) in
  let horizontal := (h 0 0 && h 0 1 && h 0 2) || (h 1 0 && h 1 1 && h 1 2) || (h 2 0 && h 2 1 && h 2 2) in
  let vertical := (h 0 0 && h 1 0 && h 2 0) || (h 0 1 && h 1 1 && h 2 1) || (h 0 2 && h 1 2 && h 2 2) in
  let diagonal := (h 0 0 && h 1 1 && h 2 2) || (h 0 2 && h 1 1 && h 2 0) in
  let win := horizontal || vertical || diagonal in
  let draw := count b =? row_count * col_count in
  if win then {| over := true; winner := current b; current := current b; state := state b; count := count b |}
  else if draw then {| over := true; winner := p_none; current := current b; state := state b; count := count b |}
  else b.
(** samples/tictactoe/game.h:209-211: switch_current_player_id *)
Definition switch (b : board) : board :=
  {| over := over b; winner := winner b; current := opponent (current b); state := state b; count := count b |}.
(** samples/tictactoe/game.h:91-112: accept_move *)
Definition accept_move (b : board) (m : move) : bool * board :=
  if negb (is_valid m) then (false, b)
  else if over b then (false, b)
  else if negb (get_move b m =? p_none) then (false, b)
  else
    let b := check_winner (set_move b m) in
    (true, if negb (over b) then switch b else b).
(** samples/tictactoe/game.h:115-129: undo_move *)
Definition undo_move (b : board) (m : move) : bool * board :=
  if negb (is_valid m) then (false, b)
  else
    let b := if negb (over b) then switch b else b in
    let b := clear_move b m in
    (true, {| over := false; winner := p_none; current := current b; state := state b; count := count b |}).

(** ** The slow engine *)
(** samples/tictactoe/game.h:301-302: the cells in order *)
Definition cells : list move := [(0, 0); (0, 1); (0, 2); (1, 0); (1, 1); (1, 2); (2, 0); (2, 1); (2, 2)].
(** samples/tictactoe/game.h:297-334: slow_find_best_move_for.  [rec] is the recursive call; the
    best move is None while the variable is not initialised.  The outcome None is out of fuel. *)
Section slow_loop.
Variable rec : Z -> board -> option (Z * option move * board).
(** samples/tictactoe/game.h:297-334 *)
Fixpoint slow_loop (pid : Z) (l : list move) (best : Z) (bm : option move) (tb : board) : option (Z * option move * board) :=
  match l with
  | [] => Some (best, bm, tb)
  | mv :: l' =>
      if (best <? 1) && (get_move tb mv =? p_none) then
        let '(ok, tb1) := accept_move tb mv in
        if ok then
          match (if over tb1 then Some (if winner tb1 =? pid then 1 else 0, tb1)
                 else match rec (opponent pid) tb1 with Some (s, _, tb2) => Some (- s, tb2) | None => None end) with
          | None => None
          | Some (score, tb2) =>
              let tb3 := snd (undo_move tb2 mv) in
              if best <? score then slow_loop pid l' score (Some mv) tb3 else slow_loop pid l' best bm tb3
          end
        else slow_loop pid l' best bm tb1
      else slow_loop pid l' best bm tb
  end.
End slow_loop.
(** samples/tictactoe/game.h:297-334 *)
Fixpoint slow (fuel : nat) (pid : Z) (tb : board) : option (Z * option move * board) :=
  match fuel with
  | O => None
  | S fuel' => slow_loop (slow fuel') pid cells (-1) None tb
  end.
(** samples/tictactoe/game.h:297-334: A position has at most nine free cells, each call fills one: ten levels suffice (proved). *)
Definition slow_fuel : nat := 10.

(** ** The game *)
(** samples/tictactoe/game.h:548-595: game::accept_move; [starts] = the players asked to move by
    make_move_async (583-590).  Logging and learn() (567-582) do not change the board. *)
Record game := { g_board : board; g_moves : list (option move); starts : list Z }.
(** samples/tictactoe/game.h:548-595: moves[i] = m; None = outside the array of nine *)
Fixpoint store_move (l : list (option move)) (i : nat) (m : move) : option (list (option move)) :=
  match l, i with
  | [], _ => None
  | _ :: l', O => Some (Some m :: l')
  | x :: l', S i' => match store_move l' i' m with Some l'' => Some (x :: l'') | None => None end
  end.
(** samples/tictactoe/game.h:548-595: The outcome None is an access outside moves. *)
Definition game_accept_move (g : game) (pid : Z) (m : move) : option (bool * game) :=
  if negb (pid =? current (g_board g)) then Some (false, g)
  else
    let '(ok, b) := accept_move (g_board g) m in
    let stored := if ok then (if 0 <=? count b - 1 then store_move (g_moves g) (Z.to_nat (count b - 1)) m else None) else Some (g_moves g) in
    match stored with
    | None => None
    | Some ms =>
        let st := if over b then starts g
                  else if ok then (if (current b =? p_x) || (current b =? p_o) then starts g ++ [current b] else starts g)
                  else starts g in
        Some (ok, {| g_board := b; g_moves := ms; starts := st |})
    end.
(** samples/tictactoe/game.h:282-295: slow_make_move, with the move it passes to the game *)
Definition slow_best (pid : Z) (b : board) : option (option move) :=
  match slow slow_fuel pid b with Some (_, bm, _) => Some bm | None => None end.
(** samples/tictactoe/game.h:525-530: reset of the game (the array keeps its contents) *)
Definition game_reset (ms : list (option move)) : game := {| g_board := reset; g_moves := ms; starts := [] |}.
(** samples/tictactoe/game.h:533-545: start *)
Definition game_start (g : game) : game :=
  {| g_board := g_board g; g_moves := g_moves g;
     starts := if (current (g_board g) =? p_x) || (current (g_board g) =? p_o) then starts g ++ [current (g_board g)] else starts g |}.

(** ** Seats *)
(** samples/tictactoe/game.i.h:244-247 and 253-277: endpoint_player, endpoint_game (uint32_t ids) *)
Record egame := { e_game : game; x_id : Z; x_claimed : bool; o_id : Z; o_claimed : bool; started : nat (* calls of start() *) }.
(** start() when both are claimed: samples/tictactoe/game.h:623-625, 647-649 *)
Definition start_if_full (g : egame) : egame :=
  if x_claimed g && o_claimed g
  then {| e_game := game_start (e_game g); x_id := x_id g; x_claimed := x_claimed g; o_id := o_id g; o_claimed := o_claimed g; started := S (started g) |}
  else g.
(** samples/tictactoe/game.h:611-626: endpoint_game::reset; an id of 0 is a seat of an engine *)
Definition egame_reset (ms : list (option move)) (x o : Z) : egame :=
  start_if_full {| e_game := game_reset ms; x_id := x; x_claimed := x =? 0; o_id := o; o_claimed := o =? 0; started := 0 |}.
(** samples/tictactoe/game.h:629-652: claim_player; Some id = true and the id *)
Definition claim_player (g : egame) (i : Z) : option Z * egame :=
  if i =? 0 then
    if x_claimed g then (None, g)
    else (Some (x_id g), start_if_full {| e_game := e_game g; x_id := x_id g; x_claimed := true; o_id := o_id g; o_claimed := o_claimed g; started := started g |})
  else
    if o_claimed g then (None, g)
    else (Some (o_id g), start_if_full {| e_game := e_game g; x_id := x_id g; x_claimed := x_claimed g; o_id := o_id g; o_claimed := true; started := started g |}).
(** samples/tictactoe/game.h:660-669: player_id *)
Definition player_of (g : egame) (id : Z) : Z := if id =? x_id g then p_x else if id =? o_id g then p_o else p_none.
