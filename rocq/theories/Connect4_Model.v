(** Model of the board of samples/connect4/game.h (board, lines 79-375).  Logging is left out: it
    does not change the board.  The slow engine is in Slow4_Model.v; the game is not modelled here. *)

From Coq Require Import ZArith List Bool.
From Verif Require Import Base.
Import ListNotations.
Open Scope Z_scope.

(** samples/connect4/game.i.h:121-126: player_id (uint8_t) *)
Definition p_x : Z := 0.
(** samples/connect4/game.i.h:121-126 *)
Definition p_o : Z := 1.
(** samples/connect4/game.i.h:121-126 *)
Definition p_mask : Z := 1.
(** samples/connect4/game.i.h:121-126 *)
Definition p_none : Z := 2.
(** samples/connect4/game.i.h:44-56 *)
Definition row_count : Z := 6.
(** samples/connect4/game.i.h:44-56 *)
Definition col_count : Z := 7.
(** samples/connect4/game.i.h:44-56 *)
Definition col_size_bit_count : Z := 3.
(** samples/connect4/game.i.h:44-56 *)
Definition col_size_mask : Z := 7.
(** samples/connect4/game.i.h:44-56 *)
Definition sizes_bit_count : Z := col_count * col_size_bit_count.
(** samples/connect4/game.i.h:44-56 *)
Definition move_bit_count : Z := 1.
(** samples/connect4/game.i.h:44-56 *)
Definition move_mask : Z := 1.
(** samples/connect4/game.i.h:44-56 *)
Definition col_bit_count : Z := row_count * move_bit_count.
(** samples/connect4/game.i.h:44-56 *)
Definition sizes_pos : Z := 0.
(** samples/connect4/game.i.h:44-56 *)
Definition moves_pos : Z := sizes_bit_count.

(** samples/connect4/game.i.h:147-152: struct move, {row, col} *)
Notation move := (Z * Z)%type.
(** samples/connect4/game.h:75-77: is_valid *)
Definition is_valid (m : move) : bool :=
  let '(r, c) := m in (0 <=? r) && (r <? row_count) && (0 <=? c) && (c <? col_count).

(** samples/connect4/game.i.h:193-197: the fields of board; the state is a uint64_t, the count an unsigned *)
Record board := { over : bool; winner : Z; current : Z; state : Z; count : Z }.
(** samples/connect4/game.h:301-338 *)
Definition set_state (b : board) (s : Z) : board :=
  {| over := over b; winner := winner b; current := current b; state := s; count := count b |}.
(** samples/connect4/game.h:189-199 *)
Definition set_count (b : board) (n : Z) : board :=
  {| over := over b; winner := winner b; current := current b; state := state b; count := n |}.
(** samples/connect4/game.h:83-90: reset *)
Definition reset : board := {| over := false; winner := p_none; current := p_x; state := 0; count := 0 |}.

(** samples/connect4/game.h:321-323: col_pos *)
Definition col_pos (c : Z) : Z := sizes_pos + c * col_size_bit_count.
(** samples/connect4/game.h:373-375: move_pos *)
Definition move_pos (m : move) : Z := let '(r, c) := m in moves_pos + c * col_bit_count + r * move_bit_count.
(** samples/connect4/game.h:291-299: col_size *)
Definition col_size (b : board) (c : Z) : Z := Z.land (Z.shiftr (state b) (col_pos c)) col_size_mask.
(** samples/connect4/game.h:301-311: inc_col_size *)
Definition inc_col_size (b : board) (c : Z) : board := set_state b (wrap_u64 (state b + Z.shiftl 1 (col_pos c))).
(** samples/connect4/game.h:313-323: dec_col_size *)
Definition dec_col_size (b : board) (c : Z) : board := set_state b (wrap_u64 (state b - Z.shiftl 1 (col_pos c))).
(** samples/connect4/game.h:329-338: get_move_bits *)
Definition get_move_bits (b : board) (m : move) : Z := Z.land (Z.shiftr (state b) (move_pos m)) move_mask.
(** samples/connect4/game.h:329-338: ~ on uint64_t *)
Definition not_u64 (x : Z) : Z := Z.lxor x (2 ^ 64 - 1).
(** samples/connect4/game.h:359-371: clear_move_bits *)
Definition clear_move_bits (b : board) (m : move) : board :=
  set_state b (Z.land (state b) (not_u64 (wrap_u64 (Z.shiftl move_mask (move_pos m))))).
(** samples/connect4/game.h:340-357: set_move_bits *)
Definition set_move_bits (b : board) (m : move) (bits : Z) : board :=
  let b := clear_move_bits b m in
  set_state b (Z.lor (state b) (wrap_u64 (Z.shiftl bits (move_pos m)))).

(** samples/connect4/game.h:171-186: get_move *)
Definition get_move (b : board) (m : move) : Z :=
  let '(r, c) := m in
  let col_sz := col_size b c in
  if (col_sz =? 0) || (col_sz <=? r) then p_none else get_move_bits b m.
(** samples/connect4/game.h:189-193: set_move *)
Definition set_move (b : board) (m : move) : board :=
  let b := inc_col_size b (snd m) in
  let b := set_move_bits b m (current b) in
  set_count b (wrap_u32 (count b + 1)).
(** samples/connect4/game.h:196-200: clear_move *)
Definition clear_move (b : board) (m : move) : board :=
  let b := dec_col_size b (snd m) in
  let b := clear_move_bits b m in
  set_count b (wrap_u32 (count b - 1)).
(** samples/connect4/game.h:208-210: has_move *)
Definition has_move (b : board) (p : Z) (m : move) : bool := get_move b m =? p.

(** samples/connect4/game.h:213-268: The counting loops of check_winner: how many i = 1, 2, ... pass the test (bounds and has_move).
    None = out of fuel. *)
Fixpoint run (fuel : nat) (test : Z -> bool) (i n : Z) : option Z :=
  match fuel with
  | O => None
  | S fuel' => if test i then run fuel' test (i + 1) (n + 1) else Some n
  end.
(** samples/connect4/game.h:213-268 *)
Definition run_fuel : nat := 8.
(** samples/connect4/game.h:213-268: check_winner.  None = a loop is out of fuel (it never is). *)
Definition check_winner (b : board) (m : move) : option board :=
  let '(r, c) := m in
  let h r c := has_move b (current b) (r, c) in
  match run run_fuel (fun i => (0 <=? c - i) && h r (c - i)) 1 0,
        run run_fuel (fun i => (c + i <? col_count) && h r (c + i)) 1 0,
        run run_fuel (fun i => (0 <=? r - i) && h (r - i) c) 1 0,
        run run_fuel (fun i => (0 <=? r - i) && (0 <=? c - i) && h (r - i) (c - i)) 1 0,
        run run_fuel (fun i => (r + i <? row_count) && (c + i <? col_count) && h (r + i) (c + i)) 1 0,
        run run_fuel (fun i => (0 <=? r - i) && (c + i <? col_count) && h (r - i) (c + i)) 1 0,
        run run_fuel (fun i => (r + i <? row_count) && (0 <=? c - i) && h (r + i) (c - i)) 1 0 with
  | Some west, Some east, Some south, Some southwest, Some northeast, Some southeast, Some northwest =>
      let horizontal := 3 <=? west + east in
      let vertical := 3 <=? south in
      let diagonal1 := 3 <=? southwest + northeast in
      let diagonal2 := 3 <=? southeast + northwest in
      let win := horizontal || vertical || diagonal1 || diagonal2 in
      let draw := count b =? row_count * col_count in
      Some (if win then {| over := true; winner := current b; current := current b; state := state b; count := count b |}
            else if draw then {| over := true; winner := p_none; current := current b; state := state b; count := count b |}
            else b)
  | _, _, _, _, _, _, _ => None
  end.
(** samples/connect4/game.h:276-278, 286-288: switch_current_player_id, opponent *)
Definition opponent (p : Z) : Z := Z.lxor p p_mask.
(** samples/connect4/game.h:276-278, 286-288 *)
Definition switch (b : board) : board :=
  {| over := over b; winner := winner b; current := opponent (current b); state := state b; count := count b |}.
(** samples/connect4/game.h:93-137: accept_move *)
Definition accept_move (b : board) (m : move) : option (bool * board) :=
  let '(r, c) := m in
  if negb (is_valid m) then Some (false, b)
  else if over b then Some (false, b)
  else if negb (get_move b m =? p_none) then Some (false, b)
  else if (0 <? r) && (get_move b (r - 1, c) =? p_none) then Some (false, b)
  else
    match check_winner (set_move b m) m with
    | None => None
    | Some b => Some (true, if negb (over b) then switch b else b)
    end.
(** samples/connect4/game.h:140-158: undo_move *)
Definition undo_move (b : board) (m : move) : bool * board :=
  let '(r, c) := m in
  if negb (is_valid m) then (false, b)
  else if (r <? row_count - 1) && negb (get_move b (r + 1, c) =? p_none) then (false, b)
  else
    let b := if negb (over b) then switch b else b in
    let b := clear_move b m in
    (true, {| over := false; winner := p_none; current := current b; state := state b; count := count b |}).
