(** Model of the fast engines of both games: samples/tictactoe/game.h:337-520, 548-595 and samples/connect4/game.h:538-739, 767-814.
    The scores are in a vmem_map; here it is an ideal map from board states to scores ([knowledge]): what the real one
    does with its keys is the subject of C45-C47.  An insertion that the pool has no room for gives an iterator that
    cannot be dereferenced.  The lock and the log are left out.  Sums of the nine (seven) scores are made in int16_t; a
    score is an int8_t, so they fit and are not wrapped here. *)

From Coq Require Import ZArith List Bool.
From Verif Require Import Base.
From Verif Require Ttt_Model Connect4_Model.
Import ListNotations.
Open Scope Z_scope.

(** score_t is an int8_t: samples/tictactoe/game.i.h:47, samples/connect4/game.i.h:69 *)
Definition wrap_s8 (x : Z) : Z := (x + 2 ^ 7) mod 2 ^ 8 - 2 ^ 7.
Notation move := (Z * Z)%type.
(** samples/tictactoe/game.i.h:54, samples/connect4/game.i.h:72: score::none *)
Definition score_none : Z := -1.

(** ** The knowledge *)
(** samples/tictactoe/game.i.h:69, 84; samples/connect4/game.i.h:87, 102: scores by board state *)
Definition knowledge := list (Z * list Z).
(** samples/connect4/game.i.h:87, 102 *)
Fixpoint find (k : knowledge) (key : Z) : option (list Z) :=
  match k with
  | [] => None
  | (key', v) :: k' => if key =? key' then Some v else find k' key
  end.
(** samples/connect4/game.i.h:87, 102 *)
Fixpoint store (k : knowledge) (key : Z) (v : list Z) : knowledge :=
  match k with
  | [] => [(key, v)]
  | (key', v') :: k' => if key =? key' then (key', v) :: k' else (key', v') :: store k' key v
  end.
(** samples/connect4/game.i.h:87, 102: Whether the pool has room to insert a key (it is the environment that says). *)
Definition space := knowledge -> Z -> bool.
(** samples/tictactoe/game.h:499-520, samples/connect4/game.h:720-739: ensure_board_state_in_map, with [n] scores; [None] =
    the iterator cannot be dereferenced *)
Definition ensure (room : space) (n : nat) (k : knowledge) (key : Z) : option (list Z) * knowledge :=
  match find k key with
  | Some v => (Some v, k)
  | None =>
      let v := repeat score_none n in
      if room k key then (Some v, store k key v) else (None, k)
  end.

(** ** Choosing *)
(** samples/connect4/game.h:544-650: What fast_find_best_move does: returns a move, returns a variable that was not initialised, or divides by zero. *)
Inductive outcome := Chosen (m : move) | Unset | DivZero.

(** samples/connect4/game.h:553-580 *)
Record tally := { max_count : Z; min_count : Z; none_count : Z; valid_count : Z; score_sum : Z }.
Section pick.
(** score::max, score::mid, score::min: samples/tictactoe/game.i.h:56-58, samples/connect4/game.i.h:74-76 *)
Variables smax smid smin : Z.
(** the cells in the order of the loops, whether a move is possible there, and its score *)
Variable slots : list move.
Variable free : move -> bool.
Variable value : move -> Z.

(** samples/tictactoe/game.h:352-377, samples/connect4/game.h:553-580: analysis (the tic-tac-toe engine has no valid_count) *)
Fixpoint analyze (l : list move) (t : tally) : tally :=
  match l with
  | [] => t
  | m :: l' =>
      analyze l'
        (if free m then
           let s := value m in
           let v := valid_count t + 1 in
           if s =? smax then {| max_count := max_count t + 1; min_count := min_count t; none_count := none_count t; valid_count := v; score_sum := score_sum t |}
           else if s =? smin then {| max_count := max_count t; min_count := min_count t + 1; none_count := none_count t; valid_count := v; score_sum := score_sum t |}
           else if s =? score_none then {| max_count := max_count t; min_count := min_count t; none_count := none_count t + 1; valid_count := v; score_sum := score_sum t |}
           else {| max_count := max_count t; min_count := min_count t; none_count := none_count t; valid_count := v; score_sum := score_sum t + s |}
         else t)
  end.
(** samples/connect4/game.h:553-580 *)
Definition no_tally : tally := {| max_count := 0; min_count := 0; none_count := 0; valid_count := 0; score_sum := 0 |}.
(** samples/tictactoe/game.h:383-391, samples/connect4/game.h:586-594: one of the best *)
Fixpoint pick_max (l : list move) (rand_i : Z) : option move :=
  match l with
  | [] => None
  | m :: l' =>
      if free m && (value m =? smax) then
        let rand_i := rand_i - 1 in
        if rand_i =? 0 then Some m else pick_max l' rand_i
      else pick_max l' rand_i
  end.
(** samples/tictactoe/game.h:409-432, samples/connect4/game.h:616-640: a weighted pick; should_explore is true *)
Fixpoint pick_weighted (l : list move) (rand_sum : Z) (some_move : option move) : option move :=
  match l with
  | [] => some_move
  | m :: l' =>
      if free m then
        let s := value m in
        let '(some_move, rand_sum) :=
          if (smin <=? s) && (s <=? smax) then (Some m, rand_sum - s)
          else if s =? score_none then (Some m, rand_sum - smid)
          else (some_move, rand_sum) in
        if rand_sum <=? 0 then Some m else pick_weighted l' rand_sum some_move
      else pick_weighted l' rand_sum some_move
  end.
(** samples/tictactoe/game.h:343-442, samples/connect4/game.h:544-650: fast_find_best_move, with the test whether all
    scores are the least (395, 598), the move taken then (396-398, 599-605), and the number std::rand gives *)
Variable all_min : tally -> bool.
Variable min_move : Z -> move.
(** samples/connect4/game.h:544-650 *)
Definition fast_pick (rand : Z) : outcome :=
  let t := analyze slots no_tally in
  if 0 <? max_count t then
    match pick_max slots (1 + Z.rem rand (max_count t)) with Some m => Chosen m | None => Unset end
  else if all_min t then
    if min_count t =? 0 then DivZero else Chosen (min_move (1 + Z.rem rand (min_count t)))
  else
    let sum := score_sum t + none_count t * smid in
    if sum =? 0 then DivZero
    else match pick_weighted slots (1 + Z.rem rand sum) None with Some m => Chosen m | None => Unset end.
End pick.

(** *** Tic-tac-toe *)
(** samples/tictactoe/game.i.h:56-62 *)
Definition t_max : Z := 20.
(** samples/tictactoe/game.i.h:56-62 *)
Definition t_mid : Z := 10.
(** samples/tictactoe/game.i.h:56-62 *)
Definition t_min : Z := 1.
(** samples/tictactoe/game.i.h:56-62 *)
Definition t_win : Z := 3.
(** samples/tictactoe/game.i.h:56-62 *)
Definition t_draw : Z := 1.
(** samples/tictactoe/game.i.h:56-62 *)
Definition t_loss : Z := -1.
(** samples/tictactoe/game.i.h:56-62: itr->value[row][col]; only cells of the board are asked for *)
Definition t_value (v : list Z) (m : move) : Z := nth (Z.to_nat (fst m * 3 + snd m)) v 0.
(** samples/tictactoe/game.h:343-442 *)
Definition t_fast (room : space) (k : knowledge) (b : Ttt_Model.board) (rand : Z) : outcome * knowledge :=
  match ensure room 9 k (Ttt_Model.state b) with
  | (None, k) => (Unset, k)
  | (Some v, k) =>
      (fast_pick t_max t_mid t_min Ttt_Model.cells (fun m => Ttt_Model.get_move b m =? Ttt_Model.p_none) (t_value v)
         (fun t => min_count t =? Ttt_Model.row_count * Ttt_Model.col_count)
         (fun rand_i => (Z.quot rand_i Ttt_Model.col_count, Z.rem rand_i Ttt_Model.col_count)) rand, k)
  end.

(** *** Connect four *)
(** samples/connect4/game.i.h:74-80 *)
Definition c_max : Z := 100.
(** samples/connect4/game.i.h:74-80 *)
Definition c_mid : Z := 50.
(** samples/connect4/game.i.h:74-80 *)
Definition c_min : Z := 1.
(** samples/connect4/game.i.h:74-80 *)
Definition c_win : Z := 10.
(** samples/connect4/game.i.h:74-80 *)
Definition c_draw : Z := 1.
(** samples/connect4/game.i.h:74-80 *)
Definition c_loss : Z := -1.
(** samples/connect4/game.i.h:74-80: itr->value[col] *)
Definition c_value (v : list Z) (m : move) : Z := nth (Z.to_nat (snd m)) v 0.
(** samples/connect4/game.h:561, 587, 617-618: the next cell of each column *)
Definition c_slots (b : Connect4_Model.board) : list move := map (fun c => (Connect4_Model.col_size b c, c)) [0; 1; 2; 3; 4; 5; 6].
(** samples/connect4/game.h:544-650 *)
Definition c_fast (room : space) (k : knowledge) (b : Connect4_Model.board) (rand : Z) : outcome * knowledge :=
  match ensure room 7 k (Connect4_Model.state b) with
  | (None, k) => (Unset, k)
  | (Some v, k) =>
      (fast_pick c_max c_mid c_min (c_slots b) Connect4_Model.is_valid (c_value v)
         (fun t => min_count t =? valid_count t)
         (fun rand_i => let c := Z.rem rand_i Connect4_Model.col_count in (Connect4_Model.col_size b c, c)) rand, k)
  end.

(** ** Learning *)
(** samples/connect4/game.h:544-650: value[i] = s; None = outside the array *)
Fixpoint set_score (v : list Z) (i : nat) (s : Z) : option (list Z) :=
  match v, i with
  | [], _ => None
  | _ :: v', O => Some (s :: v')
  | x :: v', S i' => match set_score v' i' s with Some v'' => Some (x :: v'') | None => None end
  end.
(** samples/tictactoe/game.h:455, samples/connect4/game.h:694: the score before *)
Definition old_score (mid s : Z) : Z := if s =? score_none then mid else s.
(** samples/tictactoe/game.h:457-487: the new score, for the winner [w] of the game *)
Definition t_new_score (pid w s : Z) : Z :=
  let old := old_score t_mid s in
  if w =? pid then Z.min t_max (wrap_s8 (old + t_win))
  else if w =? Ttt_Model.p_none then Z.min t_max (wrap_s8 (old + t_draw))
  else Z.max t_min (wrap_s8 (old + t_loss)).
(** samples/tictactoe/game.h:445-492: learn, over the moves in their order; [None] = an iterator that cannot be
    dereferenced is, or an access outside of the scores *)
Fixpoint t_learn_loop (room : space) (pid w : Z) (tb : Ttt_Model.board) (ms : list move) (k : knowledge) : option knowledge :=
  match ms with
  | [] => Some k
  | mv :: ms' =>
      let next k := t_learn_loop room pid w (snd (Ttt_Model.accept_move tb mv)) ms' k in
      if Ttt_Model.current tb =? pid then
        match ensure room 9 k (Ttt_Model.state tb) with
        | (None, _) => None
        | (Some v, k) =>
            match set_score v (Z.to_nat (fst mv * 3 + snd mv)) (t_new_score pid w (t_value v mv)) with
            | None => None
            | Some v => next (store k (Ttt_Model.state tb) v)
            end
        end
      else next k
  end.
(** samples/tictactoe/game.h:445-492 *)
Definition t_learn (room : space) (pid : Z) (b : Ttt_Model.board) (ms : list move) (k : knowledge) : option knowledge :=
  t_learn_loop room pid (Ttt_Model.winner b) Ttt_Model.reset (firstn (Z.to_nat (Ttt_Model.count b)) ms) k.

(** samples/connect4/game.h:653-684: what a game is worth *)
Definition c_gain (pid w move_count : Z) : Z :=
  let gain := if w =? pid then c_win else if w =? Connect4_Model.p_none then c_draw else c_loss in
  if negb (w =? pid) then
    if 32 <? move_count then wrap_s8 (gain + 3)
    else if 24 <? move_count then wrap_s8 (gain + 2)
    else if 18 <? move_count then wrap_s8 (gain + 1)
    else gain
  else gain.
(** samples/connect4/game.h:694-702: the new score *)
Definition c_new_score (gain s : Z) : Z :=
  let new := wrap_s8 (old_score c_mid s + gain) in
  if 0 <? new then Z.min c_max new else Z.max c_min new.
(** samples/connect4/game.h:686-712: the loop of learn; [None] as above, or a loop of the board out of fuel *)
Fixpoint c_learn_loop (room : space) (pid gain : Z) (tb : Connect4_Model.board) (ms : list move) (k : knowledge) : option knowledge :=
  match ms with
  | [] => Some k
  | mv :: ms' =>
      let next k := match Connect4_Model.accept_move tb mv with Some (_, tb) => c_learn_loop room pid gain tb ms' k | None => None end in
      if Connect4_Model.current tb =? pid then
        match ensure room 7 k (Connect4_Model.state tb) with
        | (None, _) => None
        | (Some v, k) =>
            match set_score v (Z.to_nat (snd mv)) (c_new_score gain (c_value v mv)) with
            | None => None
            | Some v => next (store k (Connect4_Model.state tb) v)
            end
        end
      else next k
  end.
(** samples/connect4/game.h:686-712 *)
Definition c_learn (room : space) (pid : Z) (b : Connect4_Model.board) (ms : list move) (k : knowledge) : option knowledge :=
  c_learn_loop room pid (c_gain pid (Connect4_Model.winner b) (Connect4_Model.count b)) Connect4_Model.reset (firstn (Z.to_nat (Connect4_Model.count b)) ms) k.

(** ** The game *)
(** samples/tictactoe/game.i.h:114-120, samples/connect4/game.i.h:132-138: player_type *)
Inductive player_type := External | Slow | Fast.
(** samples/tictactoe/game.i.h:235-239, samples/connect4/game.i.h:262-266: the board and the moves of a game; of the array, what is filled *)
Record t_game := { t_board : Ttt_Model.board; t_moves : list move }.
(** samples/connect4/game.i.h:262-266 *)
Definition t_new : t_game := {| t_board := Ttt_Model.reset; t_moves := [] |}.
(** samples/tictactoe/game.h:548-595: game::accept_move, with what it learns (574-581); who is asked to move next is in
    Ttt_Model.v.  [None] = learn fails. *)
Definition t_game_accept (room : space) (xt ot : player_type) (g : t_game) (pid : Z) (m : move) (k : knowledge) : option (bool * t_game * knowledge) :=
  if negb (pid =? Ttt_Model.current (t_board g)) then Some (false, g, k)
  else
    let '(accepted, b) := Ttt_Model.accept_move (t_board g) m in
    let ms := if accepted then firstn (Z.to_nat (Ttt_Model.count b - 1)) (t_moves g) ++ [m] else t_moves g in
    let g := {| t_board := b; t_moves := ms |} in
    if Ttt_Model.over b then
      match xt, ot with
      | Fast, Slow => match t_learn room Ttt_Model.p_x b ms k with Some k => Some (accepted, g, k) | None => None end
      | Slow, Fast => match t_learn room Ttt_Model.p_o b ms k with Some k => Some (accepted, g, k) | None => None end
      | _, _ => Some (accepted, g, k)
      end
    else Some (accepted, g, k).
(** samples/connect4/game.i.h:262-266 *)
Record c_game := { c_board : Connect4_Model.board; c_moves : list move }.
(** samples/connect4/game.i.h:262-266 *)
Definition c_new : c_game := {| c_board := Connect4_Model.reset; c_moves := [] |}.
(** samples/connect4/game.h:767-814: the same for connect four (learning: 797-802) *)
Definition c_game_accept (room : space) (xt ot : player_type) (g : c_game) (pid : Z) (m : move) (k : knowledge) : option (bool * c_game * knowledge) :=
  if negb (pid =? Connect4_Model.current (c_board g)) then Some (false, g, k)
  else
    match Connect4_Model.accept_move (c_board g) m with
    | None => None
    | Some (accepted, b) =>
        let ms := if accepted then firstn (Z.to_nat (Connect4_Model.count b - 1)) (c_moves g) ++ [m] else c_moves g in
        let g := {| c_board := b; c_moves := ms |} in
        if Connect4_Model.over b then
          match xt, ot with
          | Fast, Slow => match c_learn room Connect4_Model.p_x b ms k with Some k => Some (accepted, g, k) | None => None end
          | Slow, Fast => match c_learn room Connect4_Model.p_o b ms k with Some k => Some (accepted, g, k) | None => None end
          | _, _ => Some (accepted, g, k)
          end
        else Some (accepted, g, k)
    end.
