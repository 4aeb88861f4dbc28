(** Model of game_endpoint in samples/tictactoe/game.h:672-1454: the REST requests of the game servers,
    from the bytes of the request to the bytes of the response and the changed games.  The class in
    samples/connect4/game.h:891-1673 has the same text except for the bounds of a move and the
    size of one array, so both are instances ([ttt], [c4]) of one definition over the operations
    of a board ([kind]).

    The HTTP streams are those of Http_Model.v, the JSON streams those of Json_Model.v, the request
    line, static files and responses those of Endpoint_Model.v.
    Requests are processed one after the other: the threads of concurrent requests and their data
    races are left out, and so is the log (a null pointer).  What an engine plays is left open
    (any move at any time, [Engine]).  std::rand and std::atof are arbitrary functions ([env]).

    Outcomes as in Http_Model.v: [Oob] = an access outside an array, [Loop] = the fuel ran out,
    [Throw] = an exception. *)

From Coq Require Import String ZArith QArith Qround List Bool.
From Verif Require Import Base ListMem Ascii_Model Table_Model Http_Model Http_Calls Endpoint_Model.
From Verif Require Json_Model Ttt_Model Connect4_Model.
Import ListNotations.
Open Scope list_scope.
Open Scope Z_scope.

(** ** The games *)
(** class board of samples/tictactoe/game.i.h:137-173 and samples/connect4/game.i.h:158-197 as seen by
    the endpoint, and the constants in which the endpoints differ.  [k_accept] None = a loop of the board is
    out of fuel. *)
Record kind := {
  k_board : Type;
  k_reset : k_board;
  k_accept : k_board -> Z * Z -> option (bool * k_board);
  k_over : k_board -> bool;
  k_winner : k_board -> Z;
  k_current : k_board -> Z;
  k_count : k_board -> Z;
  k_x : Z; k_o : Z; k_none : Z;
  k_cells : nat;                    (* max_move_count *)
  k_row : Q -> bool; k_col : Q -> bool;
  k_moves_size : Z }.               (* sizeof(body) in get_moves *)
(** samples/tictactoe/game.h:1139-1177, 1286; samples/tictactoe/game.i.h:222 *)
Definition ttt : kind := {|
  k_board := Ttt_Model.board; k_reset := Ttt_Model.reset; k_accept := fun b m => Some (Ttt_Model.accept_move b m);
  k_over := Ttt_Model.over; k_winner := Ttt_Model.winner; k_current := Ttt_Model.current; k_count := Ttt_Model.count;
  k_x := Ttt_Model.p_x; k_o := Ttt_Model.p_o; k_none := Ttt_Model.p_none; k_cells := 9;
  k_row := fun q => Qle_bool 0 q && Qle_bool q 2; k_col := fun q => Qle_bool 0 q && Qle_bool q 2;
  k_moves_size := 1025 |}.
(** samples/connect4/game.h:1358-1396, 1505; samples/connect4/game.i.h:249 *)
Definition c4 : kind := {|
  k_board := Connect4_Model.board; k_reset := Connect4_Model.reset; k_accept := Connect4_Model.accept_move;
  k_over := Connect4_Model.over; k_winner := Connect4_Model.winner; k_current := Connect4_Model.current; k_count := Connect4_Model.count;
  k_x := Connect4_Model.p_x; k_o := Connect4_Model.p_o; k_none := Connect4_Model.p_none; k_cells := 42;
  k_row := fun q => Qle_bool 0 q && negb (Qle_bool 6 q); k_col := fun q => Qle_bool 0 q && negb (Qle_bool 7 q);
  k_moves_size := 2049 |}.

(** samples/tictactoe/game.i.h:114-121: player_type *)
Inductive ptype := external | slow_engine | fast_engine.
(** samples/tictactoe/game.i.h:114-121 *)
Definition is_external (t : ptype) : bool := match t with external => true | _ => false end.

(** samples/tictactoe/game.i.h:212-241, 244-277: game and endpoint_game.  [g_asked] = the players whose agents were asked to
    move (make_move_async) since the last reset. *)
Record game (K : kind) := {
  g_id : Z; g_board : k_board K; g_moves : list (option (Z * Z));
  g_xtype : ptype; g_otype : ptype;
  g_xid : Z; g_xclaimed : bool; g_oid : Z; g_oclaimed : bool;
  g_asked : list Z }.
Arguments g_id {K}. Arguments g_board {K}. Arguments g_moves {K}. Arguments g_xtype {K}. Arguments g_otype {K}. Arguments g_xid {K}.
Arguments g_xclaimed {K}. Arguments g_oid {K}. Arguments g_oclaimed {K}. Arguments g_asked {K}.

Section games.
Context {K : kind}.
(** samples/tictactoe/game.h:533-545, 583-590: the agent of the current player is asked to move *)
Definition ask (g : game K) : game K :=
  let c := k_current K (g_board g) in
  {| g_id := g_id g; g_board := g_board g; g_moves := g_moves g; g_xtype := g_xtype g; g_otype := g_otype g;
     g_xid := g_xid g; g_xclaimed := g_xclaimed g; g_oid := g_oid g; g_oclaimed := g_oclaimed g;
     g_asked := if (c =? k_x K) || (c =? k_o K) then g_asked g ++ [c] else g_asked g |}.
(** samples/tictactoe/game.h:623-625, 647-649: start() when both are claimed *)
Definition start_if_full (g : game K) : game K := if g_xclaimed g && g_oclaimed g then ask g else g.
(** samples/tictactoe/game.h:525-530, 611-626: endpoint_game::reset; the array of moves keeps its contents *)
Definition game_reset (ms : list (option (Z * Z))) (id : Z) (xt : ptype) (x : Z) (ot : ptype) (o : Z) : game K :=
  start_if_full {| g_id := id; g_board := k_reset K; g_moves := ms; g_xtype := xt; g_otype := ot;
                   g_xid := x; g_xclaimed := x =? 0; g_oid := o; g_oclaimed := o =? 0; g_asked := [] |}.
(** samples/tictactoe/game.h:629-652: endpoint_game::claim_player; None = false *)
Definition game_claim (g : game K) (i : Z) : option (Z * game K) :=
  if i =? 0 then
    if g_xclaimed g then None
    else Some (g_xid g, start_if_full {| g_id := g_id g; g_board := g_board g; g_moves := g_moves g; g_xtype := g_xtype g; g_otype := g_otype g;
                          g_xid := g_xid g; g_xclaimed := true; g_oid := g_oid g; g_oclaimed := g_oclaimed g; g_asked := g_asked g |})
  else
    if g_oclaimed g then None
    else Some (g_oid g, start_if_full {| g_id := g_id g; g_board := g_board g; g_moves := g_moves g; g_xtype := g_xtype g; g_otype := g_otype g;
                          g_xid := g_xid g; g_xclaimed := g_xclaimed g; g_oid := g_oid g; g_oclaimed := true; g_asked := g_asked g |}).
(** samples/tictactoe/game.h:660-669: endpoint_game::player_id *)
Definition player_of (g : game K) (id : Z) : Z := if id =? g_xid g then k_x K else if id =? g_oid g then k_o K else k_none K.
(** _moves[i] = m at samples/tictactoe/game.h:561; None = outside the array *)
Fixpoint store_move (l : list (option (Z * Z))) (i : nat) (m : Z * Z) : option (list (option (Z * Z))) :=
  match l, i with
  | [], _ => None
  | _ :: l', O => Some (Some m :: l')
  | x :: l', S i' => match store_move l' i' m with Some l'' => Some (x :: l'') | None => None end
  end.
(** samples/tictactoe/game.h:548-595: game::accept_move (learn() at 578-582 is left out) *)
Definition game_accept (g : game K) (pid : Z) (m : Z * Z) : hres (bool * game K) :=
  if negb (pid =? k_current K (g_board g)) then Ret (false, g)
  else match k_accept K (g_board g) m with
       | None => Loop
       | Some (ok, b) =>
           match (if ok then (if 0 <=? k_count K b - 1 then store_move (g_moves g) (Z.to_nat (k_count K b - 1)) m else None) else Some (g_moves g)) with
           | None => Oob
           | Some ms =>
               let g' := {| g_id := g_id g; g_board := b; g_moves := ms; g_xtype := g_xtype g; g_otype := g_otype g;
                            g_xid := g_xid g; g_xclaimed := g_xclaimed g; g_oid := g_oid g; g_oclaimed := g_oclaimed g; g_asked := g_asked g |} in
               Ret (ok, if negb (k_over K b) && ok then ask g' else g')
           end
       end.
End games.

(** samples/tictactoe/game.i.h:288: max_game_count *)
Definition max_game_count : nat := 1.
(** samples/tictactoe/game.i.h:312-313: _game_count and _games; [s_rand] = the calls of std::rand so far *)
Record server (K : kind) := { s_games : list (game K); s_rand : nat }.
Arguments s_games {K}. Arguments s_rand {K}.

(** What a request depends on besides its bytes: the uninitialised arrays header (samples/tictactoe/game.h:1410, one
    for each turn of the loop), buffer (853, 1112) and body (805, 1021, 1206, 1286, by size), std::atof (None = not
    finite), the results of std::rand, and the fuel for the JSON reader. *)
Record env := { e_header : nat -> list Z; e_token : list Z; e_body : Z -> list Z;
                e_atof : list Z -> option Q; e_rand : nat -> Z; e_fuel : nat }.

(** samples/tictactoe/game.h:700-1000: What a handler did: the server, whether shutdown was requested, the calls on the stream that make up the response ([] =
    nothing is sent), and the reading side of the stream *)
Record reply (K : kind) := { r_server : server K; r_shut : bool; r_calls : list (wcall * list Z); r_stream : hrd }.
Arguments r_server {K}. Arguments r_shut {K}. Arguments r_calls {K}. Arguments r_stream {K}.

(** ** Responses *)
(** send_simple_response (src/endpoint.h:250-279) with content_type::text *)
Definition text_response (code reason text : string) : list (wcall * list Z) :=
  simple_response (bytes_of_string code) (bytes_of_string reason) text_plain (bytes_of_string text).
(** src/i/endpoint.i.h:216: content_type::json *)
Definition application_json : list Z := bytes_of_string "application/json".
(** samples/tictactoe/game.h:815-837 (1031-1053, 1224-1246, 1320-1342): the response with the JSON text in body *)
Definition json_response (text : list Z) : list (wcall * list Z) :=
  simple_response (bytes_of_string "200") (bytes_of_string "OK") application_json text.
(** samples/tictactoe/game.h:805-816 (1021-1032, 1206-1225, 1286-1321): the tokens are written into the array [a], then a null;
    std::strlen reads the array.  %.16lg prints the numbers used here as decimals. *)
Definition json_text (a : list Z) (ts : list Json_Model.token) : hres (list Z) :=
  let w := Json_Model.put_ops (Json_Model.writer 16 (Some (Datatypes.length a))) (map Json_Model.Tok ts) in
  let w := Json_Model.put_chars w [0] in
  match c_str (Json_Model.out w ++ drop (zlen (Json_Model.out w)) a) with None => Oob | Some t => Ret t end.
(** json.put_number of an integer (src/json.h:805-827) *)
Definition num (n : Z) : Json_Model.token := Json_Model.TNum (decimal n).
(** src/json.h:860: json.put_property of a literal *)
Definition prop (s : string) : Json_Model.token := Json_Model.TProp (bytes_of_string s).

(** ** Reading the request *)
(** Comparisons of a C string with a literal (src/ascii.h:147-164) *)
Definition equals (m : list Z) (s : string) : hres bool :=
  match are_equal (Some m) (Some (lit s)) with None => Oob | Some b => Ret b end.
(** src/ascii.h:147-164 *)
Definition equals_i (m : list Z) (s : string) : hres bool :=
  match are_equal_i (Some m) (Some (lit s)) with None => Oob | Some b => Ret b end.
(** src/ascii.h:147-164 *)
Definition starts_i (m : list Z) (s : string) : hres bool :=
  match are_equal_i_n (Some m) (Some (lit s)) (String.length s) with None => Oob | Some b => Ret b end.

(** samples/tictactoe/game.h:1405-1451: verify_header_json.  The result: None = false without a response, Some [] = true,
    Some calls = false with this response.  [n] bounds the headers, [i] counts them. *)
Fixpoint verify_header_json (e : env) (n : nat) (i : nat) (has : bool) (s : hrd) : hres (option (list (wcall * list Z)) * hrd) :=
  match n with
  | O => Loop
  | S n' =>
      do (h, s) <- read_call request header_name (e_header e i) s;                       (* 1413 *)
      if hgc s =? 0 then Ret (if has then Some [] else None, s)                          (* 1414-1416, 1450 *)
      else
        do ct <- equals_i h "Content-Type";                                              (* 1418 *)
        if ct then
          if has then Ret (Some (text_response "400" "Bad Request" "The Content-Type header was supplied more than once."), s)
          else
            do (h, s) <- read_call request header_value h s;                             (* 1430 *)
            do ok <- starts_i h "application/json";                                      (* 1432-1433 *)
            if ok then verify_header_json e n' (S i) true s
            else Ret (Some (text_response "400" "Bad Request" "'application/json' is the only supported Content-Type."), s)
        else
          do (h, s) <- read_call request header_value h s;                               (* 1447 *)
          verify_header_json e n' (S i) has s
  end.

(** samples/tictactoe/game.h:846-984: The outcomes of the JSON reader *)
Definition of_json {A} (x : Json_Model.res A) : hres A :=
  match x with
  | Json_Model.Ret a => Ret a
  | Json_Model.Oob_token | Json_Model.Oob_local => Oob
  | Json_Model.Loop => Loop
  | Json_Model.Throw => Throw
  end.
(** json.get_token(token, sizeof(buffer)) and what is found in the token: samples/tictactoe/game.h:856 and others; [tb] = the buffer *)
Definition get_token (e : env) (tb : list Z) (s : Json_Model.rd) : hres (Json_Model.token * list Z * Json_Model.rd) :=
  do (it, s) <- of_json (Json_Model.get_token (e_fuel e) tb s);
  match Json_Model.observe it s, Json_Model.mem s with
  | Some t, Some tb => Ret (t, tb, s)
  | _, _ => Oob
  end.
(** abc::json_istream<abc::size::_64, Log> json(sb, ...): samples/tictactoe/game.h:851-852, 1110-1111: a stream of its own over the
    buffer of the request *)
Definition json_reader (s : hrd) : Json_Model.rd := Json_Model.reader 64 (hin s).

(** samples/tictactoe/game.h:55-68: player_type::from_text; None = player_type::none *)
Definition from_text (s : list Z) : hres (option ptype) :=
  do b1 <- equals (s ++ [0]) "external";
  if b1 then Ret (Some external) else
  do b2 <- equals (s ++ [0]) "slow_engine";
  if b2 then Ret (Some slow_engine) else
  do b3 <- equals (s ++ [0]) "fast_engine";
  if b3 then Ret (Some fast_engine) else Ret None.

(** samples/tictactoe/game.h:55-68: What get_player_types found: a response, or the types *)
Inductive found (A : Type) := Refuse (calls : list (wcall * list Z)) | Found (a : A).
Arguments Refuse {A}. Arguments Found {A}.
(** samples/tictactoe/game.h:854 *)
Definition invalid_players : list (wcall * list Z) :=
  text_response "400" "Bad Request" "An invalid JSON payload was supplied. Must be: {""players"": [ ""external"", ""slow_engine"" ]}.".
(** samples/tictactoe/game.h:961 *)
Definition invalid_type : list (wcall * list Z) := text_response "400" "Bad Request" "An invalid player type was received.".
(** char players[2][abc::size::_64 + 1]: samples/tictactoe/game.h:847; the std::strcpy at 922 *)
Definition copy_player (s : list Z) : hres (list Z) := if zlen s <=? 64 then Ret s else Oob.
(** samples/tictactoe/game.h:905-926: one turn of the loop over the two strings; None = not a string *)
Definition one_player (e : env) (tb : list Z) (s : Json_Model.rd) : hres (option (list Z) * list Z * Json_Model.rd) :=
  do (t, tb, s) <- get_token e tb s;
  match t with
  | Json_Model.TStr p => do p <- copy_player p; Ret (Some p, tb, s)
  | _ => Ret (None, tb, s)
  end.
(** samples/tictactoe/game.h:868-946: the loop over the properties; [n] bounds the properties.  The result: None = refused with
    invalid_json, Some None = no players, Some (Some ..) = the strings in the array players *)
Fixpoint read_players (e : env) (n : nat) (pl : option (list Z * list Z)) (tb : list Z) (s : Json_Model.rd)
    : hres (option (option (list Z * list Z))) :=
  match n with
  | O => Loop
  | S n' =>
      do (t, tb, s) <- get_token e tb s;                                                 (* 871 *)
      match t with
      | Json_Model.TEndO => Ret (Some pl)                                                (* 874-876 *)
      | Json_Model.TProp p =>
          do is_players <- equals (p ++ [0]) "players";                                  (* 890 *)
          if is_players then
            do (t, tb, s) <- get_token e tb s;                                           (* 892 *)
            match t with
            | Json_Model.TBegA =>
                do (a, tb, s) <- one_player e tb s;                                      (* 905-926 *)
                match a with
                | None => Ret None
                | Some a =>
                    do (b, tb, s) <- one_player e tb s;
                    match b with
                    | None => Ret None
                    | Some b =>
                        do (t, tb, s) <- get_token e tb s;                               (* 928 *)
                        match t with
                        | Json_Model.TEndA => read_players e n' (Some (a, b)) tb s       (* 940 *)
                        | _ => Ret None
                        end
                    end
                end
            | _ => Ret None
            end
          else
            do (it, s) <- of_json (Json_Model.skip_value (e_fuel e) s);                  (* 944 *)
            read_players e n' pl tb s
      | _ => Ret None                                                                    (* 878-887 *)
      end
  end.
(** samples/tictactoe/game.h:846-984: get_player_types *)
Definition get_player_types (e : env) (s : hrd) : hres (found (ptype * ptype)) :=
  do (t, tb, js) <- get_token e (e_token e) (json_reader s);                             (* 856 *)
  match t with
  | Json_Model.TBegO =>
      do r <- read_players e (S (Datatypes.length (hin s))) None tb js;
      match r with
      | None | Some None => Ret (Refuse invalid_players)                                 (* 948-956 *)
      | Some (Some (a, b)) =>
          do x <- from_text a;                                                           (* 962 *)
          match x with
          | None => Ret (Refuse invalid_type)
          | Some x => do o <- from_text b;                                               (* 973 *)
                      match o with
                      | None => Ret (Refuse invalid_type)
                      | Some o => Ret (Found (x, o))
                      end
          end
      end
  | _ => Ret (Refuse invalid_players)
  end.

(** ** The handlers *)
Section handlers.
Context {K : kind}.
Variable e : env.

(** samples/tictactoe/game.h:846-984: A handler that changes no game and sends [calls] *)
Definition answer_with (sv : server K) (s : hrd) (calls : list (wcall * list Z)) : hres (reply K) :=
  Ret {| r_server := sv; r_shut := false; r_calls := calls; r_stream := s |}.
(** samples/tictactoe/game.h:1389-1402: verify_method_post *)
Definition expect_post : list (wcall * list Z) := text_response "405" "Method Not Allowed" "Expected method POST for this request.".
(** samples/tictactoe/game.h:1373-1386: verify_method_get *)
Definition expect_get : list (wcall * list Z) := text_response "405" "Method Not Allowed" "Expected method GET for this request.".
(** samples/tictactoe/game.h:1003, 1083, 1102, 1279 *)
Definition invalid_resource : list (wcall * list Z) := text_response "400" "Bad Request" "An invalid resource was supplied.".
(** samples/tictactoe/game.h:1066, 1258, 1354 *)
Definition game_not_found : list (wcall * list Z) := text_response "404" "Not Found" "A game with the supplied ID was not found.".

(** ((std::rand() & 0xffff) << 16) | ((std::rand() & 0xffff)): samples/tictactoe/game.h:789, 795, 799; converted to uint32_t *)
Definition rand_id (n : nat) : Z := wrap_u32 (Z.lor (Z.shiftl (Z.land (e_rand e n) 65535) 16) (Z.land (e_rand e (S n)) 65535)).

(** samples/tictactoe/game.h:760-776: the first game that is over *)
Fixpoint first_over (l : list (game K)) : option nat :=
  match l with
  | [] => None
  | g :: l => if k_over K (g_board g) then Some O else option_map S (first_over l)
  end.
(** samples/tictactoe/game.h:760-776: _games[i] = g *)
Fixpoint set_game (l : list (game K)) (i : nat) (g : game K) : list (game K) :=
  match l, i with
  | [], _ => []
  | _ :: l, O => g :: l
  | x :: l, S i => x :: set_game l i g
  end.
(** samples/tictactoe/game.h:759-776: the slot: the games with room for the new one, its index, and the moves in the slot *)
Definition find_slot (l : list (game K)) : option (list (game K) * nat * list (option (Z * Z))) :=
  if (Datatypes.length l <? max_game_count)%nat then
    let ms := repeat None (k_cells K) in
    Some (l ++ [game_reset ms 0 external 0 external 0], Datatypes.length l, ms)          (* 761: _game_count++ *)
  else match first_over l with
       | Some i => match nth_error l i with Some g => Some (l, i, g_moves g) | None => None end
       | None => None
       end.
(** samples/tictactoe/game.h:739-843: create_game *)
Definition create_game (sv : server K) (m : list Z) (s : hrd) : hres (reply K) :=
  do post <- equals_i m "POST";
  if negb post then answer_with sv s expect_post else
  do (v, s) <- verify_header_json e (S (Datatypes.length (hin s))) 0 false s;
  match v with
  | None => answer_with sv s []
  | Some ((_ :: _) as calls) => answer_with sv s calls
  | Some [] =>
      do p <- get_player_types e s;
      match p with
      | Refuse calls => answer_with sv s calls
      | Found (xt, ot) =>
          match find_slot (s_games sv) with
          | None => answer_with sv s (text_response "503" "Service Unavailable" "The service has a temporary game capacity shortage.")
          | Some (games, i, ms) =>
              let n := s_rand sv in
              let id := rand_id n in                                                     (* 789 *)
              let n := S (S n) in
              let '(x, n) := if is_external xt then (rand_id n, S (S n)) else (0, n) in  (* 794-796 *)
              let '(o, n) := if is_external ot then (rand_id n, S (S n)) else (0, n) in  (* 798-800 *)
              do t <- json_text (e_body e 1025) [Json_Model.TBegO; prop "gameId"; num id; Json_Model.TEndO];
              Ret {| r_server := {| s_games := set_game games i (game_reset ms id xt x ot o); s_rand := n |};
                     r_shut := false; r_calls := json_response t; r_stream := s |}
          end
      end
  end.

(** for (game_i ...) if (_games[game_i].id() == id): samples/tictactoe/game.h:1007-1008, 1180-1181, 1283-1284 *)
Fixpoint find_game (l : list (game K)) (id : Z) : option (nat * game K) :=
  match l with
  | [] => None
  | g :: l => if g_id g =? id then Some (O, g) else match find_game l id with Some (i, g) => Some (S i, g) | None => None end
  end.
(** samples/tictactoe/game.h:988-1068: claim_player *)
Definition claim_player (sv : server K) (m : list Z) (s : hrd) (id i : Z) : hres (reply K) :=
  do post <- equals_i m "POST";
  if negb post then answer_with sv s expect_post else
  if (id =? 0) || (1 <? i) then answer_with sv s invalid_resource else
  match find_game (s_games sv) id with
  | None => answer_with sv s game_not_found
  | Some (k, g) =>
      match game_claim g i with
      | None => answer_with sv s (text_response "403" "Forbidden" "This play has already been claimed.")
      | Some (p, g') =>
          do t <- json_text (e_body e 1025) [Json_Model.TBegO; prop "playerId"; num p; Json_Model.TEndO];
          Ret {| r_server := {| s_games := set_game (s_games sv) k g'; s_rand := s_rand sv |};
                 r_shut := false; r_calls := json_response t; r_stream := s |}
      end
  end.

(** samples/tictactoe/game.h:1113 *)
Definition invalid_move : list (wcall * list Z) :=
  text_response "400" "Bad Request" "An invalid JSON payload was supplied. Must be: {""row"": 0, ""col"": 1}.".
(** samples/tictactoe/game.h:1127-1137, 1153-1163: the property [name]; None = something else *)
Definition read_name (name : string) (tb : list Z) (s : Json_Model.rd) : hres (option (list Z * Json_Model.rd)) :=
  do (t, tb, s) <- get_token e tb s;
  match t with
  | Json_Model.TProp p => do b <- equals (p ++ [0]) name; Ret (if b then Some (tb, s) else None)
  | _ => Ret None
  end.
(** samples/tictactoe/game.h:1139-1151, 1165-1177: a number in range, converted to move_t *)
Definition read_coordinate (range : Q -> bool) (tb : list Z) (s : Json_Model.rd) : hres (option (Z * list Z * Json_Model.rd)) :=
  do (t, tb, s) <- get_token e tb s;
  match t with
  | Json_Model.TNum d => match e_atof e d with
                         | Some q => Ret (if range q then Some (Qfloor q, tb, s) else None)
                         | None => Ret None
                         end
  | _ => Ret None
  end.
(** samples/tictactoe/game.h:1107-1178: the move in the body of the request; None = refused *)
Definition read_move (s : hrd) : hres (option (Z * Z)) :=
  do (t, tb, js) <- get_token e (e_token e) (json_reader s);
  match t with
  | Json_Model.TBegO =>
      do r <- read_name "row" tb js;
      match r with
      | None => Ret None
      | Some (tb, js) =>
          do r <- read_coordinate (k_row K) tb js;
          match r with
          | None => Ret None
          | Some (row, tb, js) =>
              do r <- read_name "col" tb js;
              match r with
              | None => Ret None
              | Some (tb, js) =>
                  do r <- read_coordinate (k_col K) tb js;
                  match r with
                  | None => Ret None
                  | Some (col, _, _) => Ret (Some (row, col))
                  end
              end
          end
      end
  | _ => Ret None
  end.
(** samples/tictactoe/game.h:1215-1218, 1313-1316: the winner of a game that is over *)
Definition winner_tokens (b : k_board K) : list Json_Model.token := if k_over K b then [prop "winner"; num (k_winner K b)] else [].
(** samples/tictactoe/game.h:1072-1260: accept_move; [moves] = the C string read by %6s *)
Definition accept_move (sv : server K) (m : list Z) (s : hrd) (id pid : Z) (moves : list Z) : hres (reply K) :=
  do is_moves <- equals_i (moves ++ [0]) "moves";
  if negb is_moves then answer_with sv s invalid_resource else
  do post <- equals_i m "POST";
  if negb post then answer_with sv s expect_post else
  do (v, s) <- verify_header_json e (S (Datatypes.length (hin s))) 0 false s;
  match v with
  | None => answer_with sv s []
  | Some ((_ :: _) as calls) => answer_with sv s calls
  | Some [] =>
      if (id =? 0) || (pid =? 0) then answer_with sv s invalid_resource else
      do mv <- read_move s;
      match mv with
      | None => answer_with sv s invalid_move
      | Some mv =>
          match find_game (s_games sv) id with
          | None => answer_with sv s game_not_found
          | Some (k, g) =>
              let p := player_of g pid in
              if p =? k_none K then answer_with sv s (text_response "404" "Not Found" "A player with the supplied ID was not found.") else
              do (ok, g') <- game_accept g p mv;
              let sv' := {| s_games := set_game (s_games sv) k g'; s_rand := s_rand sv |} in
              if negb ok then answer_with sv' s (text_response "403" "Forbidden" "The move was not accepted.") else
              do t <- json_text (e_body e 1025) ([Json_Model.TBegO; prop "i"; num (k_count K (g_board g') - 1)] ++ winner_tokens (g_board g') ++ [Json_Model.TEndO]);
              Ret {| r_server := sv'; r_shut := false; r_calls := json_response t; r_stream := s |}
          end
      end
  end.

(** samples/tictactoe/game.h:1294-1307: the moves from [i] on, [n] of them; None = the array is left or a move was never stored *)
Fixpoint move_tokens (ms : list (option (Z * Z))) (i : Z) (n : nat) : option (list Json_Model.token) :=
  match n with
  | O => Some []
  | S n => match nth_error ms (Z.to_nat i) with
           | Some (Some (r, c)) =>
               match move_tokens ms (i + 1) n with
               | None => None
               | Some l => Some ([Json_Model.TBegO; prop "i"; num i; prop "move"; Json_Model.TBegO; prop "row"; num r; prop "col"; num c;
                                  Json_Model.TEndO; Json_Model.TEndO] ++ l)
               end
           | _ => None
           end
  end.
(** samples/tictactoe/game.h:1264-1356: get_moves *)
Definition get_moves (sv : server K) (m : list Z) (s : hrd) (id since : Z) : hres (reply K) :=
  do get <- equals_i m "GET";
  if negb get then answer_with sv s expect_get else
  if id =? 0 then answer_with sv s invalid_resource else
  match find_game (s_games sv) id with
  | None => answer_with sv s game_not_found
  | Some (k, g) =>
      match move_tokens (g_moves g) since (Z.to_nat (k_count K (g_board g) - since)) with
      | None => Oob
      | Some ts =>
          do t <- json_text (e_body e (k_moves_size K))
                    ([Json_Model.TBegO; prop "moves"; Json_Model.TBegA] ++ ts ++ [Json_Model.TEndA] ++ winner_tokens (g_board g) ++ [Json_Model.TEndO]);
          answer_with sv s (json_response t)
      end
  end.

(** samples/tictactoe/game.h:1360-1369: process_shutdown *)
Definition process_shutdown (sv : server K) (m : list Z) (s : hrd) : hres (reply K) :=
  do post <- equals_i m "POST";
  if negb post then answer_with sv s expect_post
  else Ret {| r_server := sv; r_shut := true; r_calls := text_response "200" "OK" "Server is shuting down..."; r_stream := s |}.
End handlers.

(** ** std::sscanf with the three formats at samples/tictactoe/game.h:725, 728, 731 *)
(** samples/tictactoe/game.h:725, 728, 731: isspace *)
Definition scan_space (c : Z) : bool := (c =? 32) || ((9 <=? c) && (c <=? 13)).
(** samples/tictactoe/game.h:725, 728, 731 *)
Fixpoint skip_scan_spaces (s : list Z) : list Z :=
  match s with c :: s' => if scan_space c then skip_scan_spaces s' else s | [] => [] end.
(** samples/tictactoe/game.h:725, 728, 731: The longest prefix of decimal digits, its value (2^64 = an overflow), and the rest *)
Fixpoint scan_digits (s : list Z) (v : Z) : Z * list Z :=
  match s with
  | c :: s' => if (48 <=? c) && (c <=? 57) then scan_digits s' (Z.min (10 * v + (c - 48)) (2 ^ 64)) else (v, s)
  | [] => (v, s)
  end.
(** samples/tictactoe/game.h:725, 728, 731: %u: white space, a sign, at least one digit; strtoul negates after a minus, an overflow gives ULONG_MAX, and the low 32 bits are stored *)
Definition scan_u (s : list Z) : option (Z * list Z) :=
  let s := skip_scan_spaces s in
  let '(neg, s) := match s with 45 :: s' => (true, s') | 43 :: s' => (false, s') | _ => (false, s) end in
  match s with
  | c :: _ => if (48 <=? c) && (c <=? 57)
              then let '(v, s') := scan_digits s 0 in Some (wrap_u32 (if v =? 2 ^ 64 then 2 ^ 64 - 1 else if neg then - v else v), s')
              else None
  | [] => None
  end.
(** samples/tictactoe/game.h:725, 728, 731: %6s: white space, then one to six other characters *)
Fixpoint scan_chars (n : nat) (s : list Z) : list Z :=
  match n, s with S n, c :: s' => if scan_space c then [] else c :: scan_chars n s' | _, _ => [] end.
(** samples/tictactoe/game.h:725, 728, 731: The directives of a format: a character that is not white space, %u, %6s *)
Inductive directive := Char (c : Z) | U | S6.
(** samples/tictactoe/game.h:725, 728, 731 *)
Inductive scanned := Number (n : Z) | Text (t : list Z).
(** samples/tictactoe/game.h:725, 728, 731: The values stored, in order *)
Fixpoint scan (f : list directive) (s : list Z) : list scanned :=
  match f with
  | [] => []
  | Char c :: f => match s with c' :: s' => if c' =? c then scan f s' else [] | [] => [] end
  | U :: f => match scan_u s with Some (n, s') => Number n :: scan f s' | None => [] end
  | S6 :: f => match scan_chars 6 (skip_scan_spaces s) with
               | [] => []
               | t => Text t :: scan f (drop (zlen t) (skip_scan_spaces s))
               end
  end.
(** samples/tictactoe/game.h:725, 728, 731: A format given by its pieces *)
Definition chars (s : string) : list directive := map Char (bytes_of_string s).
(** samples/tictactoe/game.h:725, 728, 731 *)
Definition move_format : list directive := chars "/" ++ [U] ++ chars "/players/" ++ [U] ++ chars "/" ++ [S6].
(** samples/tictactoe/game.h:725, 728, 731 *)
Definition player_format : list directive := chars "/" ++ [U] ++ chars "/players/" ++ [U].
(** samples/tictactoe/game.h:725, 728, 731 *)
Definition since_format : list directive := chars "/" ++ [U] ++ chars "/moves?since=" ++ [U].

Section requests.
Context {K : kind}.
(** samples/tictactoe/game.h:711-735: process_games; [r] = the memory from resource on *)
Definition process_games (e : env) (sv : server K) (m r : list Z) (s : hrd) : hres (reply K) :=
  let rg := drop 6 r in
  do all <- equals_i rg "";
  if all then create_game e sv m s
  else match c_str rg with
       | None => Oob
       | Some t =>
           match scan move_format t with
           | [Number id; Number pid; Text moves] => accept_move e sv m s id pid moves
           | _ => match scan player_format t with
                  | [Number id; Number i] => claim_player e sv m s id i
                  | _ => match scan since_format t with
                         | [Number id; Number since] => get_moves e sv m s id since
                         | _ => answer_with sv s []
                         end
                  end
           end
       end.
(** samples/tictactoe/game.h:688-707: process_rest_request *)
Definition process_rest (e : env) (sv : server K) (m r : list Z) (s : hrd) : hres (reply K) :=
  do games <- starts_i r "/games";
  if games then process_games e sv m r s else
  do shutdown <- equals_i r "/shutdown";
  if shutdown then process_shutdown sv m s
  else answer_with sv s (text_response "404" "Not Found" "The requested resource was not found.").

(** samples/tictactoe/game.h:688-707: The connection: configuration, file system, [ltr] of Http_Model.v, and the uninitialised arrays method, path
    and protocol, as in Endpoint_Model.process_request *)
Record conn := { c_config : config; c_fs : fsystem; c_ltr : bool; c_mb : list Z; c_pb : list Z; c_qb : list Z }.
(** src/endpoint.h:105-155 with process_rest_request as above: the answer and the server afterwards *)
Definition serve (c : conn) (e : env) (sv : server K) (l : list Z) : hres (answer * server K) :=
  do (m, path, s) <- read_line (c_config c) (c_mb c) (c_pb c) (c_qb c) l;
  let r := drop (match root_dir (c_config c) with Some root => zlen root | None => 0 end) path in
  match is_file_request (c_config c) m r with
  | None => Oob
  | Some true =>
      do (p, calls) <- file_request (c_fs c) m path;
      do w <- write_calls response calls (server_writer s (c_ltr c));
      Ret ({| a_file := p; a_shut := false; a_calls := calls; a_out := wout w |}, sv)
  | Some false =>
      do rp <- process_rest e sv m r s;
      do w <- write_calls response (r_calls rp) (server_writer (r_stream rp) (c_ltr c));
      Ret ({| a_file := None; a_shut := r_shut rp; a_calls := r_calls rp; a_out := wout w |}, r_server rp)
  end.

(** ** Histories *)
(** A request, or a move by the agent of a seat held by an engine (samples/tictactoe/game.h:282-295, 338-) *)
Inductive event := Request (c : conn) (e : env) (l : list Z) | Engine (i : nat) (pid : Z) (m : Z * Z).
(** player_agent::_player_type of the seat (samples/tictactoe/game.h:239-244, 270-278): only the engines move by themselves *)
Definition engine_seat (g : game K) (pid : Z) : bool :=
  ((pid =? k_x K) && negb (is_external (g_xtype g))) || ((pid =? k_o K) && negb (is_external (g_otype g))).
(** samples/tictactoe/game.h:294, 352: _game->accept_move(_player_id, best_move) *)
Definition step (sv : server K) (ev : event) : hres (server K) :=
  match ev with
  | Request c e l => do (_, sv) <- serve c e sv l; Ret sv
  | Engine i pid m =>
      match nth_error (s_games sv) i with
      | None => Ret sv
      | Some g => if engine_seat g pid
                  then do (_, g') <- game_accept g pid m; Ret {| s_games := set_game (s_games sv) i g'; s_rand := s_rand sv |}
                  else Ret sv
      end
  end.
(** samples/tictactoe/game.h:688-776 *)
Fixpoint steps (sv : server K) (l : list event) : hres (server K) :=
  match l with [] => Ret sv | ev :: l => do sv <- step sv ev; steps sv l end.
(** samples/tictactoe/game.i.h:312: a new endpoint *)
Definition new_server : server K := {| s_games := []; s_rand := 0 |}.
End requests.
