(** Specification vocabulary for C68-C72: the game servers as their clients see them. *)

From Coq Require Import String ZArith QArith List Bool.
From Verif Require Import Base ListMem Ascii_Spec Http_Model Http_Calls Http_Spec Endpoint_Model Endpoint_Spec Rest_Model.
From Verif Require Json_Model Json_Spec Ttt_Spec Ttt_Calls Connect4_Spec Connect4_Calls.
Import ListNotations.
Open Scope string_scope.
Open Scope list_scope.
Open Scope Z_scope.

(** ** The rules of the games (Ttt_Spec.v, Connect4_Spec.v) *)
Record rules (K : kind) := {
  played : list (Z * Z) -> Prop;                  (* games by the rules, the newest move first *)
  legal : list (Z * Z) -> Z * Z -> Prop;
  finished : list (Z * Z) -> Prop;
  turn : nat -> Z;                                (* who makes the move with this index *)
  shows : k_board K -> list (Z * Z) -> Prop }.    (* the accessors of the board say what the moves say *)
Arguments played {K}. Arguments legal {K}. Arguments finished {K}. Arguments turn {K}. Arguments shows {K}.
Definition ttt_rules : rules ttt :=
  Build_rules ttt Ttt_Spec.played Ttt_Spec.legal Ttt_Spec.finished Ttt_Spec.turn Ttt_Calls.shows.
Definition c4_rules : rules c4 :=
  Build_rules c4 Connect4_Spec.played Connect4_Spec.legal Connect4_Spec.finished Connect4_Spec.turn Connect4_Calls.shows.
(** The two samples. *)
Inductive sample : forall K, rules K -> Prop :=
| sample_ttt : sample ttt ttt_rules
| sample_c4 : sample c4 c4_rules.

(** ** Servers *)
(** The connection and the arrays of the handlers have their sizes; output is not limited. *)
Definition ready (c : conn) (root : list Z) : Prop :=
  root_dir (c_config c) = Some root /\ arrays root (c_mb c) (c_pb c) (c_qb c) /\ prefix_text (c_config c) /\ c_ltr c = true.
Definition sized (e : env) : Prop :=
  (forall i, zlen (e_header e i) = 1025) /\ zlen (e_token e) = 1041 /\ forall n, 0 <= n -> zlen (e_body e n) = n.

(** ** JSON texts without white space *)
Section Text.
Import Json_Spec.
Fixpoint join_with (sep : list Z) (l : list (list Z)) : list Z :=
  match l with [] => [] | [x] => x | x :: l => x ++ sep ++ join_with sep l end.
Definition quoted (s : list Z) : list Z := [34] ++ s ++ [34].
Fixpoint compact (v : jv) : list Z :=
  match v with
  | JNull => null_text | JBool true => true_text | JBool false => false_text
  | JNum t => t | JStr s => quoted s
  | JArr l => [91] ++ join_with [44] (map compact l) ++ [93]
  | JObj l => [123] ++ join_with [44] (map (fun p => match p with (n, v) => quoted n ++ [58] ++ compact v end) l) ++ [125]
  end.
Definition jint (n : Z) : jv := JNum (decimal n).          (* [decimal_text (decimal n) n]: decimal_spec *)
(** One move with its index. *)
Definition item (p : Z * (Z * Z)) : jv :=
  match p with (i, (r, c)) => JObj [(b "i", jint i); (b "move", JObj [(b "row", jint r); (b "col", jint c)])] end.
Fixpoint numbered (i : Z) (l : list (Z * Z)) : list (Z * (Z * Z)) :=
  match l with [] => [] | m :: l => (i, m) :: numbered (i + 1) l end.
Definition winner_member (over : bool) (w : Z) : list (list Z * jv) := if over then [(b "winner", jint w)] else [].
(** The moves [ms] (the oldest first) from the index [since] on. *)
Definition listing (since : Z) (ms : list (Z * Z)) (over : bool) (w : Z) : jv :=
  JObj ((b "moves", JArr (map item (drop since (numbered 0 ms)))) :: winner_member over w).
End Text.

(** The response to a request that succeeded: the value as a JSON text (RFC 8259) without white space. *)
Definition json_ok (out : list Z) (v : Json_Spec.jv) : Prop :=
  responds out (b "200") (b "OK") (Some (b "application/json")) (compact v) /\ Json_Spec.val Json_Spec.rfc_char v (compact v).
(** A response with a text. *)
Definition text_reply (out : list Z) (code reason text : string) : Prop :=
  responds out (b code) (b reason) (Some (b "text/plain; charset=utf-8")) (b text).

(** ** Changes of games *)
(** What a client holds of a game: its id and the ids of the seats. *)
Definition same_identity {K} (g g' : game K) : Prop :=
  g_id g' = g_id g /\ g_xtype g' = g_xtype g /\ g_otype g' = g_otype g /\ g_xid g' = g_xid g /\ g_oid g' = g_oid g.
Definition seat_id {K} (g : game K) (p : Z) : Z := if p =? k_x K then g_xid g else g_oid g.
Definition seat_type {K} (g : game K) (p : Z) : ptype := if p =? k_x K then g_xtype g else g_otype g.

(** A number as the resources of the servers may give it: a sign, digits; too large ones become the
    largest one, and the low 32 bits count. *)
Definition u32_text (t : list Z) (n : Z) : Prop :=
  exists sign ds, t = sign ++ ds /\ (sign = [] \/ sign = [43] \/ sign = [45]) /\ ds <> [] /\ Forall digit ds /\
    n = (if value_of ds <? 2 ^ 64 then (if list_eq_dec Z.eq_dec sign [45] then - value_of ds else value_of ds) else 2 ^ 64 - 1) mod 2 ^ 32.
(** The resources of a server: all games, a seat, the moves of a seat, the moves from an index on. *)
Definition in_game (r t : list Z) (id : Z) (tail : list Z) : Prop :=
  exists g, r = g ++ b "/" ++ t ++ tail /\ same_i g (b "/games") /\ u32_text t id.
Definition seat_resource (r : list Z) (id i : Z) : Prop := exists t1 t2, in_game r t1 id (b "/players/" ++ t2) /\ u32_text t2 i.
Definition play_resource (r : list Z) (id pid : Z) : Prop :=
  exists t1 t2 mv, in_game r t1 id (b "/players/" ++ t2 ++ b "/" ++ mv) /\ u32_text t2 pid /\ same_i mv (b "moves").
Definition since_resource (r : list Z) (id since : Z) : Prop := exists t1 t2, in_game r t1 id (b "/moves?since=" ++ t2) /\ u32_text t2 since.
(** The bytes ask for a move in the game [id] in the name of the seat [pid]. *)
Definition asks_move (l : list Z) (id pid : Z) : Prop :=
  exists m sp g t1 t2 mv rest, l = m ++ sp ++ g ++ b "/" ++ t1 ++ b "/players/" ++ t2 ++ b "/" ++ mv ++ rest /\
    same_i m (b "POST") /\ Forall blank sp /\ same_i g (b "/games") /\ u32_text t1 id /\ u32_text t2 pid /\ same_i mv (b "moves").

(** The bytes ask to change something below the games. *)
Definition asks_games (l : list Z) : Prop :=
  exists m sp g rest, l = m ++ sp ++ g ++ rest /\ same_i m (b "POST") /\ Forall blank sp /\ same_i g (b "/games").

(** The moves a game has stored, the newest first: as many as the board has counted. *)
Definition transcript {K} (g : game K) (ms : list (Z * Z)) : Prop :=
  k_count K (g_board g) = zlen ms /\ firstn (length ms) (g_moves g) = map Some (rev ms).
Definition untouched {K} (R : rules K) (g : game K) : Prop := shows R (g_board g) [] /\ transcript g [].
(** The ways in which one event may change a game; [may g p]: the event may play for the player [p] of [g]. *)
Inductive change {K} (R : rules K) (may : game K -> Z -> Prop) : game K -> game K -> Prop :=
| change_none : forall g, change R may g g
| change_claim : forall g g', same_identity g g' -> g_board g' = g_board g -> g_moves g' = g_moves g ->
    (g_xclaimed g = false /\ g_xclaimed g' = true /\ g_oclaimed g' = g_oclaimed g \/
     g_oclaimed g = false /\ g_oclaimed g' = true /\ g_xclaimed g' = g_xclaimed g) -> change R may g g'
| change_move : forall g g' m ms, same_identity g g' -> g_xclaimed g' = g_xclaimed g -> g_oclaimed g' = g_oclaimed g ->
    played R ms -> shows R (g_board g) ms -> transcript g ms -> may g (turn R (length ms)) -> legal R ms m ->
    shows R (g_board g') (m :: ms) -> transcript g' (m :: ms) -> change R may g g'
| change_new : forall g g' ms, played R ms -> shows R (g_board g) ms -> finished R ms -> untouched R g' -> change R may g g'.
(** Who may play: the agent of an engine, the request that has the ids of the game and of the seat. *)
Definition may_play {K} (ev : event) (g : game K) (p : Z) : Prop :=
  match ev with
  | Engine _ pid _ => pid = p /\ seat_type g p <> external
  | Request _ _ l => g_id g <> 0 /\ seat_id g p <> 0 /\ asks_move l (g_id g) (seat_id g p)
  end.
(** The games after an event: each game is changed in one of these ways, at most one is changed, and there may be a new one
    without moves. *)
Definition evolves {K} (R : rules K) (may : game K -> Z -> Prop) (sv sv' : server K) : Prop :=
  (length (s_games sv) <= length (s_games sv'))%nat /\
  (forall i g, nth_error (s_games sv) i = Some g -> exists g', nth_error (s_games sv') i = Some g' /\ change R may g g') /\
  (forall i g', (length (s_games sv) <= i)%nat -> nth_error (s_games sv') i = Some g' -> untouched R g') /\
  (exists j, forall i, i <> j -> nth_error (s_games sv') i = nth_error (s_games sv) i).
(** The arrays of a request have their sizes. *)
Definition wired (ev : event) : Prop :=
  match ev with
  | Request c _ _ => exists root, root_dir (c_config c) = Some root /\ arrays root (c_mb c) (c_pb c) (c_qb c)
  | Engine _ _ _ => True
  end.
(** The bytes start with the method POST. *)
Definition posts (l : list Z) : Prop := exists m rest, l = m ++ rest /\ same_i m (b "POST").

(** ** Seats *)
(** The seats have the numbers 0 (it moves first) and 1. *)
Definition is_claimed {K} (g : game K) (i : Z) : bool := if i =? 0 then g_xclaimed g else g_oclaimed g.
Definition seat_number {K} (g : game K) (i : Z) : Z := if i =? 0 then g_xid g else g_oid g.
(** The seat [i] is claimed, and nothing else that a client can see changes. *)
Definition claims {K} (i : Z) (g g' : game K) : Prop :=
  same_identity g g' /\ g_board g' = g_board g /\ g_moves g' = g_moves g /\
  g_xclaimed g' = (if i =? 0 then true else g_xclaimed g) /\ g_oclaimed g' = (if i =? 0 then g_oclaimed g else true).

(** ** Headers and bodies *)
(** A header: its name and the words of its value. *)
Definition hline : Type := (list Z * list (list Z))%type.
Definition header_lines (hs : list hline) : list Z := flat_map (fun h => fst h ++ b ": " ++ join (snd h) ++ CRLF) hs.
(** A request line that fits, headers, an empty line, the body. *)
Definition full_request (root l m r : list Z) (hs : list hline) (body : list Z) : Prop :=
  exists p, l = m ++ [32] ++ r ++ [32] ++ p ++ CRLF ++ header_lines hs ++ CRLF ++ body /\ start_line_ok request m r p /\
    zlen m <= 32 /\ zlen root + zlen r <= 2047 /\ zlen p <= 16.
(** The arrays have room for the headers. *)
Definition header_fits (h : hline) : Prop :=
  header_name_text (fst h) /\ Forall (fun w => w <> [] /\ Forall printable w) (snd h) /\ zlen (fst h) <= 1024 /\ zlen (join (snd h)) <= 1024.
(** What the headers say about the type of the body. *)
Definition is_type (h : hline) : Prop := same_i (fst h) (b "Content-Type").
Definition says_json (h : hline) : Prop := exists s t, join (snd h) = s ++ t /\ same_i s (b "application/json").
Definition no_type (hs : list hline) : Prop := Forall (fun h => ~ is_type h) hs.
Definition json_type (hs : list hline) : Prop := exists h1 h h2, hs = h1 ++ [h] ++ h2 /\ no_type h1 /\ is_type h /\ says_json h /\ no_type h2.
Definition other_type (hs : list hline) : Prop := exists h1 h h2, hs = h1 ++ [h] ++ h2 /\ no_type h1 /\ is_type h /\ ~ says_json h.
Definition two_types (hs : list hline) : Prop :=
  exists h1 h h2 h' h3, hs = h1 ++ [h] ++ h2 ++ [h'] ++ h3 /\ no_type h1 /\ is_type h /\ says_json h /\ no_type h2 /\ is_type h'.
