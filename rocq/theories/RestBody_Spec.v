(** Specification vocabulary for C69 and C72: the bodies of requests to the game servers. *)

From Coq Require Import String ZArith QArith List Bool.
From Verif Require Import Base ListMem Ascii_Spec Http_Model Http_Calls Http_Spec Endpoint_Model Endpoint_Spec Rest_Model Rest_Spec.
From Verif Require Json_Model Json_Spec.
Import ListNotations.
Open Scope string_scope.
Open Scope list_scope.
Open Scope Z_scope.

Section Bodies.
Import Json_Spec.
(** The body starts with the text of a JSON value (RFC 8259). *)
Definition body_says (body : list Z) (v : jv) : Prop :=
  exists w t rest, body = w ++ t ++ rest /\ ws w /\ val any_char v t /\ (is_num v = true -> number_over rest).
(** The reader has room for the value: 64 levels, numbers of 25 characters, strings of 1032 characters without a null. *)
Definition readable (v : jv) : Prop := depth v <= 64 /\ Forall num_fits (tokens v) /\ Forall (tok_fits 1041) (tokens v).

(** ** New games *)
Definition named (s : string) (p : list Z * jv) : bool := if list_eq_dec Z.eq_dec (fst p) (b s) then true else false.
Definition two_strings (v : jv) : option (list Z * list Z) := match v with JArr [JStr x; JStr o] => Some (x, o) | _ => None end.
Definition is_some {A} (x : option A) : bool := match x with Some _ => true | None => false end.
(** The two players: all members "players" of the object are arrays of two strings, and the last one counts. *)
Definition players_in (v : jv) : option (list Z * list Z) :=
  match v with
  | JObj ms => let ps := map (fun p => two_strings (snd p)) (filter (named "players") ms) in
               if forallb is_some ps then last ps None else None
  | _ => None
  end.
(** The strings in arrays of players have at most 64 characters. *)
Definition short_string (v : jv) : Prop := match v with JStr s => zlen s <= 64 | _ => True end.
Definition short_players (v : jv) : Prop :=
  match v with
  | JObj ms => Forall (fun p => named "players" p = true -> match snd p with JArr l => Forall short_string l | _ => True end) ms
  | _ => True
  end.
Definition type_name (t : ptype) : list Z :=
  match t with external => b "external" | slow_engine => b "slow_engine" | fast_engine => b "fast_engine" end.

(** ** Moves *)
(** The texts of the two numbers: the object starts with the members "row" and "col". *)
Definition move_in (v : jv) : option (list Z * list Z) :=
  match v with
  | JObj ((r, JNum x) :: (c, JNum y) :: _) => if named "row" (r, JNull) && named "col" (c, JNull) then Some (x, y) else None
  | _ => None
  end.
End Bodies.

(** Ids of games and seats: two calls of std::rand, 16 bits of each. *)
Definition drawn (rand : nat -> Z) (n : nat) : Z := rand n mod 65536 * 65536 + rand (S n) mod 65536.
(** A new game: nothing is played; the seats of engines are taken, the others get ids of their own. *)
Definition fresh_game {K} (R : rules K) (g : game K) (rand : nat -> Z) (n : nat) (xt ot : ptype) : Prop :=
  g_id g = drawn rand n /\ g_xtype g = xt /\ g_otype g = ot /\
  g_xid g = (match xt with external => drawn rand (2 + n) | _ => 0 end) /\
  g_oid g = (match ot with external => drawn rand (match xt with external => 4 + n | _ => 2 + n end) | _ => 0 end) /\
  (forall i, 0 <= i <= 1 -> is_claimed g i = (seat_number g i =? 0)) /\ untouched R g.

(** The boards: rows and columns. *)
Inductive board_size : kind -> Z -> Z -> Prop :=
| size_ttt : board_size ttt 3 3
| size_c4 : board_size c4 6 7.
(** The player whose seat has the id; the seat that moves first is looked at first. *)
Definition holder {K} (g : game K) (pid p : Z) : Prop := pid = g_xid g /\ p = k_x K \/ pid <> g_xid g /\ pid = g_oid g /\ p = k_o K.
(** The response to a move: its index, and the winner if the game is over. *)
Definition move_reply (i : Z) (over : bool) (w : Z) : Json_Spec.jv := Json_Spec.JObj ((b "i", jint i) :: winner_member over w).
(** Calls of std::rand for a seat. *)
Definition rand_calls (t : ptype) : nat := match t with external => 2 | _ => 0 end.
(** A number of the request, read by std::atof, is a whole number; it is somewhere on an axis with [n] places. *)
Definition whole (a : option Q) (n : Z) : Prop := exists q, a = Some q /\ (q == inject_Z n)%Q.
Definition on_axis (n : Z) (a : option Q) : Prop := exists q, a = Some q /\ (0 <= q < inject_Z n)%Q.
