(** C68-C72: the game servers of the samples. *)

From Coq Require Import String ZArith QArith List Bool Lia.
From Verif Require Import Base ListMem Ascii_Spec Http_Model Http_Calls Http_Spec Endpoint_Model Endpoint_Spec Endpoint_Props Rest_Model Rest_Spec Rest_Games.
From Verif Require Json_Model Json_Spec Json_Final.
Import ListNotations.
Open Scope string_scope.
Open Scope list_scope.
Open Scope Z_scope.

(** ** Requests for the examples *)
(** std::atof on one digit *)
Definition ex_atof (l : list Z) : option Q := match l with [d] => Some (inject_Z (d - 48)) | _ => None end.
Definition ex_env (rand : nat -> Z) : env :=
  {| e_header := fun _ => zeros 1025; e_token := zeros 1041; e_body := fun n => zeros n; e_atof := ex_atof; e_rand := rand; e_fuel := 300 |}.
Definition ex_conn : conn := {| c_config := ex_config; c_fs := fun _ => None; c_ltr := true; c_mb := ex_mb; c_pb := ex_pb; c_qb := ex_qb |}.
(** A request with headers and a body. *)
Definition http_request (line : string) (headers : list string) (body : list Z) : list Z :=
  b line ++ CRLF ++ flat_map (fun h => b h ++ CRLF) headers ++ CRLF ++ body.
Definition json : list string := ["Content-Type: application/json"].
Definition request (e : env) (line : string) (headers : list string) (body : string) : event := Request ex_conn e (http_request line headers (b body)).
(** std::rand: 1, 2, 3, ...; the first ids are 65538, 196612, 327686. *)
Definition counting (n : nat) : Z := Z.of_nat n + 1.
Definition ex_create (e : env) : event := request e "POST /games HTTP/1.1" json "{""players"":[""external"",""external""]}".
Lemma ex_wired : forall e line hs body, wired (request e line hs body).
Proof. intros. exists (b "/srv/www"). split; [reflexivity|]. apply ex_arrays; [repeat constructor; discriminate|vm_compute; discriminate]. Qed.

(** What a computation has returned (without the large terms). *)
Definition returned {A} (x : hres A) : bool := match x with Ret _ => true | _ => false end.
Definition result {A} (d : A) (x : hres A) : A := match x with Ret a => a | _ => d end.
Lemma returns : forall A (d : A) x, returned x = true -> x = Ret (result d x).
Proof. intros A d [a| | |] H; [reflexivity|discriminate..]. Qed.
Definition after (K : kind) (evs : list event) : server K := result new_server (steps new_server evs).
Definition next {K} (sv : server K) (ev : event) : server K := result sv (step sv ev).
Definition no_answer : answer := {| a_file := None; a_shut := false; a_calls := []; a_out := [] |}.
Definition sent {K} (sv : server K) (ev : event) : list Z :=
  match ev with Request c e l => a_out (fst (result (no_answer, sv) (serve c e sv l))) | _ => [] end.
(** The first game: id, number of moves, first move, seats. *)
Definition view {K} (sv : server K) : option (Z * Z * option (option (Z * Z)) * Z * bool * Z * bool) :=
  match s_games sv with
  | g :: _ => Some (g_id g, k_count K (g_board g), nth_error (g_moves g) 0, g_xid g, g_xclaimed g, g_oid g, g_oclaimed g)
  | [] => None
  end.

(** ** C72: who can change a game, and how *)
(** After any requests and engine moves, one more event: each game stays as it was, or a free seat is claimed, or the player on turn makes
    a legal move (an engine for its own seat, a request only with the ids of the game and of the seat), or a game that is over is
    replaced by a new one.  Nothing else about a game changes, and at most one game does. *)
Theorem C72_changes_partial : forall K (R : rules K), sample K R -> forall evs (sv : server K) ev sv',
  steps new_server evs = Ret sv -> wired ev -> step sv ev = Ret sv' -> evolves R (may_play ev) sv sv'.
Proof.
  intros K R S evs sv ev sv' H W E. destruct (sample_laws K R S) as (rep & L).
  apply (step_evolves K R rep L); [|exact W|exact E]. eapply steps_ok; [exact L|apply new_ok|exact H].
Qed.
(** Only a request with the method POST changes anything. *)
Theorem C72_only_post_partial : forall K (sv : server K) c e l sv', wired (Request c e l) -> step sv (Request c e l) = Ret sv' -> sv' = sv \/ posts l.
Proof. intros K sv c e l sv'. apply step_posts. Qed.
Definition ex_play : list event :=
  [ex_create (ex_env counting); request (ex_env counting) "POST /games/65538/players/0 HTTP/1.1" [] ""].
Definition ex_move (e : env) (body : string) : event := request e "POST /games/65538/players/196612/moves HTTP/1.1" json body.
Definition ex_first : event := ex_move (ex_env counting) "{""row"":1,""col"":2}".
Example C72_ex : let sv := after ttt ex_play in steps new_server ex_play = Ret sv /\ wired ex_first /\ step sv ex_first = Ret (next sv ex_first) /\
  view sv = Some (65538, 0, Some None, 196612, true, 327686, false) /\ view (next sv ex_first) = Some (65538, 1, Some (Some (1, 2)), 196612, true, 327686, false).
Proof.
  split; [apply returns; vm_compute; reflexivity|]. split; [apply ex_wired|]. split; [apply returns; vm_compute; reflexivity|]. split; vm_compute; reflexivity.
Qed.
Definition ex_moves : event := request (ex_env counting) "GET /games/65538/moves?since=0 HTTP/1.1" [] "".
Example C72_only_post_ex : let sv := after ttt ex_play in wired ex_moves /\ step sv ex_moves = Ret (next sv ex_moves) /\
  ~ posts (http_request "GET /games/65538/moves?since=0 HTTP/1.1" [] []) /\ posts (http_request "post /games HTTP/1.1" json []).
Proof.
  split; [apply ex_wired|]. split; [apply returns; vm_compute; reflexivity|]. split.
  - intros (m & rest & E & S). unfold same_i in S. destruct m as [|c m]; [discriminate S|]. injection E as <- _. discriminate S.
  - exists (b "post"). eexists. split; [vm_compute; reflexivity|reflexivity].
Qed.
(** The full claim has more: the body of a move is a JSON text.  A body that is cut off is taken for a move, *)
Theorem C72_body_refuted : exists evs body, let sv := after ttt evs in let ev := request (ex_env counting) "POST /games/65538/players/196612/moves HTTP/1.1" json body in
  steps new_server evs = Ret sv /\ step sv ev = Ret (next sv ev) /\ option_map (fun v => fst (fst (fst (fst (fst (fst v)))))) (view sv) = Some 65538 /\
  view (next sv ev) <> view sv /\ forall plain v, ~ Json_Spec.document plain v (b body).
Proof.
  exists ex_play, "{""row"":1,""col"":2". split; [apply returns; vm_compute; reflexivity|]. split; [apply returns; vm_compute; reflexivity|]. split; [vm_compute; reflexivity|]. split; [vm_compute; discriminate|].
  intros plain v D. apply Json_Final.doc_no_ws in D; [|repeat constructor; unfold Json_Spec.is_ws; cbn; lia]. remember (b _) as text eqn:E in D. destruct D; try discriminate E.
  - match goal with H : Json_Spec.number_text _ |- _ => destruct H as (sg & i & f & x & -> & Sg & (Ni & Di) & _) end. destruct Sg as [-> | ->]; [|discriminate E].
    destruct i as [|c i]; [congruence|]. injection E as -> _. inversion Di as [|? ? H]. unfold Json_Spec.dig in H. lia.
  - apply (f_equal (@rev Z)) in E. rewrite !app_assoc, !rev_app_distr in E. discriminate E.
Qed.
(** a seat nobody has claimed can make moves, *)
Theorem C72_unclaimed_refuted : exists evs ev, let sv := after ttt evs in steps new_server evs = Ret sv /\ wired ev /\ step sv ev = Ret (next sv ev) /\
  view sv = Some (65538, 0, Some None, 196612, false, 327686, false) /\ view (next sv ev) = Some (65538, 1, Some (Some (1, 2)), 196612, false, 327686, false).
Proof.
  exists [ex_create (ex_env counting)], ex_first. split; [apply returns; vm_compute; reflexivity|]. split; [apply ex_wired|]. split; [apply returns; vm_compute; reflexivity|].
  split; vm_compute; reflexivity.
Qed.
(** if std::rand repeats, both seats get the same id, and the second player cannot move; *)
Theorem C72_same_ids_refuted : exists rand evs l, let sv := after ttt evs in let ev := Request ex_conn (ex_env rand) l in
  steps new_server evs = Ret sv /\ view sv = Some (65537, 1, Some (Some (1, 2)), 65537, true, 65537, true) /\
  wired ev /\ asks_move l 65537 65537 /\ step sv ev = Ret (next sv ev) /\ view (next sv ev) = view sv /\
  text_reply (sent sv ev) "403" "Forbidden" "The move was not accepted.".
Proof.
  exists (fun _ => 1), [ex_create (ex_env (fun _ => 1)); request (ex_env (fun _ => 1)) "POST /games/65537/players/0 HTTP/1.1" [] "";
    request (ex_env (fun _ => 1)) "POST /games/65537/players/1 HTTP/1.1" [] ""; request (ex_env (fun _ => 1)) "POST /games/65537/players/65537/moves HTTP/1.1" json "{""row"":1,""col"":2}"],
    (http_request "POST /games/65537/players/65537/moves HTTP/1.1" json (b "{""row"":0,""col"":0}")).
  split; [apply returns; vm_compute; reflexivity|]. split; [vm_compute; reflexivity|]. split; [apply (ex_wired (ex_env (fun _ => 1)))|]. split.
  { exists (b "POST"), [32], (b "/games"), (b "65537"), (b "65537"), (b "moves"), (b " HTTP/1.1" ++ CRLF ++ b "Content-Type: application/json" ++ CRLF ++ CRLF ++ b "{""row"":0,""col"":0}").
    split; [reflexivity|]. split; [reflexivity|]. split; [repeat constructor; unfold blank; lia|]. split; [reflexivity|].
    assert (u32_text (b "65537") 65537) as U; [|split; [exact U|split; [exact U|reflexivity]]].
    exists [], (b "65537"). split; [reflexivity|]. split; [auto|]. split; [discriminate|]. split; [repeat constructor; cbv; discriminate|reflexivity]. }
  split; [apply returns; vm_compute; reflexivity|]. split; [vm_compute; reflexivity|].
  exists (b "26"). split; [vm_compute; reflexivity|]. split; [discriminate|]. split; [repeat constructor; cbv; discriminate|]. split; [reflexivity|discriminate].
Qed.
(** and a game may get the id 0, by which nobody reaches it: whatever comes, the server keeps this game and has no room for another one. *)
Theorem C72_stuck_refuted : exists rand evs, let sv := after ttt evs in Forall wired evs /\ steps new_server evs = Ret sv /\ view sv = Some (0, 0, Some None, 65537, false, 65537, false) /\
  (forall evs' sv', steps sv evs' = Ret sv' -> sv' = sv) /\
  text_reply (sent sv (ex_create (ex_env rand))) "503" "Service Unavailable" "The service has a temporary game capacity shortage.".
Proof.
  set (rand := fun n => match n with O | S O => 0 | _ => 1 end).
  exists rand, [ex_create (ex_env rand)]. split; [repeat constructor; apply ex_wired|]. split; [apply returns; vm_compute; reflexivity|]. split; [vm_compute; reflexivity|]. split.
  - intros evs' sv' H. eapply stuck_steps; [| |exact H].
    + vm_compute. lia.
    + assert (forall (g : game ttt), s_games (after ttt [ex_create (ex_env rand)]) = [g] -> Forall (fun g => g_id g = 0 /\ k_over ttt (g_board g) = false /\ g_xtype g = external /\ g_otype g = external) [g]) as X.
      { intros g Hg. assert (g = match s_games (after ttt [ex_create (ex_env rand)]) with g :: _ => g | [] => g end) as -> by (rewrite Hg; reflexivity). clear Hg.
        repeat constructor; vm_compute; reflexivity. }
      assert (Datatypes.length (s_games (after ttt [ex_create (ex_env rand)])) = 1%nat) as Ln by (vm_compute; reflexivity).
      destruct (s_games (after ttt [ex_create (ex_env rand)])) as [|g [|g' l]].
      * constructor.
      * apply X. reflexivity.
      * discriminate Ln.
  - exists (b "51"). split; [vm_compute; reflexivity|]. split; [discriminate|]. split; [repeat constructor; cbv; discriminate|]. split; [reflexivity|discriminate].
Qed.

Print Assumptions C72_changes_partial.
Print Assumptions C72_only_post_partial.
Print Assumptions C72_body_refuted.
Print Assumptions C72_unclaimed_refuted.
Print Assumptions C72_same_ids_refuted.
Print Assumptions C72_stuck_refuted.
