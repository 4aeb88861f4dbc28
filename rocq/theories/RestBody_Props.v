(** C69, C70, C73: requests with bodies. *)

From Coq Require Import String ZArith QArith List Bool Lia.
From Verif Require Import Base ListMem Ascii_Model Ascii_Spec Http_Model Http_Calls Http_Spec Endpoint_Model Endpoint_Spec Endpoint_Proofs Endpoint_Props Rest_Model Rest_Spec RestBody_Spec Rest_Games Rest_Replies Rest_Props RestReply_Props RestBody_Replies.
From Verif Require Json_Model Json_Spec Json_Proofs.
Import ListNotations.
Open Scope string_scope.
Open Scope list_scope.
Open Scope Z_scope.

(** ** Bodies for the examples *)
Section Bodies.
Import Json_Spec.
Lemma str_any : forall s t, str_text rfc_char s t -> str_text any_char s t.
Proof. induction 1; [apply st_nil|apply st_plain; auto; unfold rfc_char, any_char in *; lia|eapply st_esc; eauto|eapply st_hex; eauto]. Qed.
Lemma val_any : (forall v t, val rfc_char v t -> val any_char v t) /\ (forall l t, elems rfc_char l t -> elems any_char l t) /\ (forall l t, members rfc_char l t -> members any_char l t).
Proof. apply Json_Proofs.text_mut; intros; econstructor; eauto using str_any. Qed.
Lemma obj_says : forall ms rest, Forall fair ms -> body_says (compact (JObj ms) ++ rest) (JObj ms).
Proof. intros ms rest F. exists [], (compact (JObj ms)), rest. split; [reflexivity|]. split; [constructor|]. split; [apply val_any, obj_val, F|discriminate]. Qed.
Definition str_ok (s : list Z) : bool := forallb (fun c => (32 <=? c) && (c <=? 255) && negb (c =? 34) && negb (c =? 92)) s.
Lemma str_fair : forall s : String.string, str_ok (b s) = true -> val rfc_char (JStr (b s)) (compact (JStr (b s))).
Proof. intros s H. apply v_str, name_fair, H. Qed.
Lemma pair_fair : forall (n x o : String.string), str_ok (b n) = true -> str_ok (b x) = true -> str_ok (b o) = true -> fair (b n, JArr [JStr (b x); JStr (b o)]).
Proof. intros n x o Hn Hx Ho. split; [apply name_fair, Hn|]. apply v_arr. apply elems_compact. constructor; [apply str_fair; assumption|]. constructor; [apply str_fair; assumption|constructor]. Qed.
Lemma int_fair : forall (n : String.string) i, str_ok (b n) = true -> 0 <= i < 2 ^ 64 -> fair (b n, jint i).
Proof. intros n i Hn Hi. split; [apply name_fair, Hn|apply int_val, Hi]. Qed.
Definition fits_b (t : Json_Model.token) : bool :=
  match t with
  | Json_Model.TStr s | Json_Model.TProp s => (zlen s + 9 <=? 1041) && forallb (fun c => negb (c =? 0)) s
  | Json_Model.TNum d => zlen d <=? 25
  | _ => true
  end.
Lemma fits_readable : forall v, depth v <=? 64 = true -> forallb fits_b (tokens v) = true -> readable v.
Proof.
  intros v D F. split; [lia|]. rewrite forallb_forall in F. split; apply Forall_forall; intros t H; specialize (F t H); destruct t; cbn in *; try exact I; try lia;
    apply andb_prop in F as (F1 & F2); (split; [lia|]); intros X; rewrite forallb_forall in F2; specialize (F2 0 X); discriminate F2.
Qed.
End Bodies.
Definition ex_players (x o : string) : Json_Spec.jv := Json_Spec.JObj [(b "version", jint 1); (b "players", Json_Spec.JArr [Json_Spec.JStr (b x); Json_Spec.JStr (b o)])].
Definition ex_to (row col : Z) : Json_Spec.jv := Json_Spec.JObj [(b "row", jint row); (b "col", jint col)].

(** ** C69: new games *)
(** After any requests and engine moves, a request for a game with a complete JSON body: two types of players and no game under way give a new game without moves, whose id
    is returned; otherwise the request is refused, and nothing changes. *)
Theorem C69_create_partial : forall K (R : rules K), sample K R -> forall evs (sv : server K) c root e l m r hs body v,
  steps new_server evs = Ret sv -> ready c root -> sized e -> full_request root l m r hs body -> ~ file_asked (c_config c) m r -> same_i m (b "POST") -> same_i r (b "/games") ->
  Forall header_fits hs -> json_type hs -> body_says body v -> readable v -> short_players v -> (length body + 4 < e_fuel e)%nat ->
  exists a sv', serve c e sv l = Ret (a, sv') /\ a_shut a = false /\
    (players_in v = None -> sv' = sv /\ text_reply (a_out a) "400" "Bad Request" "An invalid JSON payload was supplied. Must be: {""players"": [ ""external"", ""slow_engine"" ]}.") /\
    (forall x o, players_in v = Some (x, o) -> (forall t, x <> type_name t) \/ (forall t, o <> type_name t) -> sv' = sv /\ text_reply (a_out a) "400" "Bad Request" "An invalid player type was received.") /\
    (forall xt ot, players_in v = Some (type_name xt, type_name ot) ->
       (forall g, In g (s_games sv) -> k_over K (g_board g) = false -> sv' = sv /\ text_reply (a_out a) "503" "Service Unavailable" "The service has a temporary game capacity shortage.") /\
       ((forall g, In g (s_games sv) -> k_over K (g_board g) = true) -> exists g', s_games sv' = [g'] /\ s_rand sv' = (rand_calls ot + (rand_calls xt + (2 + s_rand sv)))%nat /\
          fresh_game R g' (e_rand e) (s_rand sv) xt ot /\ json_ok (a_out a) (Json_Spec.JObj [(b "gameId", jint (g_id g'))]))).
Proof.
  intros K R S evs sv c root e l m r hs body v H. destruct (sample_laws K R S) as (rep & L). intros. eapply create_reply; try eassumption.
  eapply steps_ok; [exact L|apply new_ok|exact H].
Qed.
Example C69_create_ex : let v := ex_players "external" "fast_engine" in let body := compact v ++ b " " in let l := ex_full "post" "/Games" ex_headers body in let ev := Request ex_conn (ex_env counting) l in let sv := new_server (K := c4) in
  full_request (b "/srv/www") l (b "post") (b "/Games") ex_headers body /\ ~ file_asked ex_config (b "post") (b "/games") /\ same_i (b "/Games") (b "/games") /\ body_says body v /\ readable v /\ short_players v /\
  (length body + 4 < e_fuel (ex_env counting))%nat /\ players_in v = Some (type_name external, type_name fast_engine) /\ players_in (ex_players "external" "human") = Some (type_name external, b "human") /\
  body = b "{""version"":1,""players"":[""external"",""fast_engine""]} " /\ view (next sv ev) = Some (65538, 0, Some None, 196612, false, 0, true) /\
  sent sv ev = b "HTTP/1.1 200 OK" ++ CRLF ++ b "Connection: close" ++ CRLF ++ b "Content-Type: application/json" ++ CRLF ++ b "Content-Length: 16" ++ CRLF ++ CRLF ++ b "{""gameId"":65538}".
Proof.
  split; [full|]. split; [apply (games_not_files _ [])|]. split; [reflexivity|].
  split; [apply obj_says; constructor; [apply int_fair; [reflexivity|lia]|constructor; [apply pair_fair; reflexivity|constructor]]|].
  split; [apply fits_readable; vm_compute; reflexivity|]. split; [constructor; [discriminate|]; constructor; [intros _; repeat constructor; vm_compute; discriminate|constructor]|].
  split; [vm_compute; lia|]. split; [vm_compute; reflexivity|]. split; [vm_compute; reflexivity|]. split; [vm_compute; reflexivity|]. split; [vm_compute; reflexivity|]. vm_compute. reflexivity.
Qed.
(** The full claim is false if std::rand makes the id of a seat 0: then nobody can claim the seat. *)
Theorem C69_zero_refuted : exists rand evs l, let sv := after ttt evs in let ev := Request ex_conn (ex_env rand) l in
  evs = [ex_create (ex_env rand)] /\ steps new_server evs = Ret sv /\ view sv = Some (65537, 0, Some None, 0, true, 65537, false) /\
  request_line (b "/srv/www") l (b "POST") (b "/games/65537/players/0") /\ step sv ev = Ret (next sv ev) /\ view (next sv ev) = view sv /\ text_reply (sent sv ev) "403" "Forbidden" "This play has already been claimed.".
Proof.
  set (rand := fun n => match n with 2%nat | 3%nat => 0 | _ => 1 end). exists rand, [ex_create (ex_env rand)], (ex_full "POST" "/games/65537/players/0" [] []).
  split; [reflexivity|]. split; [apply returns; vm_compute; reflexivity|]. split; [vm_compute; reflexivity|]. split; [fline|]. split; [apply returns; vm_compute; reflexivity|]. split; [vm_compute; reflexivity|].
  exists (b "35"). split; [vm_compute; reflexivity|]. split; [discriminate|]. split; [repeat constructor; cbv; discriminate|]. split; [reflexivity|discriminate].
Qed.

(** ** C73: moves *)
(** After any requests and engine moves, a request for a move with a complete JSON body: the move is made and its index returned exactly if the board has the square, the ids are the ids of a
    game and of a seat, the player of the seat is on turn, and the move is legal; otherwise the request is refused, and nothing changes. *)
Theorem C73_move_partial : forall K (R : rules K), sample K R -> forall evs (sv : server K) c root e l m r hs body v id pid rows cols,
  steps new_server evs = Ret sv -> board_size K rows cols -> ready c root -> sized e -> full_request root l m r hs body -> ~ file_asked (c_config c) m r -> same_i m (b "POST") ->
  play_resource r id pid -> Forall header_fits hs -> json_type hs -> body_says body v -> readable v -> (length body + 4 < e_fuel e)%nat ->
  exists a sv', serve c e sv l = Ret (a, sv') /\ a_shut a = false /\
    (id = 0 \/ pid = 0 -> sv' = sv /\ text_reply (a_out a) "400" "Bad Request" "An invalid resource was supplied.") /\
    (id <> 0 -> pid <> 0 ->
      (move_in v = None -> sv' = sv /\ text_reply (a_out a) "400" "Bad Request" "An invalid JSON payload was supplied. Must be: {""row"": 0, ""col"": 1}.") /\
      (forall x y, move_in v = Some (x, y) -> ~ on_axis rows (e_atof e x) \/ ~ on_axis cols (e_atof e y) ->
         sv' = sv /\ text_reply (a_out a) "400" "Bad Request" "An invalid JSON payload was supplied. Must be: {""row"": 0, ""col"": 1}.") /\
      (forall x y row col, move_in v = Some (x, y) -> whole (e_atof e x) row -> whole (e_atof e y) col -> 0 <= row < rows -> 0 <= col < cols ->
         ((forall g, In g (s_games sv) -> g_id g <> id) -> sv' = sv /\ text_reply (a_out a) "404" "Not Found" "A game with the supplied ID was not found.") /\
         (forall g, In g (s_games sv) -> g_id g = id ->
            (pid <> g_xid g -> pid <> g_oid g -> sv' = sv /\ text_reply (a_out a) "404" "Not Found" "A player with the supplied ID was not found.") /\
            (forall p, holder g pid p -> exists ms, played R ms /\ shows R (g_board g) ms /\ transcript g ms /\
               (p = turn R (length ms) /\ legal R ms (row, col) -> exists g', s_games sv' = [g'] /\ s_rand sv' = s_rand sv /\ same_identity g g' /\ g_xclaimed g' = g_xclaimed g /\ g_oclaimed g' = g_oclaimed g /\
                  shows R (g_board g') ((row, col) :: ms) /\ transcript g' ((row, col) :: ms) /\ json_ok (a_out a) (move_reply (zlen ms) (k_over K (g_board g')) (k_winner K (g_board g')))) /\
               (~ (p = turn R (length ms) /\ legal R ms (row, col)) -> sv' = sv /\ text_reply (a_out a) "403" "Forbidden" "The move was not accepted."))))).
Proof.
  intros K R S evs sv c root e l m r hs body v id pid rows cols H. destruct (sample_laws K R S) as (rep & L). intros. eapply move_answer; try eassumption.
  eapply steps_ok; [exact L|apply new_ok|exact H].
Qed.
Definition ex_player : string := "/games/65538/players/196612/MOVES".
Lemma ex_player_resource : play_resource (b ex_player) 65538 196612.
Proof.
  exists (b "65538"), (b "196612"), (b "MOVES"). split; [|split; [apply number_text; [reflexivity|discriminate|reflexivity|reflexivity]|reflexivity]].
  exists (b "/games"). split; [reflexivity|]. split; [reflexivity|]. apply number_text; [reflexivity|discriminate|reflexivity|reflexivity].
Qed.
Example C73_move_ex : let v := ex_to 1 2 in let body := compact v in let l := ex_full "POST" ex_player ex_headers body in let ev := Request ex_conn (ex_env counting) l in let sv := after ttt ex_play in
  steps new_server ex_play = Ret sv /\ board_size ttt 3 3 /\ full_request (b "/srv/www") l (b "POST") (b ex_player) ex_headers body /\ ~ file_asked ex_config (b "POST") (b ex_player) /\ play_resource (b ex_player) 65538 196612 /\
  body_says body v /\ readable v /\ (length body + 4 < e_fuel (ex_env counting))%nat /\ move_in v = Some (b "1", b "2") /\ whole (e_atof (ex_env counting) (b "1")) 1 /\ whole (e_atof (ex_env counting) (b "2")) 2 /\
  ~ on_axis 3 (e_atof (ex_env counting) (b "7")) /\ view sv = Some (65538, 0, Some None, 196612, true, 327686, false) /\ view (next sv ev) = Some (65538, 1, Some (Some (1, 2)), 196612, true, 327686, false) /\
  sent sv ev = b "HTTP/1.1 200 OK" ++ CRLF ++ b "Connection: close" ++ CRLF ++ b "Content-Type: application/json" ++ CRLF ++ b "Content-Length: 7" ++ CRLF ++ CRLF ++ b "{""i"":0}".
Proof.
  split; [apply returns; vm_compute; reflexivity|]. split; [constructor|]. split; [full|]. split; [apply (games_not_files _ (b "/65538/players/196612/MOVES"))|]. split; [exact ex_player_resource|].
  split; [rewrite <- (app_nil_r (compact _)); apply obj_says; constructor; [apply int_fair; [reflexivity|lia]|constructor; [apply int_fair; [reflexivity|lia]|constructor]]|].
  split; [apply fits_readable; vm_compute; reflexivity|]. split; [vm_compute; lia|]. split; [vm_compute; reflexivity|]. split; [exists (inject_Z 1); split; reflexivity|]. split; [exists (inject_Z 2); split; reflexivity|].
  split; [intros (q & E & _ & X); injection E as <-; discriminate X|]. split; [vm_compute; reflexivity|]. split; [vm_compute; reflexivity|]. vm_compute. reflexivity.
Qed.
(** The full claim is false for numbers that are not whole: row 1.5 is played as row 1. *)
Definition half_atof (l : list Z) : option Q := if list_eq_dec Z.eq_dec l (b "1.5") then Some (3 # 2)%Q else ex_atof l.
Definition half_env : env := {| e_header := fun _ => zeros 1025; e_token := zeros 1041; e_body := fun n => zeros n; e_atof := half_atof; e_rand := counting; e_fuel := 300 |}.
Theorem C73_fraction_refuted : exists evs v, let sv := after ttt evs in let l := ex_full "POST" ex_player ex_headers (compact v) in let ev := Request ex_conn half_env l in
  steps new_server evs = Ret sv /\ sized half_env /\ e_atof half_env (b "1.5") = Some (3 # 2)%Q /\ v = Json_Spec.JObj [(b "row", Json_Spec.JNum (b "1.5")); (b "col", jint 2)] /\
  full_request (b "/srv/www") l (b "POST") (b ex_player) ex_headers (compact v) /\ step sv ev = Ret (next sv ev) /\
  view sv = Some (65538, 0, Some None, 196612, true, 327686, false) /\ view (next sv ev) = Some (65538, 1, Some (Some (1, 2)), 196612, true, 327686, false).
Proof.
  exists ex_play, (Json_Spec.JObj [(b "row", Json_Spec.JNum (b "1.5")); (b "col", jint 2)]). split; [apply returns; vm_compute; reflexivity|]. split; [exact (ex_sized counting)|]. split; [vm_compute; reflexivity|].
  split; [reflexivity|]. split; [full|]. split; [apply returns; vm_compute; reflexivity|]. split; vm_compute; reflexivity.
Qed.

(** ** C70: the type of the body *)
(** A body of another type, or two types: the request is refused, and nothing changes.  Without a type nothing is sent (C70_untyped_refuted), for moves as well. *)
Theorem C70_type_partial : forall K c root e (sv : server K) l m r hs body, ready c root -> sized e -> full_request root l m r hs body -> ~ file_asked (c_config c) m r -> same_i m (b "POST") -> Forall header_fits hs ->
  same_i r (b "/games") \/ (exists id pid, play_resource r id pid) ->
  (other_type hs -> exists a, serve c e sv l = Ret (a, sv) /\ a_shut a = false /\ text_reply (a_out a) "400" "Bad Request" "'application/json' is the only supported Content-Type.") /\
  (two_types hs -> exists a, serve c e sv l = Ret (a, sv) /\ a_shut a = false /\ text_reply (a_out a) "400" "Bad Request" "The Content-Type header was supplied more than once.") /\
  (no_type hs -> exists a, serve c e sv l = Ret (a, sv) /\ a_out a = []).
Proof. intros. eapply type_reply; eassumption. Qed.
Example C70_type_ex : let hs := [(b "Host", [b "example.org"]); (b "CONTENT-TYPE", [b "text/plain"])] in let two := ex_headers ++ [(b "Content-type", [])] in
  full_request (b "/srv/www") (ex_full "POST" ex_player hs []) (b "POST") (b ex_player) hs [] /\ ~ file_asked ex_config (b "POST") (b ex_player) /\ Forall header_fits hs /\ play_resource (b ex_player) 65538 196612 /\ other_type hs /\ two_types two.
Proof.
  split; [full|]. split; [apply (games_not_files _ (b "/65538/players/196612/MOVES"))|]. split.
  { repeat constructor; cbn [fst snd]; try discriminate; try (apply tokens_b; reflexivity); try (apply printable_b; reflexivity); try (vm_compute; discriminate); try (cbn; unfold token_char, printable; cbn; intuition discriminate). }
  split; [exact ex_player_resource|]. split.
  - exists [(b "Host", [b "example.org"])], (b "CONTENT-TYPE", [b "text/plain"]), []. split; [reflexivity|]. split; [repeat constructor; intros X; discriminate X|]. split; [reflexivity|].
    intros (s & t & E & S). unfold same_i in S. destruct s as [|c0 s]; [discriminate S|]. injection E as <- _. discriminate S.
  - exists [(b "Host", [b "example.org"])], (b "content-type", [b "Application/JSON;"; b "charset=utf-8"]), [(b "Accept", [])], (b "Content-type", []), []. split; [reflexivity|].
    split; [repeat constructor; intros X; discriminate X|]. split; [reflexivity|]. split; [exists (b "Application/JSON"), (b "; charset=utf-8"); split; reflexivity|]. split; [repeat constructor; intros X; discriminate X|reflexivity].
Qed.

Print Assumptions C69_create_partial.
Print Assumptions C69_zero_refuted.
Print Assumptions C73_move_partial.
Print Assumptions C73_fraction_refuted.
Print Assumptions C70_type_partial.
