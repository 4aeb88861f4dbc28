(** C68-C71: what the game servers of the samples answer. *)

From Coq Require Import String ZArith QArith List Bool Lia.
From Verif Require Import Base ListMem Ascii_Model Ascii_Spec Http_Model Http_Calls Http_Spec Endpoint_Model Endpoint_Spec Endpoint_Proofs Endpoint_Props Rest_Model Rest_Spec Rest_Games Rest_Proofs Rest_Replies Rest_Any Rest_Headers Rest_Props.
From Verif Require Json_Model Json_Spec.
Import ListNotations.
Open Scope string_scope.
Open Scope list_scope.
Open Scope Z_scope.

(** ** The requests of the examples are requests in the sense of the theorems *)
Lemma ex_ready : ready ex_conn (b "/srv/www").
Proof.
  split; [reflexivity|]. split; [apply ex_arrays; [repeat constructor; discriminate|vm_compute; discriminate]|]. split; [|reflexivity]. cbn. repeat constructor; discriminate.
Qed.
Lemma ex_sized : forall rand, sized (ex_env rand).
Proof.
  intros rand. split; [intros i; reflexivity|]. split; [reflexivity|]. intros n H. cbn [ex_env e_body]. unfold zeros, zlen. rewrite repeat_length. lia.
Qed.
Definition ex_headers : list hline := [(b "Host", [b "example.org"]); (b "content-type", [b "Application/JSON;"; b "charset=utf-8"]); (b "Accept", [])].
Definition ex_full (m r : string) (hs : list hline) (body : list Z) : list Z := b m ++ [32] ++ b r ++ [32] ++ b "HTTP/1.1" ++ CRLF ++ header_lines hs ++ CRLF ++ body.
Lemma full_of : forall m r hs body, zlen (b m) <= 32 -> zlen (b "/srv/www") + zlen (b r) <= 2047 -> forallb http_is_token (b m) = true -> b r <> [] -> forallb is_abcprint (b r) = true ->
  full_request (b "/srv/www") (ex_full m r hs body) (b m) (b r) hs body.
Proof.
  intros m r hs body Lm Lr Tm Nr Pr. exists (b "HTTP/1.1"). split; [reflexivity|]. split; [|split; [exact Lm|split; [exact Lr|vm_compute; discriminate]]].
  split; [apply tokens_b, Tm|]. split; [split; [exact Nr|apply printable_b, Pr]|]. exists [49], [49]. split; [reflexivity|]. repeat split; try discriminate; repeat constructor; unfold digit; lia.
Qed.
Lemma full_line : forall root l m r hs body, full_request root l m r hs body -> request_line root l m r.
Proof. intros root l m r hs body (p & E & O & A & B & C). exists p. eexists. split; [exact E|]. auto. Qed.
Ltac full := apply full_of; [vm_compute; discriminate|vm_compute; discriminate|reflexivity|discriminate|reflexivity].
Ltac fline := eapply full_line; full.
Lemma ex_fits : Forall header_fits ex_headers.
Proof.
  repeat constructor; cbn [fst snd]; try discriminate; try (apply tokens_b; reflexivity); try (apply printable_b; reflexivity); try (vm_compute; discriminate);
    try (cbn; unfold token_char, printable; cbn; intuition discriminate).
Qed.
Lemma ex_json : json_type ex_headers.
Proof.
  exists [(b "Host", [b "example.org"])], (b "content-type", [b "Application/JSON;"; b "charset=utf-8"]), [(b "Accept", [])]. split; [reflexivity|].
  split; [repeat constructor; intros X; discriminate X|]. split; [reflexivity|]. split; [exists (b "Application/JSON"), (b "; charset=utf-8"); split; reflexivity|]. repeat constructor. intros X. discriminate X.
Qed.
Lemma games_not_files : forall m t, ~ file_asked ex_config m (b "/games" ++ t).
Proof.
  intros m t [(p & s & u & E & Es & S)|(_ & S)].
  - injection E as <-. unfold same_i in S. destruct s as [|c0 [|c1 s]]; [discriminate S|discriminate S|]. injection Es as <- <- _. discriminate S.
  - unfold same_i in S. discriminate S.
Qed.
Lemma number_text : forall (s : string) n, forallb (fun c => (48 <=? c) && (c <=? 57)) (b s) = true -> b s <> [] -> value_of (b s) <? 2 ^ 64 = true -> n = value_of (b s) mod 2 ^ 32 -> u32_text (b s) n.
Proof.
  intros s n D N V E. exists [], (b s). split; [reflexivity|]. split; [auto|]. split; [exact N|]. split; [|rewrite V; exact E].
  rewrite forallb_forall in D. apply Forall_forall. intros c H. specialize (D c H). unfold digit. lia.
Qed.

(** ** C71: the list of moves *)
(** After any requests and engine moves, a request for the moves of a game from an index on gets the moves that are made, in their order and
    with their indexes, as a JSON text; the winner is there exactly when the game is over; nothing changes. *)
Theorem C71_moves : forall K (R : rules K), sample K R -> forall evs (sv : server K) c root e l m r id since,
  steps new_server evs = Ret sv -> ready c root -> sized e -> request_line root l m r -> ~ file_asked (c_config c) m r -> same_i m (b "GET") -> since_resource r id since ->
  exists a, serve c e sv l = Ret (a, sv) /\ a_shut a = false /\
    (id = 0 -> text_reply (a_out a) "400" "Bad Request" "An invalid resource was supplied.") /\
    (id <> 0 -> (forall g, In g (s_games sv) -> g_id g <> id) -> text_reply (a_out a) "404" "Not Found" "A game with the supplied ID was not found.") /\
    (id <> 0 -> forall g, In g (s_games sv) -> g_id g = id -> exists ms, played R ms /\ shows R (g_board g) ms /\ transcript g ms /\
       json_ok (a_out a) (listing since (rev ms) (k_over K (g_board g)) (k_winner K (g_board g)))).
Proof.
  intros K R S evs sv c root e l m r id since H Rd Se Q Nf Gm Sr. destruct (sample_laws K R S) as (rep & L). eapply moves_reply; try eassumption.
  eapply steps_ok; [exact L|apply new_ok|exact H].
Qed.
Definition ex_since : string := "/games/65538/moves?since=0".
Lemma ex_since_resource : since_resource (b ex_since) 65538 0.
Proof.
  exists (b "65538"), (b "0"). split; [|apply number_text; [reflexivity|discriminate|reflexivity|reflexivity]].
  exists (b "/games"). split; [reflexivity|]. split; [reflexivity|]. apply number_text; [reflexivity|discriminate|reflexivity|reflexivity].
Qed.
Example C71_moves_ex : let sv := after ttt (ex_play ++ [ex_first]) in
  steps new_server (ex_play ++ [ex_first]) = Ret sv /\ ready ex_conn (b "/srv/www") /\ sized (ex_env counting) /\
  request_line (b "/srv/www") (ex_full "get" ex_since [] []) (b "get") (b ex_since) /\ ~ file_asked (c_config ex_conn) (b "get") (b ex_since) /\ same_i (b "get") (b "GET") /\ since_resource (b ex_since) 65538 0 /\
  view sv = Some (65538, 1, Some (Some (1, 2)), 196612, true, 327686, false) /\
  compact (listing 0 [(1, 2)] false 0) = b "{""moves"":[{""i"":0,""move"":{""row"":1,""col"":2}}]}" /\
  sent sv (Request ex_conn (ex_env counting) (ex_full "get" ex_since [] [])) =
    b "HTTP/1.1 200 OK" ++ CRLF ++ b "Connection: close" ++ CRLF ++ b "Content-Type: application/json" ++ CRLF ++ b "Content-Length: 44" ++ CRLF ++ CRLF ++ b "{""moves"":[{""i"":0,""move"":{""row"":1,""col"":2}}]}".
Proof.
  split; [apply returns; vm_compute; reflexivity|]. split; [exact ex_ready|]. split; [apply ex_sized|]. split; [fline|]. split; [apply (games_not_files _ (b "/65538/moves?since=0"))|]. split; [reflexivity|].
  split; [exact ex_since_resource|]. split; [vm_compute; reflexivity|]. split; [vm_compute; reflexivity|]. vm_compute. reflexivity.
Qed.

(** ** C69: seats *)
(** A claim of a seat: the client gets the id of the seat exactly once; a claimed seat, an unknown game and a wrong number are refused, and then nothing changes.
    (The request line is all that counts.) *)
Theorem C69_claim_partial : forall K (R : rules K), sample K R -> forall evs (sv : server K) c root e l m r id i,
  steps new_server evs = Ret sv -> ready c root -> sized e -> request_line root l m r -> ~ file_asked (c_config c) m r -> same_i m (b "POST") -> seat_resource r id i ->
  exists a sv', serve c e sv l = Ret (a, sv') /\ a_shut a = false /\
    (id = 0 \/ 1 < i -> sv' = sv /\ text_reply (a_out a) "400" "Bad Request" "An invalid resource was supplied.") /\
    (id <> 0 -> i <= 1 -> (forall g, In g (s_games sv) -> g_id g <> id) -> sv' = sv /\ text_reply (a_out a) "404" "Not Found" "A game with the supplied ID was not found.") /\
    (id <> 0 -> i <= 1 -> forall g, In g (s_games sv) -> g_id g = id -> is_claimed g i = true -> sv' = sv /\ text_reply (a_out a) "403" "Forbidden" "This play has already been claimed.") /\
    (id <> 0 -> i <= 1 -> forall g, In g (s_games sv) -> g_id g = id -> is_claimed g i = false -> exists g',
       s_games sv' = [g'] /\ s_rand sv' = s_rand sv /\ claims i g g' /\
       json_ok (a_out a) (Json_Spec.JObj [(b "playerId", jint (seat_number g i))])).
Proof.
  intros K R S evs sv c root e l m r id i H Rd Se Q Nf Gm Sr. destruct (sample_laws K R S) as (rep & L). eapply claim_reply; try eassumption.
  eapply steps_ok; [exact L|apply new_ok|exact H].
Qed.
Definition ex_seat : string := "/GAMES/65538/players/+1".
Lemma ex_seat_resource : seat_resource (b ex_seat) 65538 1.
Proof.
  exists (b "65538"), (b "+1"). split.
  - exists (b "/GAMES"). split; [reflexivity|]. split; [reflexivity|]. apply number_text; [reflexivity|discriminate|reflexivity|reflexivity].
  - exists [43], (b "1"). split; [reflexivity|]. split; [auto|]. split; [discriminate|]. split; [repeat constructor; cbv; discriminate|reflexivity].
Qed.
Example C69_claim_ex : let sv := after ttt ex_play in let l := ex_full "POST" ex_seat [] [] in
  steps new_server ex_play = Ret sv /\ request_line (b "/srv/www") l (b "POST") (b ex_seat) /\ ~ file_asked (c_config ex_conn) (b "POST") (b ex_seat) /\ seat_resource (b ex_seat) 65538 1 /\
  view sv = Some (65538, 0, Some None, 196612, true, 327686, false) /\
  view (next sv (Request ex_conn (ex_env counting) l)) = Some (65538, 0, Some None, 196612, true, 327686, true) /\
  compact (Json_Spec.JObj [(b "playerId", jint 327686)]) = b "{""playerId"":327686}" /\
  sent sv (Request ex_conn (ex_env counting) l) =
    b "HTTP/1.1 200 OK" ++ CRLF ++ b "Connection: close" ++ CRLF ++ b "Content-Type: application/json" ++ CRLF ++ b "Content-Length: 19" ++ CRLF ++ CRLF ++ b "{""playerId"":327686}".
Proof.
  split; [apply returns; vm_compute; reflexivity|]. split; [fline|]. split.
  { intros [(p & s & u & E & Es & S)|(_ & S)]; [|discriminate S]. injection E as <-. unfold same_i in S. destruct s as [|c0 [|c1 s]]; [discriminate S|discriminate S|]. injection Es as <- <- _. discriminate S. }
  split; [exact ex_seat_resource|]. split; [vm_compute; reflexivity|]. split; [vm_compute; reflexivity|]. split; [vm_compute; reflexivity|]. vm_compute. reflexivity.
Qed.

(** ** C70: every request gets one response *)
(** Whatever arrives: what is sent is nothing, or one complete response whose Content-Length is right. *)
Theorem C70_complete_partial : forall K (R : rules K), sample K R -> forall c root e (sv : server K) l a sv',
  ready c root -> sized e -> (forall p f, c_fs c p = Some f -> stable f) -> serve c e sv l = Ret (a, sv') -> a_out a = [] \/ some_response (a_out a).
Proof.
  intros K R S c root e sv l a sv' Rd Se St H. destruct (sample_laws K R S) as (rep & L). eapply serve_any; try eassumption. destruct (l_room _ _ _ L). lia.
Qed.
Lemma returns_pair : forall A B (d : A * B) x, returned x = true -> x = Ret (fst (result d x), snd (result d x)).
Proof. intros A B d [[a a']| | |] H; [reflexivity|discriminate..]. Qed.
Example C70_complete_ex : let sv := after ttt ex_play in let l := ex_full "get" ex_since [] [] in let x := result (no_answer, sv) (serve ex_conn (ex_env counting) sv l) in
  ready ex_conn (b "/srv/www") /\ sized (ex_env counting) /\ (forall p f, c_fs ex_conn p = Some f -> stable f) /\ serve ex_conn (ex_env counting) sv l = Ret (fst x, snd x) /\ zlen (a_out (fst x)) = 102.
Proof.
  split; [exact ex_ready|]. split; [apply ex_sized|]. split; [discriminate|]. split; [apply returns_pair; vm_compute; reflexivity|]. vm_compute. reflexivity.
Qed.
(** Request lines that fit and that no game is concerned with. *)
Theorem C70_refused_partial : forall K c root e (sv : server K) l m r, ready c root -> request_line root l m r -> ~ file_asked (c_config c) m r ->
  (same_i r (b "/shutdown") -> exists a, serve c e sv l = Ret (a, sv) /\ (a_shut a = true <-> same_i m (b "POST")) /\
     (same_i m (b "POST") -> text_reply (a_out a) "200" "OK" "Server is shuting down...") /\
     (~ same_i m (b "POST") -> text_reply (a_out a) "405" "Method Not Allowed" "Expected method POST for this request.")) /\
  (~ same_i r (b "/shutdown") -> ~ (exists g t, r = g ++ t /\ same_i g (b "/games")) ->
     exists a, serve c e sv l = Ret (a, sv) /\ a_shut a = false /\ text_reply (a_out a) "404" "Not Found" "The requested resource was not found.") /\
  (same_i r (b "/games") \/ (exists id i, seat_resource r id i) \/ (exists id pid, play_resource r id pid) -> ~ same_i m (b "POST") ->
     exists a, serve c e sv l = Ret (a, sv) /\ a_shut a = false /\ text_reply (a_out a) "405" "Method Not Allowed" "Expected method POST for this request.") /\
  ((exists id since, since_resource r id since) -> ~ same_i m (b "GET") ->
     exists a, serve c e sv l = Ret (a, sv) /\ a_shut a = false /\ text_reply (a_out a) "405" "Method Not Allowed" "Expected method GET for this request.").
Proof.
  intros K c root e sv l m r Rd Q Nf. split; [eapply shutdown_reply; eassumption|]. split; [eapply unknown_reply; eassumption|]. split; [eapply post_only; eassumption|eapply get_only_reply; eassumption].
Qed.
Example C70_refused_ex : request_line (b "/srv/www") (ex_full "POST" "/Shutdown" ex_headers []) (b "POST") (b "/Shutdown") /\ ~ file_asked ex_config (b "POST") (b "/Shutdown") /\ same_i (b "/Shutdown") (b "/shutdown") /\
  request_line (b "/srv/www") (ex_full "PUT" "/game" ex_headers []) (b "PUT") (b "/game") /\ ~ file_asked ex_config (b "PUT") (b "/game") /\ ~ (exists g t, b "/game" = g ++ t /\ same_i g (b "/games")) /\
  since_resource (b ex_since) 65538 0 /\ seat_resource (b ex_seat) 65538 1.
Proof.
  assert (forall m (r : string), match b r with _ :: x :: _ => lower x <> 114 | _ => True end -> ~ same_i (b r) (b "/favicon.ico") -> ~ file_asked ex_config m (b r)) as F.
  { intros m r H H' [(p & s & u & E & Es & S)|(_ & S)]; [|contradiction]. injection E as <-. unfold same_i in S. destruct s as [|c0 [|c1 s]]; [discriminate S|discriminate S|]. rewrite Es in H. injection S as _ S _. apply H. exact S. }
  split; [fline|]. split; [apply F; [discriminate|discriminate]|]. split; [reflexivity|]. split; [fline|]. split; [apply F; [discriminate|discriminate]|].
  split; [|split; [exact ex_since_resource|exact ex_seat_resource]].
  intros (g & t & E & S). unfold same_i in S. apply (f_equal (@length Z)) in E. apply (f_equal (@length Z)) in S. rewrite app_length in E. rewrite !map_length in S. change (length (b "/games")) with 6%nat in S. change (length (b "/game")) with 5%nat in E. lia.
Qed.
(** Not every request gets a response.  A request without Content-Type for a new game does not (whatever else it says), *)
Theorem C70_untyped_refuted : forall K c root e (sv : server K) l m r hs body, ready c root -> sized e -> full_request root l m r hs body -> ~ file_asked (c_config c) m r ->
  same_i m (b "POST") -> same_i r (b "/games") -> Forall header_fits hs -> no_type hs -> exists a, serve c e sv l = Ret (a, sv) /\ a_out a = [].
Proof. exact untyped. Qed.
Example C70_untyped_ex : let hs := [(b "Host", [b "example.org"])] in let body := b "{""players"":[""external"",""external""]}" in
  full_request (b "/srv/www") (ex_full "POST" "/games" hs body) (b "POST") (b "/games") hs body /\ ~ file_asked ex_config (b "POST") (b "/games") /\ Forall header_fits hs /\ no_type hs.
Proof.
  split; [full|]. split; [apply (games_not_files _ [])|]. split; [|repeat constructor; intros X; discriminate X]. pose proof ex_fits as F. inversion F; subst. constructor; [assumption|constructor].
Qed.
(** a resource below the games that has none of the known forms does not, *)
Theorem C70_resource_refuted : exists l m r, request_line (b "/srv/www") l m r /\ ~ file_asked ex_config m r /\
  sent (new_server (K := ttt)) (Request ex_conn (ex_env counting) l) = [] /\ returned (step (new_server (K := ttt)) (Request ex_conn (ex_env counting) l)) = true.
Proof.
  exists (ex_full "GET" "/games/65538" ex_headers []), (b "GET"), (b "/games/65538"). split; [fline|]. split; [apply (games_not_files _ (b "/65538"))|]. split; vm_compute; reflexivity.
Qed.
(** and if the connection ends within the request line, a seat is claimed without an answer. *)
Theorem C70_cut_refuted : exists evs l, let sv := after ttt evs in let ev := Request ex_conn (ex_env counting) l in
  steps new_server evs = Ret sv /\ wired ev /\ step sv ev = Ret (next sv ev) /\ sent sv ev = [] /\
  view sv = Some (65538, 0, Some None, 196612, true, 327686, false) /\ view (next sv ev) = Some (65538, 0, Some None, 196612, true, 327686, true).
Proof.
  exists ex_play, (b "POST /games/65538/players/1"). split; [apply returns; vm_compute; reflexivity|]. split; [apply (ex_wired (ex_env counting) "" [] "")|]. split; [apply returns; vm_compute; reflexivity|].
  split; [vm_compute; reflexivity|]. split; vm_compute; reflexivity.
Qed.

(** ** C68: no request brings a server down *)
(** After any requests and engine moves, any bytes: the server answers (or closes the connection) and goes on, unless they ask with POST for something below the games. *)
Theorem C68_line_partial : forall K (R : rules K), sample K R -> forall evs (sv : server K) c root e l,
  steps new_server evs = Ret sv -> ready c root -> sized e -> (exists a sv', serve c e sv l = Ret (a, sv')) \/ asks_games l.
Proof.
  intros K R S evs sv c root e l H Rd Se. destruct (sample_laws K R S) as (rep & L). eapply serve_safe; try eassumption. eapply steps_ok; [exact L|apply new_ok|exact H].
Qed.
Example C68_line_ex : let sv := after ttt ex_play in steps new_server ex_play = Ret sv /\ ready ex_conn (b "/srv/www") /\ sized (ex_env counting) /\ ~ asks_games (b "GET /games/65538/moves?since=99999999999 HTTP") /\
  asks_games (b "pOsT  /Games?").
Proof.
  split; [apply returns; vm_compute; reflexivity|]. split; [exact ex_ready|]. split; [apply ex_sized|]. split.
  - intros (m & sp & g & rest & E & S & _). unfold same_i in S. destruct m as [|c0 m]; [discriminate S|]. injection E as <- _. discriminate S.
  - exists (b "pOsT"), [32; 32], (b "/Games"), (b "?"). split; [reflexivity|]. split; [reflexivity|]. split; [repeat constructor; unfold blank; lia|reflexivity].
Qed.
(** The full claim is false.  A body that starts with a quote and has no second one keeps the thread of the request busy for ever, *)
Theorem C68_endless_refuted : forall K c root e (sv : server K) l m r hs p, ready c root -> sized e -> full_request root l m r hs (34 :: p) -> ~ file_asked (c_config c) m r ->
  same_i m (b "POST") -> same_i r (b "/games") -> Forall header_fits hs -> json_type hs -> Json_Spec.unquoted p -> zlen p <= 1030 -> serve c e sv l = Loop.
Proof. exact endless. Qed.
Example C68_endless_ex : full_request (b "/srv/www") (ex_full "POST" "/games" ex_headers (34 :: b "abc")) (b "POST") (b "/games") ex_headers (34 :: b "abc") /\
  ~ file_asked ex_config (b "POST") (b "/games") /\ Forall header_fits ex_headers /\ json_type ex_headers /\ Json_Spec.unquoted (b "abc") /\ zlen (b "abc") <= 1030.
Proof.
  split; [full|]. split; [apply (games_not_files _ [])|]. split; [exact ex_fits|]. split; [exact ex_json|]. split; [repeat constructor; discriminate|vm_compute; discriminate].
Qed.
Lemma is_oob : forall A (x : hres A), match x with Oob => true | _ => false end = true -> x = Oob.
Proof. intros A x H. destruct x; try discriminate; reflexivity. Qed.
Lemma is_throw : forall A (x : hres A), match x with Throw => true | _ => false end = true -> x = Throw.
Proof. intros A x H. destruct x; try discriminate; reflexivity. Qed.
(** a player type of 65 characters leaves the array it is copied to, *)
Theorem C68_copy_refuted : exists body, let l := ex_full "POST" "/games" ex_headers body in
  full_request (b "/srv/www") l (b "POST") (b "/games") ex_headers body /\ serve ex_conn (ex_env counting) (new_server (K := ttt)) l = Oob.
Proof.
  exists (b "{""players"":[""" ++ repeat 97 65 ++ b """,""external""]}"). split; [full|]. apply is_oob. vm_compute. reflexivity.
Qed.
(** and a header value of 1024 characters that goes on after a space is an exception nobody catches. *)
Theorem C68_throw_refuted : exists hs, let l := ex_full "POST" "/games" hs [] in
  full_request (b "/srv/www") l (b "POST") (b "/games") hs [] /\ serve ex_conn (ex_env counting) (new_server (K := ttt)) l = Throw.
Proof.
  exists [(b "A", [repeat 97 (Z.to_nat 1024); b "b"])]. split; [full|]. apply is_throw. vm_compute. reflexivity.
Qed.

Print Assumptions C71_moves.
Print Assumptions C69_claim_partial.
Print Assumptions C70_complete_partial.
Print Assumptions C70_refused_partial.
Print Assumptions C70_untyped_refuted.
Print Assumptions C70_resource_refuted.
Print Assumptions C70_cut_refuted.
Print Assumptions C68_line_partial.
Print Assumptions C68_endless_refuted.
Print Assumptions C68_copy_refuted.
Print Assumptions C68_throw_refuted.
