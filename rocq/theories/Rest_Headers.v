(** Proofs for C68-C72, fifth part: requests with headers. *)

From Coq Require Import String ZArith QArith List Bool Lia.
From Verif Require Import Base ListMem Ascii_Model Ascii_Spec Table_Model Http_Model Http_Calls Http_Spec Endpoint_Model Endpoint_Spec Rest_Model Rest_Spec.
From Verif Require Import Http_Proofs Http_Order Http_RoundTrip Endpoint_Proofs Ascii_Proofs Rest_Games Rest_Json Rest_Proofs Rest_Replies Rest_Any.
From Verif Require Json_Model Json_Spec Json_Writer Json_Props.
Import ListNotations.
Open Scope string_scope.
Open Scope list_scope.
Open Scope Z_scope.

Lemma same_bool : forall (P : Prop) v w, (v = true <-> P) -> (w = true <-> P) -> v = w.
Proof. intros P [|] [|] A B; intuition congruence. Qed.

(** A call that gives a text has stored it with its null. *)
Lemma gives_text : forall it m0 g l t s1, it <> body -> it <> resource -> zlen m0 = 1025 -> gives (get_item request it m0 (N it g l)) t s1 ->
  exists x, read_call request it m0 (N it g l) = Ret (t ++ 0 :: x, s1) /\ zlen (t ++ 0 :: x) = 1025 /\ hgc s1 = zlen t /\ no_nul t.
Proof.
  intros it m0 g l t s1 Nb Nr Lm (m' & E & T). destruct (readers_fit request it m0 (N it g l) Nb eq_refl ltac:(lia)) as (t' & s' & E' & G & Le & F).
  unfold read_call in *. cbn [hnext N] in *. rewrite (proj2 (item_eqb_eq it it) eq_refl) in *. rewrite E in E'.
  destruct (item_eqb it resource) eqn:Er; [apply item_eqb_eq in Er; contradiction|]. injection E' as -> ->. rewrite G, take_app_exact in T. subst t'.
  exists (drop (zlen t + 1) m0). split; [exact E|]. split; [|split; [exact G|apply text_no_nul, F]]. rewrite zlen_app, zlen_cons, zlen_drop by (pose proof (zlen_nonneg _ t); lia). lia.
Qed.
Lemma name_read : forall m0 g n ws c k, zlen m0 = 1025 -> header_fits (n, ws) -> is_ascii c = true -> is_space c = false ->
  exists x, read_call request header_name m0 (N header_name g (n ++ b ": " ++ c :: k)) = Ret (n ++ 0 :: x, N header_value (zlen n) (c :: k)) /\ zlen (n ++ 0 :: x) = 1025 /\ no_nul n.
Proof.
  intros m0 g n ws c k Lm (Hn & _ & Ln & _) A S. cbn [fst] in *.
  destruct (gives_text header_name m0 g (n ++ b ": " ++ c :: k) n (N header_value (zlen n) (c :: k))) as (x & E & L & _ & F); [discriminate|discriminate|exact Lm| |eauto].
  exact (name_good m0 (N header_name g []) ltac:(lia) n c k ltac:(lia) Hn A S).
Qed.
Lemma value_read : forall m0 g n ws c k, zlen m0 = 1025 -> header_fits (n, ws) -> is_ascii c = true -> is_space c = false ->
  exists x, read_call request header_value m0 (N header_value g (join ws ++ CRLF ++ c :: k)) = Ret (join ws ++ 0 :: x, N header_name (zlen (join ws)) (c :: k)) /\ zlen (join ws ++ 0 :: x) = 1025 /\ no_nul (join ws).
Proof.
  intros m0 g n ws c k Lm (_ & Hw & _ & Lw) A S. cbn [snd] in *.
  destruct (gives_text header_value m0 g (join ws ++ CRLF ++ c :: k) (join ws) (N header_name (zlen (join ws)) (c :: k))) as (x & E & L & _ & F); [discriminate|discriminate|exact Lm| |eauto].
  exact (value_good m0 (N header_value g []) ltac:(lia) ws c k Hw ltac:(lia) A S).
Qed.
Lemma end_read : forall m0 g l, zlen m0 = 1025 -> exists x, read_call request header_name m0 (N header_name g (CRLF ++ l)) = Ret (0 :: x, N body 0 l).
Proof.
  intros m0 g l Lm. destruct (gives_text header_name m0 g (CRLF ++ l) [] (N body 0 l)) as (x & E & _); [discriminate|discriminate|exact Lm| |eauto].
  exact (no_name_good m0 (N header_name g []) ltac:(lia) l ltac:(lia)).
Qed.
Lemma lines_first : forall hs l, Forall header_fits hs -> exists c k, header_lines hs ++ CRLF ++ l = c :: k /\ is_ascii c = true /\ is_space c = false.
Proof.
  intros [|[n ws] hs] l F; [exists 13, (10 :: l); auto|]. inversion F as [|? ? ((Nn & Ft) & _) F']; subst. cbn [fst] in *.
  destruct n as [|c n]; [congruence|]. inversion Ft as [|? ? Tc]; subst. exists c. eexists. split; [reflexivity|]. unfold token_char, printable in Tc. unfold is_ascii, is_space, is_between. lia.
Qed.

Section Verify.
Variable e : env.
Hypothesis Se : sized e.
Lemma header_step : forall n i has g h hs l, header_fits h -> Forall header_fits hs ->
  exists g', verify_header_json e (S n) i has (N header_name g (header_lines (h :: hs) ++ CRLF ++ l)) =
    do ct <- equals_i (fst h ++ [0]) "Content-Type";
    if ct then
      if has then Ret (Some (text_response "400" "Bad Request" "The Content-Type header was supplied more than once."), N header_value (zlen (fst h)) (join (snd h) ++ CRLF ++ header_lines hs ++ CRLF ++ l))
      else do ok <- starts_i (join (snd h) ++ [0]) "application/json";
           if ok then verify_header_json e n (S i) true (N header_name g' (header_lines hs ++ CRLF ++ l))
           else Ret (Some (text_response "400" "Bad Request" "'application/json' is the only supported Content-Type."), N header_name g' (header_lines hs ++ CRLF ++ l))
    else verify_header_json e n (S i) has (N header_name g' (header_lines hs ++ CRLF ++ l)).
Proof.
  intros n i has g [nm ws] hs l Hh Hs. change (fst (nm, ws)) with nm. change (snd (nm, ws)) with ws. exists (zlen (join ws)).
  destruct (lines_first hs l Hs) as (c2 & k2 & E2 & A2 & S2). pose proof Hh as ((Nn & _) & Hw & _). cbn [fst snd] in Nn, Hw.
  destruct (join_first ws (10 :: header_lines hs ++ CRLF ++ l) Hw) as (c & k & E1 & A1 & S1).
  assert (header_lines (@cons hline (nm, ws) hs) ++ CRLF ++ l = nm ++ b ": " ++ c :: k) as El.
  { rewrite <- E1. unfold header_lines. cbn [flat_map fst snd]. rewrite <- !app_assoc. reflexivity. }
  rewrite El. cbn [verify_header_json]. destruct Se as (Sh & _).
  destruct (name_read (e_header e i) g nm ws c k (Sh i) Hh A1 S1) as (x & -> & Lx & Fn). cbn [bind hgc N].
  replace (zlen nm =? 0) with false by (pose proof (nonempty_len nm Nn); lia).
  destruct (equals_i_spec nm x "Content-Type" Fn ltac:(nn)) as (v & Ev & Sv). rewrite Ev. destruct (equals_i_spec nm [] "Content-Type" Fn ltac:(nn)) as (v' & Ev' & Sv'). rewrite Ev'. cbn [bind].
  rewrite (same_bool _ _ _ Sv' Sv).
  rewrite <- E1. change (13 :: 10 :: header_lines hs ++ CRLF ++ l) with (CRLF ++ header_lines hs ++ CRLF ++ l). rewrite E2.
  destruct (value_read (nm ++ 0 :: x) (zlen nm) nm ws c2 k2 Lx Hh A2 S2) as (y & E3 & _ & Fv). rewrite E3. cbn [bind].
  destruct (starts_i_spec (join ws) y "application/json" Fv ltac:(nn)) as (w & Ew & Sw). rewrite Ew. destruct (starts_i_spec (join ws) [] "application/json" Fv ltac:(nn)) as (w' & Ew' & Sw'). rewrite Ew'. cbn [bind].
  rewrite (same_bool _ _ _ Sw' Sw). reflexivity.
Qed.
Lemma end_step : forall n i has g l, verify_header_json e (S n) i has (N header_name g (CRLF ++ l)) = Ret (if has then Some [] else None, N body 0 l).
Proof. intros n i has g l. cbn [verify_header_json]. destruct Se as (Sh & _). destruct (end_read (e_header e i) g l (Sh i)) as (x & ->). reflexivity. Qed.
Lemma fits_nn : forall h, header_fits h -> no_nul (fst h) /\ no_nul (join (snd h)).
Proof.
  intros [nm ws] Hh. cbn [fst snd]. split.
  - destruct Hh as ((_ & F) & _). cbn [fst] in F. eapply Forall_impl; [|exact F]. intros c T. unfold token_char, printable in T. lia.
  - destruct (value_read (repeat 0 (Z.to_nat 1025)) 0 nm ws 13 [] ltac:(unfold zlen; rewrite repeat_length; lia) Hh eq_refl eq_refl) as (x & _ & _ & F). exact F.
Qed.
Lemma skip_headers : forall h1 n i has g h2 l, no_type h1 -> Forall header_fits h1 -> Forall header_fits h2 ->
  exists g', verify_header_json e (length h1 + n) i has (N header_name g (header_lines (h1 ++ h2) ++ CRLF ++ l)) =
    verify_header_json e n (i + length h1) has (N header_name g' (header_lines h2 ++ CRLF ++ l)).
Proof.
  induction h1 as [|h h1 IH]; intros n i has g h2 l T F F2; [exists g; cbn [length app plus]; rewrite Nat.add_0_r; reflexivity|].
  inversion T as [|? ? Nt T']; subst. inversion F as [|? ? Fh F']; subst. cbn [length app plus]. destruct (header_step (length h1 + n) i has g h (h1 ++ h2) l) as (g1 & E); [assumption|apply Forall_app; auto|]. rewrite E.
  destruct (fits_nn h ltac:(assumption)) as (Nn & _). destruct (equals_i_spec (fst h) [] "Content-Type" Nn ltac:(nn)) as (v & -> & Sv). cbn [bind]. destruct v; [exfalso; apply Nt, Sv; reflexivity|].
  destruct (IH n (S i) has g1 h2 l) as (g' & E'); [assumption..|]. exists g'. rewrite E'. f_equal. lia.
Qed.
Lemma type_step : forall n i g h hs l, header_fits h -> Forall header_fits hs -> is_type h -> says_json h ->
  exists g', verify_header_json e (S n) i false (N header_name g (header_lines (h :: hs) ++ CRLF ++ l)) = verify_header_json e n (S i) true (N header_name g' (header_lines hs ++ CRLF ++ l)).
Proof.
  intros n i g h hs l Hh Hs T J. destruct (header_step n i false g h hs l Hh Hs) as (g' & ->). exists g'. destruct (fits_nn h Hh) as (Nn & Nv).
  destruct (equals_i_spec (fst h) [] "Content-Type" Nn ltac:(nn)) as (v & -> & Sv). cbn [bind]. rewrite (proj2 Sv T).
  destruct (starts_i_spec (join (snd h)) [] "application/json" Nv ltac:(nn)) as (w & -> & Sw). cbn [bind]. rewrite (proj2 Sw J). reflexivity.
Qed.
Lemma verify_json : forall hs n g l, Forall header_fits hs -> json_type hs -> (length hs < n)%nat ->
  verify_header_json e n 0 false (N header_name g (header_lines hs ++ CRLF ++ l)) = Ret (Some [], N body 0 l).
Proof.
  intros hs n g l F (h1 & h & h2 & -> & T1 & T & J & T2) Hn. cbn [app] in *. apply Forall_app in F as (F1 & F). inversion F as [|? ? Fh F2]; subst. rewrite !app_length in Hn. cbn [length] in Hn.
  replace n with (length h1 + (S (length h2 + (S (n - length h1 - length h2 - 2)))))%nat by lia.
  destruct (skip_headers h1 (S (length h2 + S (n - length h1 - length h2 - 2))) 0 false g (h :: h2) l T1 F1 F) as (g1 & ->).
  destruct (type_step (length h2 + S (n - length h1 - length h2 - 2)) (0 + length h1) g1 h h2 l Fh F2 T J) as (g2 & ->).
  destruct (skip_headers h2 (S (n - length h1 - length h2 - 2)) (S (0 + length h1)) true g2 [] l T2 F2 ltac:(constructor)) as (g3 & E). rewrite app_nil_r in E. rewrite E. apply end_step.
Qed.
Lemma verify_none : forall hs n g l, Forall header_fits hs -> no_type hs -> (length hs < n)%nat ->
  verify_header_json e n 0 false (N header_name g (header_lines hs ++ CRLF ++ l)) = Ret (None, N body 0 l).
Proof.
  intros hs n g l F T Hn. replace n with (length hs + S (n - length hs - 1))%nat by lia.
  destruct (skip_headers hs (S (n - length hs - 1)) 0 false g [] l T F ltac:(constructor)) as (g3 & E). rewrite app_nil_r in E. rewrite E. apply end_step.
Qed.
Lemma verify_other : forall hs n g l, Forall header_fits hs -> other_type hs -> (length hs < n)%nat ->
  exists s, is_good s = true /\ verify_header_json e n 0 false (N header_name g (header_lines hs ++ CRLF ++ l)) = Ret (Some (text_response "400" "Bad Request" "'application/json' is the only supported Content-Type."), s).
Proof.
  intros hs n g l F (h1 & h & h2 & -> & T1 & T & J) Hn. cbn [app] in *. apply Forall_app in F as (F1 & F). inversion F as [|? ? Fh F2]; subst. rewrite !app_length in Hn. cbn [length] in Hn.
  replace n with (length h1 + (S (n - length h1 - 1)))%nat by lia.
  destruct (skip_headers h1 (S (n - length h1 - 1)) 0 false g (h :: h2) l T1 F1 F) as (g1 & ->).
  destruct (header_step (n - length h1 - 1) (0 + length h1) false g1 h h2 l Fh F2) as (g' & ->). destruct (fits_nn h Fh) as (Nn & Nv).
  destruct (equals_i_spec (fst h) [] "Content-Type" Nn ltac:(nn)) as (v & -> & Sv). cbn [bind]. rewrite (proj2 Sv T).
  destruct (starts_i_spec (join (snd h)) [] "application/json" Nv ltac:(nn)) as (w & -> & Sw). cbn [bind]. destruct w; [exfalso; apply J, Sw; reflexivity|]. eexists. split; [|reflexivity]. reflexivity.
Qed.
Lemma verify_two : forall hs n g l, Forall header_fits hs -> two_types hs -> (length hs < n)%nat ->
  exists s, is_good s = true /\ verify_header_json e n 0 false (N header_name g (header_lines hs ++ CRLF ++ l)) = Ret (Some (text_response "400" "Bad Request" "The Content-Type header was supplied more than once."), s).
Proof.
  intros hs n g l F (h1 & h & h2 & h' & h3 & -> & T1 & T & J & T2 & T') Hn. cbn [app] in *. apply Forall_app in F as (F1 & F). inversion F as [|? ? Fh F2]; subst. rewrite app_length in Hn. cbn [length] in Hn. rewrite app_length in Hn. cbn [length] in Hn.
  pose proof F2 as F2'. apply Forall_app in F2' as (F2' & F3). inversion F3 as [|? ? Fh' F3']; subst.
  replace n with (length h1 + (S (length h2 + (S (n - length h1 - length h2 - 2)))))%nat by lia.
  destruct (skip_headers h1 (S (length h2 + S (n - length h1 - length h2 - 2))) 0 false g (h :: h2 ++ h' :: h3) l T1 F1 F) as (g1 & ->).
  destruct (type_step (length h2 + S (n - length h1 - length h2 - 2)) (0 + length h1) g1 h (h2 ++ h' :: h3) l Fh F2 T J) as (g2 & ->).
  destruct (skip_headers h2 (S (n - length h1 - length h2 - 2)) (S (0 + length h1)) true g2 (h' :: h3) l T2 F2' F3) as (g3 & ->).
  destruct (header_step (n - length h1 - length h2 - 2) (S (0 + length h1) + length h2) true g3 h' h3 l Fh' F3') as (g' & ->). destruct (fits_nn h' Fh') as (Nn & _).
  destruct (equals_i_spec (fst h') [] "Content-Type" Nn ltac:(nn)) as (v & -> & Sv). cbn [bind]. rewrite (proj2 Sv T'). eexists. split; [|reflexivity]. reflexivity.
Qed.
Lemma lines_len : forall hs, (length hs <= length (header_lines hs))%nat.
Proof. induction hs as [|[nm ws] hs IH]; [cbn; lia|]. unfold header_lines in *. cbn [flat_map length fst snd]. rewrite !app_length. cbn [length]. change (length (b ": ")) with 2%nat. lia. Qed.
End Verify.

(** ** The bodies of requests *)
Section Bodies.
Context {K : kind}.
Implicit Types sv : server K.
Variable e : env.
Hypothesis Se : sized e.
Variables (m x : list Z).
Hypothesis Nm : no_nul m.
Hypothesis Pm : same_i m (b "POST").
Variable hs : list hline.
Hypothesis Fh : Forall header_fits hs.
Lemma enough : forall g l, (length hs < S (length (hin (N header_name g (header_lines hs ++ CRLF ++ l)))))%nat.
Proof. intros g l. cbn [hin N]. rewrite !app_length. pose proof (lines_len hs). lia. Qed.
Lemma create_json : forall sv g l, json_type hs -> create_game e sv (m ++ 0 :: x) (N header_name g (header_lines hs ++ CRLF ++ l)) =
  do p <- get_player_types e (N body 0 l);
  match p with
  | Refuse calls => answer_with sv (N body 0 l) calls
  | Found (xt, ot) =>
      match find_slot (s_games sv) with
      | None => answer_with sv (N body 0 l) (text_response "503" "Service Unavailable" "The service has a temporary game capacity shortage.")
      | Some (games, i, ms) =>
          let n := s_rand sv in let id := rand_id e n in let n := S (S n) in
          let '(x, n) := if is_external xt then (rand_id e n, S (S n)) else (0, n) in
          let '(o, n) := if is_external ot then (rand_id e n, S (S n)) else (0, n) in
          do t <- json_text (e_body e 1025) [Json_Model.TBegO; prop "gameId"; num id; Json_Model.TEndO];
          Ret {| r_server := {| s_games := set_game games i (game_reset ms id xt x ot o); s_rand := n |}; r_shut := false; r_calls := json_response t; r_stream := N body 0 l |}
      end
  end.
Proof.
  intros sv g l J. unfold create_game. destruct (equals_i_spec m x "POST" Nm ltac:(nn)) as (v & -> & Sv). cbn [bind]. rewrite (proj2 Sv Pm). cbn [negb].
  rewrite (verify_json e Se hs _ g l Fh J (enough g l)). reflexivity.
Qed.
Lemma accept_json : forall sv g l id pid mv, json_type hs -> no_nul mv -> same_i mv (b "moves") -> id <> 0 -> pid <> 0 ->
  accept_move e sv (m ++ 0 :: x) (N header_name g (header_lines hs ++ CRLF ++ l)) id pid mv =
  do mv <- read_move (K := K) e (N body 0 l);
  match mv with
  | None => answer_with sv (N body 0 l) invalid_move
  | Some mv =>
      match find_game (s_games sv) id with
      | None => answer_with sv (N body 0 l) game_not_found
      | Some (k, g) =>
          let p := player_of g pid in
          if p =? k_none K then answer_with sv (N body 0 l) (text_response "404" "Not Found" "A player with the supplied ID was not found.") else
          do (ok, g') <- game_accept g p mv;
          let sv' := {| s_games := set_game (s_games sv) k g'; s_rand := s_rand sv |} in
          if negb ok then answer_with sv' (N body 0 l) (text_response "403" "Forbidden" "The move was not accepted.") else
          do t <- json_text (e_body e 1025) ([Json_Model.TBegO; prop "i"; num (k_count K (g_board g') - 1)] ++ winner_tokens (g_board g') ++ [Json_Model.TEndO]);
          Ret {| r_server := sv'; r_shut := false; r_calls := json_response t; r_stream := N body 0 l |}
      end
  end.
Proof.
  intros sv g l id pid mv J Nv Sm Ni Np. unfold accept_move. destruct (equals_i_spec mv [] "moves" Nv ltac:(nn)) as (v & -> & Sv). cbn [bind]. rewrite (proj2 Sv Sm). cbn [negb].
  destruct (equals_i_spec m x "POST" Nm ltac:(nn)) as (u & -> & Su). cbn [bind]. rewrite (proj2 Su Pm). cbn [negb].
  rewrite (verify_json e Se hs _ g l Fh J (enough g l)). cbn [bind]. replace ((id =? 0) || (pid =? 0)) with false by lia. reflexivity.
Qed.
(** A body that is a string without its end. *)
Lemma create_loops : forall sv g p, json_type hs -> Json_Spec.unquoted p -> zlen p <= 1030 -> create_game e sv (m ++ 0 :: x) (N header_name g (header_lines hs ++ CRLF ++ 34 :: p)) = Loop.
Proof.
  intros sv g p J U Lp. rewrite (create_json sv g (34 :: p) J). unfold get_player_types, get_token. change (json_reader (N body 0 (34 :: p))) with (Json_Model.reader 64 (34 :: p)).
  destruct Se as (_ & St & _). rewrite (Json_Props.C04_unterminated_refuted p 64 (e_token e) U) by lia. reflexivity.
Qed.
(** Headers without Content-Type. *)
Lemma create_silent : forall sv g l, no_type hs -> create_game e sv (m ++ 0 :: x) (N header_name g (header_lines hs ++ CRLF ++ l)) = answer_with sv (N body 0 l) [].
Proof.
  intros sv g l J. unfold create_game. destruct (equals_i_spec m x "POST" Nm ltac:(nn)) as (v & -> & Sv). cbn [bind]. rewrite (proj2 Sv Pm). cbn [negb].
  rewrite (verify_none e Se hs _ g l Fh J (enough g l)). reflexivity.
Qed.
End Bodies.

(** ** Requests that are refused *)
Section Refused.
Context {K : kind}.
Variables (c : conn) (root : list Z) (e : env) (sv : server K) (l m r : list Z).
Hypothesis Rd : ready c root.
Hypothesis Q : request_line root l m r.
Hypothesis Nf : ~ file_asked (c_config c) m r.
Definition games_below : Prop := exists g t, r = g ++ t /\ same_i g (b "/games").
Lemma shutdown_reply : same_i r (b "/shutdown") -> exists a, serve c e sv l = Ret (a, sv) /\ (a_shut a = true <-> same_i m (b "POST")) /\
  (same_i m (b "POST") -> text_reply (a_out a) "200" "OK" "Server is shuting down...") /\
  (~ same_i m (b "POST") -> text_reply (a_out a) "405" "Method Not Allowed" "Expected method POST for this request.").
Proof.
  intros Sr.
  assert (forall x y s, no_nul m -> no_nul r -> exists v, (v = true <-> same_i m (b "POST")) /\ process_rest e sv (m ++ 0 :: x) (r ++ 0 :: y) s =
    if v then Ret {| r_server := sv; r_shut := true; r_calls := text_response "200" "OK" "Server is shuting down..."; r_stream := s |} else answer_with sv s expect_post) as H.
  { intros x y s Nm Nr. unfold process_rest. destruct (starts_i_spec r y "/games" Nr ltac:(nn)) as (v & -> & Sv). cbn [bind]. destruct v.
    - exfalso. destruct (proj1 Sv eq_refl) as (g & t & -> & Sg). unfold same_i in *. rewrite map_app, Sg in Sr. discriminate Sr.
    - destruct (equals_i_spec r y "/shutdown" Nr ltac:(nn)) as (w & -> & Sw). cbn [bind]. rewrite (proj2 Sw Sr). unfold process_shutdown.
      destruct (equals_i_spec m x "POST" Nm ltac:(nn)) as (u & -> & Su). cbn [bind]. exists u. split; [exact Su|]. destruct u; reflexivity. }
  destruct (list_eq_dec Z.eq_dec (map lower m) (map lower (b "POST"))) as [Pm|Pm].
  - destruct (serve_text c root e sv l m r Rd Q Nf "200" "OK" "Server is shuting down..." sv true) as (a & A1 & A2 & _ & A3); try reflexivity; try discriminate.
    { intros x y s Nm Nr _. destruct (H x y s Nm Nr) as (v & Sv & ->). rewrite (proj2 Sv Pm). reflexivity. }
    exists a. split; [exact A1|]. split; [tauto|]. split; [auto|]. intros X. contradiction.
  - destruct (serve_text c root e sv l m r Rd Q Nf "405" "Method Not Allowed" "Expected method POST for this request." sv false) as (a & A1 & A2 & _ & A3); try reflexivity; try discriminate.
    { intros x y s Nm Nr _. destruct (H x y s Nm Nr) as (v & Sv & ->). destruct v; [exfalso; apply Pm, Sv; reflexivity|]. reflexivity. }
    exists a. split; [exact A1|]. split; [rewrite A2; split; [discriminate|intros X; contradiction]|]. split; [intros X; contradiction|auto].
Qed.
Lemma unknown_reply : ~ same_i r (b "/shutdown") -> ~ games_below -> exists a, serve c e sv l = Ret (a, sv) /\ a_shut a = false /\ text_reply (a_out a) "404" "Not Found" "The requested resource was not found.".
Proof.
  intros Ns Ng. destruct (serve_text c root e sv l m r Rd Q Nf "404" "Not Found" "The requested resource was not found." sv false) as (a & A1 & A2 & _ & A3); try reflexivity; try discriminate; [|eauto].
  intros x y s Nm Nr _. unfold process_rest. destruct (starts_i_spec r y "/games" Nr ltac:(nn)) as (v & -> & Sv). cbn [bind]. destruct v; [exfalso; apply Ng; exact (proj1 Sv eq_refl)|].
  destruct (equals_i_spec r y "/shutdown" Nr ltac:(nn)) as (w & -> & Sw). cbn [bind]. destruct w; [exfalso; apply Ns, Sw; reflexivity|]. reflexivity.
Qed.
Lemma post_only : same_i r (b "/games") \/ (exists id i, seat_resource r id i) \/ (exists id pid, play_resource r id pid) -> ~ same_i m (b "POST") ->
  exists a, serve c e sv l = Ret (a, sv) /\ a_shut a = false /\ text_reply (a_out a) "405" "Method Not Allowed" "Expected method POST for this request.".
Proof.
  intros Hr Np. destruct (serve_text c root e sv l m r Rd Q Nf "405" "Method Not Allowed" "Expected method POST for this request." sv false) as (a & A1 & A2 & _ & A3); try reflexivity; try discriminate; [|eauto].
  intros x y s Nm Nr Pr. destruct Hr as [Sr|[(id & i & Sr)|(id & pid & Sr)]].
  - rewrite (route_all e sv _ r y s Nr Sr). unfold create_game. destruct (equals_i_spec m x "POST" Nm ltac:(nn)) as (u & -> & Su). cbn [bind]. destruct u; [exfalso; apply Np, Su; reflexivity|reflexivity].
  - rewrite (route_seat e sv _ r y s id i Nr Sr). apply not_post; assumption.
  - destruct (route_play e sv (m ++ 0 :: x) r y s id pid Nr Pr Sr) as (mv & Sm & Nv & ->). unfold accept_move. destruct (equals_i_spec mv [] "moves" Nv ltac:(nn)) as (v & -> & Sv). cbn [bind]. rewrite (proj2 Sv Sm). cbn [negb].
    destruct (equals_i_spec m x "POST" Nm ltac:(nn)) as (u & -> & Su). cbn [bind]. destruct u; [exfalso; apply Np, Su; reflexivity|reflexivity].
Qed.
Lemma get_only_reply : (exists id since, since_resource r id since) -> ~ same_i m (b "GET") ->
  exists a, serve c e sv l = Ret (a, sv) /\ a_shut a = false /\ text_reply (a_out a) "405" "Method Not Allowed" "Expected method GET for this request.".
Proof.
  intros (id & since & Sr) Np. destruct (serve_text c root e sv l m r Rd Q Nf "405" "Method Not Allowed" "Expected method GET for this request." sv false) as (a & A1 & A2 & _ & A3); try reflexivity; try discriminate; [|eauto].
  intros x y s Nm Nr Pr. rewrite (route_since e sv _ r y s id since Nr Sr). apply not_get; assumption.
Qed.
End Refused.

(** ** Requests with headers *)
Section Full.
Context {K : kind}.
Variables (c : conn) (root : list Z) (e : env) (sv : server K) (l m r : list Z) (hs : list hline) (body : list Z).
Hypothesis Rd : ready c root.
Hypothesis Se : sized e.
Hypothesis Q : full_request root l m r hs body.
Hypothesis Nf : ~ file_asked (c_config c) m r.
Hypothesis Pm : same_i m (b "POST").
Hypothesis Fh : Forall header_fits hs.
Lemma serve_create : same_i r (b "/games") -> exists x g, no_nul m /\
  serve c e sv l = do rp <- create_game e sv (m ++ 0 :: x) (N header_name g (header_lines hs ++ CRLF ++ body));
                   do w <- write_calls response (r_calls rp) (server_writer (r_stream rp) true);
                   Ret ({| a_file := None; a_shut := r_shut rp; a_calls := r_calls rp; a_out := wout w |}, r_server rp).
Proof.
  intros Sr. destruct Q as (p & El & Ok & Lm & Lr & Lp). destruct (serve_raw c root e sv l m r p _ Rd El Ok Lm Lr Lp Nf) as (x & y & g & Nm & Nr & Pr & E).
  exists x, g. split; [exact Nm|]. rewrite E, (route_all e sv _ r y _ Nr Sr). reflexivity.
Qed.
Lemma serve_play : forall id pid, play_resource r id pid -> exists x g mv, no_nul m /\ same_i mv (b "moves") /\ no_nul mv /\
  serve c e sv l = do rp <- accept_move e sv (m ++ 0 :: x) (N header_name g (header_lines hs ++ CRLF ++ body)) id pid mv;
                   do w <- write_calls response (r_calls rp) (server_writer (r_stream rp) true);
                   Ret ({| a_file := None; a_shut := r_shut rp; a_calls := r_calls rp; a_out := wout w |}, r_server rp).
Proof.
  intros id pid Sr. destruct Q as (p & El & Ok & Lm & Lr & Lp). destruct (serve_raw c root e sv l m r p _ Rd El Ok Lm Lr Lp Nf) as (x & y & g & Nm & Nr & Pr & E).
  destruct (route_play e sv (m ++ 0 :: x) r y (N header_name g (header_lines hs ++ CRLF ++ body)) id pid Nr Pr Sr) as (mv & Sm & Nv & Ep).
  exists x, g, mv. split; [exact Nm|]. split; [exact Sm|]. split; [exact Nv|]. rewrite E, Ep. reflexivity.
Qed.
End Full.
Lemma endless : forall K c root e (sv : server K) l m r hs p, ready c root -> sized e -> full_request root l m r hs (34 :: p) -> ~ file_asked (c_config c) m r ->
  same_i m (b "POST") -> same_i r (b "/games") -> Forall header_fits hs -> json_type hs -> Json_Spec.unquoted p -> zlen p <= 1030 -> serve c e sv l = Loop.
Proof.
  intros K c root e sv l m r hs p Rd Se Q Nf Pm Sr Fh J U Lp. destruct (serve_create c root e sv l m r hs (34 :: p) Rd Q Nf Sr) as (x & g & Nm & ->).
  rewrite (create_loops e Se m x Nm Pm hs Fh sv g p J U Lp). reflexivity.
Qed.
Lemma untyped : forall K c root e (sv : server K) l m r hs body, ready c root -> sized e -> full_request root l m r hs body -> ~ file_asked (c_config c) m r ->
  same_i m (b "POST") -> same_i r (b "/games") -> Forall header_fits hs -> no_type hs -> exists a, serve c e sv l = Ret (a, sv) /\ a_out a = [].
Proof.
  intros K c root e sv l m r hs body Rd Se Q Nf Pm Sr Fh J. destruct (serve_create c root e sv l m r hs body Rd Q Nf Sr) as (x & g & Nm & ->).
  rewrite (create_silent e Se m x Nm Pm hs Fh sv g body J). eexists. split; reflexivity.
Qed.
