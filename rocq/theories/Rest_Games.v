(** Proofs for C68-C72, first part: the boards, the games and the histories of a server. *)

From Coq Require Import String ZArith QArith List Bool Lia.
From Verif Require Import Base ListMem Ascii_Model Ascii_Spec Table_Model Http_Model Http_Calls Http_Spec Endpoint_Model Endpoint_Spec Rest_Model Rest_Spec.
From Verif Require Import Http_Proofs Http_Order Http_RoundTrip Endpoint_Proofs Ascii_Proofs.
From Verif Require Ttt_Model Ttt_Spec Ttt_Calls Ttt_Proofs Connect4_Model Connect4_Spec Connect4_Calls Connect4_Proofs.
Import ListNotations.
Open Scope string_scope.
Open Scope list_scope.
Open Scope Z_scope.

(** ** Boards *)
Record laws (K : kind) (R : rules K) (rep : k_board K -> list (Z * Z) -> Prop) : Prop := {
  l_reset : rep (k_reset K) [];
  l_shows : forall b ms, rep b ms -> shows R b ms /\ played R ms;
  l_accept : forall b ms m, rep b ms -> exists ok b', k_accept K b m = Some (ok, b') /\ (ok = true <-> legal R ms m) /\ if ok then rep b' (m :: ms) else b' = b;
  l_count : forall b ms, rep b ms -> k_count K b = zlen ms;
  l_cells : forall b ms, rep b ms -> (length ms <= k_cells K)%nat;
  l_over : forall b ms, rep b ms -> (k_over K b = true <-> finished R ms);
  l_current : forall b ms, rep b ms -> k_over K b = false -> k_current K b = turn R (length ms);
  l_player : forall b ms, rep b ms -> k_current K b = k_x K \/ k_current K b = k_o K;
  l_legal : forall ms m, legal R ms m -> finished R ms -> False;
  l_winner : forall b ms, rep b ms -> 0 <= k_winner K b < 10;
  l_coord : forall b ms, rep b ms -> Forall (fun m => 0 <= fst m < 10 /\ 0 <= snd m < 10) ms;
  l_seats : k_x K <> k_o K /\ k_x K <> k_none K /\ k_o K <> k_none K;
  l_room : Z.of_nat (k_cells K) <= 42 /\ Z.of_nat (k_cells K) * 40 + 60 <= k_moves_size K <= 2049 }.

Lemma ttt_laws : laws ttt ttt_rules Ttt_Proofs.rep.
Proof.
  constructor; cbn [ttt ttt_rules shows played legal finished turn k_reset k_accept k_count k_cells k_over k_current k_x k_o k_none k_winner k_moves_size].
  - exact Ttt_Proofs.rep_reset.
  - intros bd ms (S & P & _). auto.
  - intros bd ms m R. destruct (Ttt_Proofs.legal_dec ms m) as [L|L].
    + destruct (Ttt_Proofs.accept_legal bd ms m R L) as (b' & E & R' & _). exists true, b'. rewrite E. split; [reflexivity|]. split; [tauto|exact R'].
    + exists false, bd. rewrite (Ttt_Proofs.accept_illegal bd ms m R L). split; [reflexivity|]. split; [|reflexivity]. split; [discriminate|contradiction].
  - intros bd ms (S & _). exact (Ttt_Calls.shows_count _ _ S).
  - intros bd ms (_ & P & _). apply Ttt_Proofs.played_length, P.
  - intros bd ms (S & _). exact (Ttt_Calls.shows_over _ _ S).
  - intros bd ms (S & _) O. rewrite (Ttt_Calls.shows_current _ _ S), O. reflexivity.
  - intros bd ms (S & _). rewrite (Ttt_Calls.shows_current _ _ S). destruct (Ttt_Model.over bd); apply Ttt_Proofs.turn_cases.
  - intros ms m (_ & _ & N) F. exact (N F).
  - intros bd ms (S & _). pose proof (Ttt_Calls.shows_winner _ _ S) as W. pose proof (Ttt_Calls.shows_nobody _ _ S) as N.
    unfold Ttt_Spec.X, Ttt_Spec.O, Ttt_Model.p_none in *.
    destruct (Z.eq_dec (Ttt_Model.winner bd) 2) as [E|E]; [lia|]. destruct (Z.eq_dec (Ttt_Model.winner bd) 3) as [E'|E']; [lia|].
    enough (Ttt_Model.winner bd = 0) by lia. apply N. split; intros T; [apply E, (W 2); auto|apply E', (W 3); auto].
  - intros bd ms (_ & P & _). apply Ttt_Proofs.played_board in P. eapply Forall_impl; [|exact P]. intros m (A & B). lia.
  - repeat split; discriminate.
  - cbn. lia.
Qed.
Lemma c4_played_board : forall ms, Connect4_Spec.played ms -> Forall Connect4_Spec.on_board ms.
Proof. induction 1 as [|m ms P IH (B & _)]; constructor; assumption. Qed.
Lemma c4_laws : laws c4 c4_rules Connect4_Proofs.rep.
Proof.
  constructor; cbn [c4 c4_rules shows played legal finished turn k_reset k_accept k_count k_cells k_over k_current k_x k_o k_none k_winner k_moves_size].
  - exact Connect4_Proofs.reset_rep.
  - intros bd ms (S & P & _). auto.
  - intros bd ms m R. destruct (Connect4_Proofs.legal_dec bd ms m (proj1 R)) as [L|L].
    + destruct (Connect4_Proofs.accept_legal bd ms m R L) as (b' & E & R' & _). exists true, b'. rewrite E. split; [reflexivity|]. split; [tauto|exact R'].
    + exists false, bd. rewrite (Connect4_Proofs.accept_illegal bd ms m R L). split; [reflexivity|]. split; [|reflexivity]. split; [discriminate|contradiction].
  - intros bd ms (S & _). exact (Connect4_Calls.shows_count _ _ S).
  - intros bd ms (_ & P & _). apply Connect4_Proofs.played_length, P.
  - intros bd ms (S & _). exact (Connect4_Calls.shows_over _ _ S).
  - intros bd ms (S & _) O. rewrite (Connect4_Calls.shows_current _ _ S), O. reflexivity.
  - intros bd ms (S & _). rewrite (Connect4_Calls.shows_current _ _ S). destruct (Connect4_Model.over bd); apply Connect4_Proofs.turn_cases.
  - intros ms m (_ & _ & N) F. exact (N F).
  - intros bd ms (S & _). pose proof (Connect4_Calls.shows_winner _ _ S) as W. pose proof (Connect4_Calls.shows_nobody _ _ S) as N.
    unfold Connect4_Spec.nobody in *.
    destruct (Z.eq_dec (Connect4_Model.winner bd) 0) as [E|E]; [lia|]. destruct (Z.eq_dec (Connect4_Model.winner bd) 1) as [E'|E']; [lia|].
    enough (Connect4_Model.winner bd = 2) by lia. apply N. split; intros T; [apply E, (W 0); auto|apply E', (W 1); auto].
  - intros bd ms (_ & P & _). apply c4_played_board in P. eapply Forall_impl; [|exact P]. intros m (A & B). lia.
  - repeat split; discriminate.
  - cbn. lia.
Qed.
Lemma sample_laws : forall K (R : rules K), sample K R -> exists rep, laws K R rep.
Proof. intros K R [|]; eexists; [exact ttt_laws|exact c4_laws]. Qed.

(** ** Games *)
Section Games.
Variables (K : kind) (R : rules K) (rep : k_board K -> list (Z * Z) -> Prop).
Hypothesis L : laws K R rep.

(** The board and the stored moves agree. *)
Definition game_ok (g : game K) (ms : list (Z * Z)) : Prop :=
  rep (g_board g) ms /\ length (g_moves g) = k_cells K /\ firstn (length ms) (g_moves g) = map Some (rev ms) /\ 0 <= g_id g < 2 ^ 32 /\ 0 <= g_xid g < 2 ^ 32 /\ 0 <= g_oid g < 2 ^ 32.
Definition same_seats (g g' : game K) : Prop :=
  same_identity g g' /\ g_moves g' = g_moves g /\ g_board g' = g_board g.

Lemma ask_ok : forall g ms, game_ok g ms -> game_ok (ask g) ms.
Proof. intros g ms H. exact H. Qed.
Lemma full_ok : forall g ms, game_ok g ms -> game_ok (start_if_full g) ms.
Proof. intros g ms H. unfold start_if_full. destruct (_ && _); exact H. Qed.
Lemma reset_ok : forall ms id xt x ot o, length ms = k_cells K -> 0 <= id < 2 ^ 32 -> 0 <= x < 2 ^ 32 -> 0 <= o < 2 ^ 32 ->
  game_ok (game_reset ms id xt x ot o) [].
Proof. intros. apply full_ok. repeat split; cbn [g_board g_moves g_id g_xid g_oid length firstn map rev]; auto; try lia. exact (l_reset _ _ _ L). Qed.
Lemma claim_ok : forall g ms i p g', game_ok g ms -> game_claim g i = Some (p, g') -> game_ok g' ms /\ same_seats g g' /\ 0 <= p < 2 ^ 32.
Proof.
  intros g ms i p g' H E. pose proof H as (_ & _ & _ & _ & X & O).
  unfold game_claim in E. destruct (i =? 0).
  - destruct (g_xclaimed g); [discriminate|]. injection E as <- <-. split; [apply full_ok; exact H|]. split; [|lia].
    unfold same_seats, same_identity, start_if_full. destruct (_ && _); cbn; auto 10.
  - destruct (g_oclaimed g); [discriminate|]. injection E as <- <-. split; [apply full_ok; exact H|]. split; [|lia].
    unfold same_seats, same_identity, start_if_full. destruct (_ && _); cbn; auto 10.
Qed.
Lemma store_spec : forall l i m l', store_move l i m = Some l' -> length l' = length l /\ firstn (S i) l' = firstn i l ++ [Some m].
Proof.
  induction l as [|x l IH]; intros i m l' H; [destruct i; discriminate|]. destruct i as [|i]; cbn [store_move] in H.
  - injection H as <-. split; reflexivity.
  - destruct (store_move l i m) as [l1|] eqn:E; [|discriminate]. injection H as <-. destruct (IH _ _ _ E) as (A & B).
    split; [cbn [length]; lia|]. change (firstn (S (S i)) (x :: l1)) with (x :: firstn (S i) l1). rewrite B. reflexivity.
Qed.
Lemma store_some : forall l i m, (i < length l)%nat -> exists l', store_move l i m = Some l'.
Proof.
  induction l as [|x l IH]; intros i m H; cbn [length] in H; [lia|]. destruct i as [|i]; cbn [store_move]; [eauto|].
  destruct (IH i m ltac:(lia)) as (l' & ->). eauto.
Qed.
(** A move of a player: refused without a change, or made by the player on turn. *)
Lemma accept_ok : forall g ms pid m, game_ok g ms -> exists ok g', game_accept g pid m = Ret (ok, g') /\
  (ok = true <-> pid = k_current K (g_board g) /\ legal R ms m) /\ same_identity g g' /\
  g_xclaimed g' = g_xclaimed g /\ g_oclaimed g' = g_oclaimed g /\
  (if ok then game_ok g' (m :: ms) else g' = g).
Proof.
  intros g ms pid m H. pose proof H as (P & N & F & I & X & O). unfold game_accept.
  destruct (Z.eqb_spec pid (k_current K (g_board g))) as [E|E]; cbn [negb].
  2: { exists false, g. split; [reflexivity|]. split; [split; [discriminate|intros (A & _); contradiction]|]. split; [repeat split|]. auto. }
  destruct (l_accept _ _ _ L (g_board g) ms m P) as (ok & b' & -> & Lg & B). destruct ok.
  - pose proof (l_count _ _ _ L b' (m :: ms) B) as C. rewrite zlen_cons in C. pose proof (zlen_nonneg _ ms).
    pose proof (l_cells _ _ _ L b' (m :: ms) B) as Cl. cbn [length] in Cl.
    destruct (Z.leb_spec 0 (k_count K b' - 1)); [|lia].
    replace (Z.to_nat (k_count K b' - 1)) with (length ms) by (rewrite C; unfold zlen; lia).
    destruct (store_some (g_moves g) (length ms) m ltac:(lia)) as (l' & El). rewrite El. destruct (store_spec _ _ _ _ El) as (A1 & A2).
    set (g' := {| g_id := g_id g; g_board := b'; g_moves := l'; g_xtype := g_xtype g; g_otype := g_otype g; g_xid := g_xid g; g_xclaimed := g_xclaimed g; g_oid := g_oid g; g_oclaimed := g_oclaimed g; g_asked := g_asked g |}).
    assert (game_ok g' (m :: ms)) as G.
    { split; [exact B|]. split; [cbn; lia|]. split; [|cbn; auto]. cbn [g_moves g' length]. rewrite A2, F. cbn [rev]. rewrite map_app. reflexivity. }
    exists true, (if negb (k_over K b') && true then ask g' else g'). split; [reflexivity|]. split; [split; [intros _; split; [exact E|apply Lg; reflexivity]|reflexivity]|].
    destruct (negb _ && true); (split; [repeat split|]); (split; [reflexivity|]); (split; [reflexivity|]); exact G.
  - subst b'. rewrite andb_false_r. exists false, g. split; [destruct g; reflexivity|].
    split; [split; [discriminate|intros (_ & A); apply Lg in A; discriminate]|]. split; [repeat split|]. auto.
Qed.
End Games.

(** ** Histories *)
Ltac split_do H :=
  repeat match type of H with
  | bind ?x _ = Ret _ => let E := fresh "E" in destruct x eqn:E; cbn [bind] in H; [|discriminate H..]
  | (match ?x with _ => _ end) = Ret _ => let E := fresh "E" in destruct x eqn:E; try discriminate H
  end.

Section Effects.
Context {K : kind}.
Implicit Types (sv : server K).

(** What a handler may do to the games. *)
Inductive effect (e : env) (m r : list Z) sv : server K -> Prop :=
| eff_none : effect e m r sv sv
| eff_new : forall games i ms id xt x ot o n, equals_i m "POST" = Ret true -> find_slot (s_games sv) = Some (games, i, ms) ->
    0 <= id < 2 ^ 32 -> 0 <= x < 2 ^ 32 -> 0 <= o < 2 ^ 32 ->
    effect e m r sv {| s_games := set_game games i (game_reset ms id xt x ot o); s_rand := n |}
| eff_claim : forall id i k g p g', equals_i m "POST" = Ret true -> id <> 0 -> find_game (s_games sv) id = Some (k, g) -> game_claim g i = Some (p, g') ->
    effect e m r sv {| s_games := set_game (s_games sv) k g'; s_rand := s_rand sv |}
| eff_move : forall t id pid moves mv k g ok g', c_str (drop 6 r) = Some t -> scan move_format t = [Number id; Number pid; Text moves] ->
    equals_i (moves ++ [0]) "moves" = Ret true -> equals_i m "POST" = Ret true -> starts_i r "/games" = Ret true -> id <> 0 -> pid <> 0 ->
    find_game (s_games sv) id = Some (k, g) -> player_of g pid <> k_none K -> game_accept g (player_of g pid) mv = Ret (ok, g') ->
    effect e m r sv {| s_games := set_game (s_games sv) k g'; s_rand := s_rand sv |}.

Lemma rand_range : forall e n, 0 <= rand_id e n < 2 ^ 32.
Proof. intros. unfold rand_id, wrap_u32. apply Z.mod_pos_bound. lia. Qed.
Ltac posted := match goal with E : negb ?a = false, E' : equals_i _ "POST" = Ret ?a |- _ => apply negb_false_iff in E; subst a end.
Lemma create_effect : forall e sv m r s rp, create_game e sv m s = Ret rp -> effect e m r sv (r_server rp).
Proof.
  intros e sv m r s rp H. unfold create_game, answer_with in H. split_do H; try (injection H as <-; apply eff_none).
  all: posted. all: injection H as <-; cbn [r_server]; eapply eff_new; try eassumption; try apply rand_range; try lia.
  all: repeat match goal with E : (if is_external ?t then _ else _) = _ |- _ => destruct (is_external t); injection E as <- <- end; try apply rand_range; try lia.
Qed.
Lemma claim_effect : forall e sv m r s id i rp, claim_player e sv m s id i = Ret rp -> effect e m r sv (r_server rp).
Proof.
  intros e sv m r s id i rp H. unfold claim_player, answer_with in H. split_do H; try (injection H as <-; apply eff_none). posted.
  match goal with E : orb _ _ = false |- _ => apply orb_false_iff in E; destruct E as (Ei & Ep) end.
  injection H as <-. cbn [r_server]. eapply eff_claim; try eassumption. lia.
Qed.
Lemma move_effect : forall e sv m r s t id pid moves rp, c_str (drop 6 r) = Some t -> scan move_format t = [Number id; Number pid; Text moves] -> starts_i r "/games" = Ret true ->
  accept_move e sv m s id pid moves = Ret rp -> effect e m r sv (r_server rp).
Proof.
  intros e sv m r s t id pid moves rp Ec Es Eg H. unfold accept_move, answer_with in H. split_do H; try (injection H as <-; apply eff_none).
  all: injection H as <-; cbn [r_server].
  all: match goal with E : orb _ _ = false |- _ => apply orb_false_iff in E; destruct E as (Ei & Ep) end.
  all: match goal with E : negb ?a = false, E' : equals_i _ "POST" = Ret ?a |- _ => apply negb_false_iff in E; subst a end.
  all: match goal with E : negb ?a = false, E' : equals_i _ "moves" = Ret ?a |- _ => apply negb_false_iff in E; subst a end.
  all: eapply eff_move; try eassumption; lia.
Qed.
Lemma games_effect : forall e sv m r s rp, starts_i r "/games" = Ret true -> process_games e sv m r s = Ret rp -> effect e m r sv (r_server rp).
Proof.
  intros e sv m r s rp G H. unfold process_games in H.
  destruct (equals_i (drop 6 r) "") as [[|]| | |]; try discriminate H; cbn [bind] in H; [eapply create_effect, H|].
  destruct (c_str (drop 6 r)) as [t|] eqn:Ec; [|discriminate H].
  assert (forall id since, get_moves e sv m s id since = Ret rp -> effect e m r sv (r_server rp)) as Gm.
  { clear. intros id since H. unfold get_moves, answer_with in H. split_do H; injection H as <-; apply eff_none. }
  set (X := match scan since_format t with [Number id; Number since] => get_moves e sv m s id since | _ => answer_with sv s [] end) in *.
  assert (X = Ret rp -> effect e m r sv (r_server rp)) as HX.
  { unfold X, answer_with. destruct (scan since_format t) as [|[id|?] [|[i|?] [|? ?]]]; try apply Gm; intros E; injection E as <-; apply eff_none. }
  clearbody X. set (Y := match scan player_format t with [Number id; Number i] => claim_player e sv m s id i | _ => X end) in *.
  assert (Y = Ret rp -> effect e m r sv (r_server rp)) as HY.
  { unfold Y. destruct (scan player_format t) as [|[id|?] [|[i|?] [|? ?]]]; try exact HX. apply claim_effect. }
  clearbody Y. destruct (scan move_format t) as [|[id|?] [|[pid|?] [|[?|mv] [|? ?]]]] eqn:Es; try (apply HY, H). eapply move_effect; eassumption.
Qed.
Lemma rest_effect : forall e sv m r s rp, process_rest e sv m r s = Ret rp -> effect e m r sv (r_server rp).
Proof.
  intros e sv m r s rp H. unfold process_rest in H. destruct (starts_i r "/games") as [[|]| | |] eqn:G; try discriminate H; cbn [bind] in H; [eapply games_effect; eassumption|].
  unfold process_shutdown, answer_with in H. split_do H; injection H as <-; apply eff_none.
Qed.
Lemma serve_effect : forall c e sv l a sv' , serve c e sv l = Ret (a, sv') -> sv' = sv \/
  exists m path s r, read_line (c_config c) (c_mb c) (c_pb c) (c_qb c) l = Ret (m, path, s) /\ r = drop (match root_dir (c_config c) with Some root => zlen root | None => 0 end) path /\ effect e m r sv sv'.
Proof.
  intros c e sv l a sv' H. unfold serve in H. destruct (read_line _ _ _ _ l) as [[[m path] s]| | |]; try discriminate H. cbn [bind] in H.
  set (r := drop _ path) in *. destruct (is_file_request (c_config c) m r) as [[|]|]; try discriminate H.
  - left. destruct (file_request _ _ _) as [[? ?]| | |]; try discriminate H. cbn [bind] in H. destruct (write_calls _ _ _); try discriminate H. injection H as _ <-. reflexivity.
  - right. destruct (process_rest e sv m r s) as [rp| | |] eqn:E; try discriminate H. cbn [bind] in H. destruct (write_calls _ _ _); try discriminate H. injection H as _ <-.
    exists m, path, s, r. split; [reflexivity|]. split; [reflexivity|]. eapply rest_effect, E.
Qed.
End Effects.

(** ** The request line *)
Lemma equals_i_spec : forall s x (t : string), no_nul s -> no_nul (b t) -> exists v, equals_i (s ++ 0 :: x) t = Ret v /\ (v = true <-> same_i s (b t)).
Proof. intros s x t Hs Ht. destruct (equal_i s x t Hs Ht) as (v & E & S). exists v. unfold equals_i. rewrite E. auto. Qed.
Lemma equals_spec : forall s x (t : string), no_nul s -> no_nul (b t) -> exists v, equals (s ++ 0 :: x) t = Ret v /\ (v = true <-> s = b t).
Proof.
  intros s x t Hs Ht. unfold equals. destruct (are_equal_no_oob true s (b t) x [] (unbounded (Some (s ++ 0 :: x))) Hs Ht) as (v & E).
  unfold are_equal. unfold c_string, lit, b in *. rewrite E. exists v. split; [reflexivity|].
  rewrite <- (are_equal_spec s (bytes_of_string t) x [] Hs Ht). unfold are_equal, c_string. rewrite E. split; [intros ->; reflexivity|intros [= ->]; reflexivity].
Qed.
Lemma map_lower_firstn : forall n (s : list Z), map lower (firstn n s) = firstn n (map lower s).
Proof. induction n as [|n IH]; intros [|c s]; cbn [firstn map]; [reflexivity..|]. rewrite IH. reflexivity. Qed.
Lemma starts_i_spec : forall s x (t : string), no_nul s -> no_nul (b t) -> exists v, starts_i (s ++ 0 :: x) t = Ret v /\ (v = true <-> exists p q, s = p ++ q /\ same_i p (b t)).
Proof.
  intros s x t Hs Ht. unfold starts_i. destruct (are_equal_no_oob false s (b t) x [] (String.length t) Hs Ht) as (v & E).
  unfold are_equal_i_n. unfold c_string, lit in *. unfold b in *. rewrite E. exists v. split; [reflexivity|].
  pose proof (are_equal_i_n_spec s (bytes_of_string t) x [] (String.length t) Hs Ht) as Sp. unfold are_equal_i_n, c_string in Sp. rewrite E in Sp.
  assert (Len : length (bytes_of_string t) = String.length t) by (clear; induction t; cbn; congruence).
  rewrite (firstn_all2 (bytes_of_string t)) in Sp by lia.
  split.
  - intros ->. exists (firstn (String.length t) s), (skipn (String.length t) s). split; [symmetry; apply firstn_skipn|apply Sp; reflexivity].
  - intros (p & q & -> & S). assert (Some v = Some true) as K; [|congruence]. apply Sp. unfold same_i in S.
    pose proof (f_equal (@length Z) S) as Le. rewrite !map_length in Le. rewrite <- Len, <- Le, firstn_app, Nat.sub_diag, firstn_all. cbn [firstn]. rewrite app_nil_r. exact S.
Qed.

(** Whatever the bytes are, the method and the resource were taken from their beginning. *)
Lemma space_blank : forall sp, Forall (fun c => is_space c = true) sp -> Forall blank sp.
Proof. intros sp H. eapply Forall_impl; [|exact H]. unfold is_space, blank. intros; lia. Qed.
Lemma method_eff : forall m0 s, 2 <= zlen m0 < 2 ^ 64 -> hnext s = method ->
  exists t sp x s', read_call request method m0 s = Ret (t ++ 0 :: x, s') /\ no_nul t /\ Forall blank sp /\ hin s = t ++ sp ++ hin s' /\ hnext s' = resource.
Proof.
  intros m0 s H N. unfold read_call. rewrite N. cbn [item_eqb get_item]. unfold get_method. destruct (pre_init m0) as (x & Hp); [lia|].
  destruct (get_chars_eff http_is_token m0 [] x m0 (zlen m0) s) as (t & m & s1 & R & (Q0 & Q1) & Q2 & Q3 & Q4 & Q5 & Q6); auto; try lia.
  { rewrite zlen_nil; lia. }
  rewrite zlen_nil in R. rewrite R. cbn [bind app] in *. destruct (skip_spaces_eff s1) as (sp & s2 & R2 & I2 & S2 & G2 & F2). rewrite R2. cbn [bind].
  exists t, sp, (drop (zlen t + 1) m0), (set_gstate s2 (zlen t) resource). rewrite Q1. split; [reflexivity|].
  split; [apply text_no_nul; eauto using class_text, token_text|]. split; [apply space_blank, F2|]. split; [|reflexivity]. change (hin (set_gstate s2 (zlen t) resource)) with (hin s2). rewrite Q4, I2. reflexivity.
Qed.
Lemma resource_eff : forall m0 s, 2 <= zlen m0 < 2 ^ 64 -> hnext s = resource ->
  exists t x s', read_call request resource m0 s = Ret (t ++ 0 :: x, s') /\ no_nul t /\ Forall printable t /\ (exists u, hin s = t ++ u) /\ hnext s' = protocol.
Proof.
  intros m0 s H N. unfold read_call. rewrite N. cbn [item_eqb get_item]. unfold get_resource. destruct (pre_init m0) as (x & Hp); [lia|]. rewrite wrap_small by lia.
  destruct (get_chars_eff is_abcprint m0 [] x m0 (zlen m0 - 1) s) as (t & m & s1 & R & Q1 & Q2 & Q3 & Q4 & Q5 & Q6); auto; try lia.
  { rewrite zlen_nil; lia. }
  rewrite zlen_nil in R. rewrite R. cbn [bind app] in *. pose proof (zlen_nonneg _ t).
  destruct Q1 as (Lt & ->). destruct (drop_step m0 (zlen t + 1)) as (y & E); [lia|lia|]. rewrite E.
  change (t ++ 0 :: y :: drop (zlen t + 1 + 1) m0) with (t ++ [0] ++ y :: drop (zlen t + 1 + 1) m0).
  rewrite app_assoc. change (y :: drop (zlen t + 1 + 1) m0) with ([y] ++ drop (zlen t + 1 + 1) m0).
  unfold store. replace (zlen t + 1) with (zlen (t ++ [0])) by (rewrite zlen_app; reflexivity). rewrite write_at_app by reflexivity. rewrite <- app_assoc.
cbn [bind]. destruct (skip_spaces_eff s1) as (sp & s2 & R2 & I2 & S2 & G2 & F2). rewrite R2. cbn [bind].
  eexists t, _, _. split; [reflexivity|]. split; [apply text_no_nul; eauto using class_text, abcprint_text|]. split; [eapply Forall_impl; [intros a; apply printable_iff|exact Q3]|]. split; [exists (hin s1); exact Q4|reflexivity].
Qed.
Lemma line_bytes : forall c root mb pb qb l, root_dir c = Some root -> arrays root mb pb qb ->
  exists m sp r rest x y s, read_line c mb pb qb l = Ret (m ++ 0 :: x, root ++ r ++ 0 :: y, s) /\ no_nul m /\ no_nul r /\
    l = m ++ sp ++ r ++ rest /\ Forall blank sp /\ Forall printable r.
Proof.
  intros c root mb pb qb l Hr Ha. pose proof (rb_len root mb pb qb Ha) as (RL & _). destruct Ha as (M & P & Q & _ & Rl). unfold method_size, resource_size, protocol_size in *.
  destruct (method_eff mb (http_reader request l) ltac:(lia) eq_refl) as (m & sp & x & s1 & E1 & Nm & Fs & I1 & N1).
  destruct (resource_eff _ s1 RL N1) as (r & y & s2 & E2 & Nr & Pr & (u & I2) & N2).
  destruct (readers_fit request protocol qb s2) as (q & s3 & E3 & _); [discriminate|exact N2|lia|].
  exists m, sp, r, u, x, y, s3. split.
  - unfold read_line. rewrite E1. cbn [bind]. rewrite Hr. destruct (Z.ltb_spec (zlen pb) (zlen root + 1)); [lia|]. rewrite E2. cbn [bind]. rewrite E3. reflexivity.
  - split; [exact Nm|]. split; [exact Nr|]. split; [|split; [exact Fs|exact Pr]]. change l with (hin (http_reader request l)). rewrite I1, I2. reflexivity.
Qed.

(** ** std::sscanf *)
Lemma digit_dec : forall c, (48 <=? c) && (c <=? 57) = true <-> digit c.
Proof. intros. unfold digit. lia. Qed.
Lemma scan_digits_spec : forall s v, 0 <= v -> exists ds rest, s = ds ++ rest /\ Forall digit ds /\
  scan_digits s (Z.min v (2 ^ 64)) = (Z.min (fold_left (fun a c => 10 * a + (c - 48)) ds v) (2 ^ 64), rest) /\
  (match s with c :: _ => digit c -> ds <> [] | [] => True end).
Proof.
  induction s as [|c s IH]; intros v V; cbn [scan_digits]; [exists [], []; auto|].
  destruct ((48 <=? c) && (c <=? 57)) eqn:D.
  - pose proof (proj1 (digit_dec c) D) as Dc. unfold digit in Dc. destruct (IH (10 * v + (c - 48)) ltac:(lia)) as (ds & rest & -> & F & E & _).
    exists (c :: ds), rest. split; [reflexivity|]. split; [constructor; assumption|]. split; [|discriminate].
    cbn [fold_left]. rewrite <- E. f_equal. change (2 ^ 64) with 18446744073709551616. lia.
  - exists [], (c :: s). split; [reflexivity|]. split; [constructor|]. split; [reflexivity|]. intros X. apply digit_dec in X. congruence.
Qed.
Definition no_space (s : list Z) : Prop := Forall printable s.
Lemma skip_none : forall s, no_space s -> skip_scan_spaces s = s.
Proof. intros [|c s] H; [reflexivity|]. inversion H as [|? ? P _]; subst. cbn [skip_scan_spaces]. unfold printable in P. unfold scan_space. destruct (_ || _) eqn:E; [lia|reflexivity]. Qed.
Lemma digits_nonneg : forall ds v, Forall digit ds -> 0 <= v -> 0 <= fold_left (fun a c => 10 * a + (c - 48)) ds v.
Proof. induction ds as [|d ds IH]; intros v F V; cbn [fold_left]; [exact V|]. inversion F as [|? ? D F']; subst. apply IH; [exact F'|]. unfold digit in D. lia. Qed.
Lemma some_pair : forall A B (a c : A) (x y : B), Some (a, x) = Some (c, y) -> a = c /\ x = y.
Proof. intros A B a c x y H. injection H. auto. Qed.
Lemma scan_u_spec : forall s n s', no_space s -> scan_u s = Some (n, s') -> exists t, s = t ++ s' /\ u32_text t n.
Proof.
  intros s n s' Hs H. unfold scan_u in H. rewrite (skip_none s Hs) in H.
  assert (K : forall (neg : bool) sign q, s = sign ++ q -> (sign = [] \/ sign = [43] \/ sign = [45]) -> (neg = true <-> sign = [45]) ->
    match q with c :: _ => if (48 <=? c) && (c <=? 57) then let '(v, s') := scan_digits q 0 in Some (wrap_u32 (if v =? 2 ^ 64 then 2 ^ 64 - 1 else if neg then - v else v), s') else None | [] => None end = Some (n, s') ->
    exists t, s = t ++ s' /\ u32_text t n).
  { intros neg sign q Es Hsign Hneg E. destruct q as [|c q]; [discriminate|]. destruct ((48 <=? c) && (c <=? 57)) eqn:D; [|discriminate].
    destruct (scan_digits_spec (c :: q) 0 ltac:(lia)) as (ds & rest & Eq & F & Sd & Nd). change (Z.min 0 (2 ^ 64)) with 0 in Sd. rewrite Sd in E. cbv beta iota in E. apply some_pair in E as (En & <-).
    apply digit_dec in D. specialize (Nd D). exists (sign ++ ds). split; [rewrite Es, Eq, app_assoc; reflexivity|].
    exists sign, ds. split; [reflexivity|]. split; [exact Hsign|]. split; [exact Nd|]. split; [exact F|].
    pose proof (digits_nonneg ds 0 F ltac:(lia)) as V. change (fold_left (fun a c => 10 * a + (c - 48)) ds 0) with (value_of ds) in *. rewrite <- En. unfold wrap_u32.
    destruct (Z.ltb_spec (value_of ds) (2 ^ 64)) as [Lt|Ge].
    - rewrite Z.min_l by lia. destruct (Z.eqb_spec (value_of ds) (2 ^ 64)); [lia|]. f_equal. destruct (list_eq_dec Z.eq_dec sign [45]) as [S|S].
      + rewrite (proj2 Hneg S). reflexivity.
      + destruct neg; [exfalso; apply S, Hneg; reflexivity|reflexivity].
    - rewrite Z.min_r by lia. rewrite Z.eqb_refl. reflexivity. }
  destruct s as [|c q]; [discriminate|].
  destruct (Z.eq_dec c 45) as [->|N1]; [apply (K true [45] q); auto; tauto|].
  destruct (Z.eq_dec c 43) as [->|N2]; [apply (K false [43] q); auto; split; discriminate|].
  apply (K false [] (c :: q)); auto; [split; discriminate|].
  destruct c as [|p|p]; try exact H; do 6 (destruct p as [p|p|]; try exact H); congruence.
Qed.
Lemma scan_char_list : forall p f s x l, scan (map Char p ++ f) s = x :: l -> exists s', s = p ++ s' /\ scan f s' = x :: l.
Proof.
  induction p as [|c p IH]; intros f s x l H; [exists s; auto|]. cbn [map app scan] in H. destruct s as [|c' s]; [discriminate|].
  destruct (Z.eqb_spec c' c) as [->|]; [|discriminate]. destruct (IH f s x l H) as (s' & -> & E). exists s'. auto.
Qed.
Lemma scan_number : forall f s x l, no_space s -> scan (U :: f) s = Number x :: l -> exists t s', s = t ++ s' /\ u32_text t x /\ scan f s' = l.
Proof.
  intros f s x l Hs H. cbn [scan] in H. destruct (scan_u s) as [[n s']|] eqn:E; [|discriminate]. injection H as <- H. destruct (scan_u_spec s n s' Hs E) as (t & -> & T). eauto.
Qed.
Lemma scan_chars_prefix : forall n s, exists s', s = scan_chars n s ++ s'.
Proof.
  induction n as [|n IH]; intros s; [exists s; reflexivity|]. destruct s as [|c s]; [exists []; reflexivity|]. cbn [scan_chars]. destruct (scan_space c); [exists (c :: s); reflexivity|].
  destruct (IH s) as (s' & E). exists s'. cbn [app]. rewrite <- E. reflexivity.
Qed.
Lemma no_space_tail : forall p s, no_space (p ++ s) -> no_space s.
Proof. intros p s H. apply Forall_app in H. tauto. Qed.
Lemma scan_move : forall t id pid mv, no_space t -> scan move_format t = [Number id; Number pid; Text mv] ->
  exists t1 t2 rest, t = b "/" ++ t1 ++ b "/players/" ++ t2 ++ b "/" ++ mv ++ rest /\ u32_text t1 id /\ u32_text t2 pid.
Proof.
  intros t id pid mv Hs H. unfold move_format, chars in H.
  apply (scan_char_list (b "/")) in H as (s1 & -> & H). apply no_space_tail in Hs.
  apply (scan_number _ s1) in H as (t1 & s2 & -> & T1 & H); [|exact Hs]. apply no_space_tail in Hs.
  apply (scan_char_list (b "/players/")) in H as (s3 & -> & H). apply no_space_tail in Hs.
  apply (scan_number _ s3) in H as (t2 & s4 & -> & T2 & H); [|exact Hs]. apply no_space_tail in Hs.
  apply (scan_char_list (b "/")) in H as (s5 & -> & H). apply no_space_tail in Hs.
  cbn [scan] in H. rewrite (skip_none s5 Hs) in H. destruct (scan_chars_prefix 6 s5) as (s6 & E6). destruct (scan_chars 6 s5) as [|c q] eqn:Eq; [discriminate|]. injection H as <-.
  exists t1, t2, s6. split; [|auto]. rewrite E6. rewrite <- ?app_assoc. reflexivity.
Qed.

(** ** What one event does *)
Section Steps.
Variables (K : kind) (R : rules K) (rep : k_board K -> list (Z * Z) -> Prop).
Hypothesis L : laws K R rep.

Definition server_ok (sv : server K) : Prop :=
  (length (s_games sv) <= max_game_count)%nat /\ Forall (fun g => exists ms, game_ok K rep g ms) (s_games sv).
Lemma new_ok : server_ok new_server.
Proof. split; [cbn; lia|constructor]. Qed.

Lemma set_length : forall (l : list (game K)) i g, length (set_game l i g) = length l.
Proof. induction l as [|x l IH]; intros [|i] g; cbn [set_game length]; auto. Qed.
Lemma set_same : forall (l : list (game K)) i g, (i < length l)%nat -> nth_error (set_game l i g) i = Some g.
Proof. induction l as [|x l IH]; intros [|i] g H; cbn [set_game length nth_error] in *; [lia|lia|reflexivity|]. apply IH. lia. Qed.
Lemma set_other : forall (l : list (game K)) i j g, i <> j -> nth_error (set_game l i g) j = nth_error l j.
Proof. induction l as [|x l IH]; intros [|i] [|j] g H; cbn [set_game nth_error] in *; try congruence. apply IH. congruence. Qed.
Lemma set_Forall : forall (P : game K -> Prop) l i g, Forall P l -> P g -> Forall P (set_game l i g).
Proof.
  intros P l. induction l as [|x l IH]; intros i g H G; [destruct i; constructor|]. inversion H; subst.
  destruct i; cbn [set_game]; constructor; auto.
Qed.
Lemma find_game_spec : forall (l : list (game K)) id k g, find_game l id = Some (k, g) -> nth_error l k = Some g /\ g_id g = id.
Proof.
  induction l as [|x l IH]; intros id k g H; [discriminate|]. cbn [find_game] in H. destruct (Z.eqb_spec (g_id x) id) as [E|E].
  - injection H as <- <-. auto.
  - destruct (find_game l id) as [[k' g']|] eqn:F; [|discriminate]. injection H as <- <-. apply (IH id k' g' F).
Qed.
Lemma first_over_spec : forall (l : list (game K)) i, first_over l = Some i -> exists g, nth_error l i = Some g /\ k_over K (g_board g) = true.
Proof.
  induction l as [|x l IH]; intros i H; [discriminate|]. cbn [first_over] in H. destruct (k_over K (g_board x)) eqn:E.
  - injection H as <-. exists x. auto.
  - destruct (first_over l) as [j|]; [|discriminate]. injection H as <-. apply IH. reflexivity.
Qed.
Lemma find_slot_spec : forall l games i ms, find_slot l = Some (games, i, ms) ->
  ((length l < max_game_count)%nat /\ i = length l /\ length ms = k_cells K /\ exists g0, games = l ++ [g0]) \/
  (games = l /\ exists g, nth_error l i = Some g /\ k_over K (g_board g) = true /\ ms = g_moves g).
Proof.
  intros l games i ms H. unfold find_slot in H. destruct (Nat.ltb_spec (length l) max_game_count) as [A|A].
  - injection H as <- <- <-. left. split; [exact A|]. split; [reflexivity|]. split; [apply repeat_length|eauto].
  - destruct (first_over l) as [j|] eqn:F; [|discriminate]. destruct (first_over_spec l j F) as (g & N & O). rewrite N in H. injection H as <- <- <-. right. split; [reflexivity|]. eauto.
Qed.
Lemma ok_at : forall sv i g, server_ok sv -> nth_error (s_games sv) i = Some g -> exists ms, game_ok K rep g ms.
Proof. intros sv i g (_ & F) H. rewrite Forall_forall in F. apply F. eapply nth_error_In, H. Qed.

Lemma ok_transcript : forall g ms, game_ok K rep g ms -> transcript g ms.
Proof. intros g ms (P & _ & F & _). split; [apply (l_count _ _ _ L), P|exact F]. Qed.
Lemma reset_untouched : forall l id xt x ot o, untouched R (game_reset l id xt x ot o).
Proof.
  intros. destruct (l_shows _ _ _ L _ _ (l_reset _ _ _ L)) as (S0 & _). pose proof (l_count _ _ _ L _ _ (l_reset _ _ _ L)) as C.
  unfold game_reset, start_if_full. destruct (_ && _); (split; [exact S0|]); (split; [exact C|reflexivity]).
Qed.
Lemma evolves_none : forall may sv, evolves R may sv sv.
Proof.
  intros may sv. split; [lia|]. split; [intros i g H; exists g; split; [exact H|constructor]|]. split; [|exists O; auto].
  intros i g Hi N. assert (nth_error (s_games sv) i <> None) as X by congruence. apply nth_error_Some in X. lia.
Qed.
Lemma evolves_set : forall may sv i g g' n, nth_error (s_games sv) i = Some g -> change R may g g' ->
  evolves R may sv {| s_games := set_game (s_games sv) i g'; s_rand := n |}.
Proof.
  intros may sv i g g' n N C. split; [cbn; rewrite set_length; lia|]. split.
  - intros j gj Hj. destruct (Nat.eq_dec i j) as [<-|D].
    + rewrite N in Hj. injection Hj as <-. exists g'. split; [|exact C]. apply set_same. apply nth_error_Some. congruence.
    + exists gj. split; [cbn [s_games]; rewrite set_other by congruence; exact Hj|constructor].
  - split.
    { intros j gj Hj Nj. assert (nth_error (s_games {| s_games := set_game (s_games sv) i g'; s_rand := n |}) j <> None) as X by congruence.
      apply nth_error_Some in X. cbn [s_games] in X. rewrite set_length in X. lia. }
    exists i. intros j D. cbn [s_games]. apply set_other. congruence.
Qed.
Lemma new_game_change : forall may g ms xt x ot o id l, game_ok K rep g ms -> k_over K (g_board g) = true -> change R may g (game_reset l id xt x ot o).
Proof.
  intros may g ms xt x ot o id l (P & _) O. destruct (l_shows _ _ _ L _ _ P) as (S & Q).
  apply (change_new R may g (game_reset l id xt x ot o) ms Q S); [apply (l_over _ _ _ L _ _ P), O|apply reset_untouched].
Qed.
Lemma claim_change : forall may g i p g', game_claim g i = Some (p, g') -> change R may g g'.
Proof.
  intros may g i p g' E. unfold game_claim in E. destruct (i =? 0).
  - destruct (g_xclaimed g) eqn:X; [discriminate|]. injection E as <- <-. apply change_claim; unfold start_if_full; destruct (_ && _); cbn; auto; repeat split.
  - destruct (g_oclaimed g) eqn:X; [discriminate|]. injection E as <- <-. apply change_claim; unfold start_if_full; destruct (_ && _); cbn; auto; repeat split.
Qed.
Lemma accept_change : forall (may : game K -> Z -> Prop) g ms pid m ok g', game_ok K rep g ms -> game_accept g pid m = Ret (ok, g') ->
  (pid = k_current K (g_board g) -> may g pid) -> change R may g g' /\ exists ms', game_ok K rep g' ms'.
Proof.
  intros may g ms pid m ok g' G E M. destruct (accept_ok K R rep L g ms pid m G) as (ok' & g'' & E' & A & I & X & O & G').
  rewrite E in E'. injection E' as <- <-. destruct ok.
  - split; [|eauto]. destruct (proj1 A eq_refl) as (Ep & Lg). pose proof G as (P & _). destruct (l_shows _ _ _ L _ _ P) as (S & Q).
    pose proof G' as (P' & _). destruct (l_shows _ _ _ L _ _ P') as (S' & Q').
    assert (k_over K (g_board g) = false) as Ov.
    { destruct (k_over K (g_board g)) eqn:Ov; [|reflexivity]. exfalso. 
      exact (l_legal _ _ _ L _ _ Lg (proj1 (l_over _ _ _ L _ _ P) Ov)). }
    apply (change_move R may g g' m ms); try assumption; try (apply ok_transcript; assumption). rewrite <- (l_current _ _ _ L _ _ P Ov), <- Ep. apply M, Ep.
  - subst g'. split; [constructor|eauto].
Qed.

(** The games stay as they have to be, whatever the requests are. *)
Lemma effect_ok : forall e m r sv sv', server_ok sv -> effect e m r sv sv' -> server_ok sv'.
Proof.
  intros e m r sv sv' (N & F) H. destruct H.
  - split; assumption.
  - match goal with H : find_slot _ = _ |- _ => destruct (find_slot_spec _ _ _ _ H) as [(A & -> & Lm & g0 & ->)|(-> & g & Ng & O & ->)] end.
    + split; cbn [s_games]; [rewrite set_length, app_length; cbn [length]; unfold max_game_count in *; lia|].
      assert (forall l, Forall (fun g => exists ms, game_ok K rep g ms) l -> forall g0 g, (exists ms, game_ok K rep g ms) -> Forall (fun g => exists ms, game_ok K rep g ms) (set_game (l ++ [g0]) (length l) g)) as X.
      { clear. intros l. induction l as [|y l IH]; intros H g0 g G; cbn [app length set_game]; [repeat constructor; exact G|]. inversion H; subst. constructor; auto. }
      apply X; [exact F|]. eexists. eapply reset_ok; eassumption.
    + split; cbn [s_games]; [rewrite set_length; exact N|]. apply set_Forall; [exact F|]. rewrite Forall_forall in F. destruct (F g (nth_error_In _ _ Ng)) as (ms & _ & Lm & _).
      eexists. eapply reset_ok; eassumption.
  - match goal with H : find_game _ _ = _ |- _ => destruct (find_game_spec _ _ _ _ H) as (Ng & _) end. split; cbn [s_games]; [rewrite set_length; exact N|]. apply set_Forall; [exact F|].
    rewrite Forall_forall in F. destruct (F g (nth_error_In _ _ Ng)) as (ms & G). exists ms. eapply claim_ok; eassumption.
  - match goal with H : find_game _ _ = _ |- _ => destruct (find_game_spec _ _ _ _ H) as (Ng & _) end. split; cbn [s_games]; [rewrite set_length; exact N|]. apply set_Forall; [exact F|].
    rewrite Forall_forall in F. destruct (F g (nth_error_In _ _ Ng)) as (ms & G).
    match goal with H : game_accept _ _ _ = _ |- _ => destruct (accept_change (fun _ _ => True) g ms _ _ _ _ G H) as (_ & X); [auto|exact X] end.
Qed.
Lemma step_ok : forall sv ev sv', server_ok sv -> step sv ev = Ret sv' -> server_ok sv'.
Proof.
  intros sv ev sv' H E. destruct ev as [c e l|i pid m]; cbn [step] in E.
  - destruct (serve c e sv l) as [[a sv1]| | |] eqn:Es; try discriminate E. injection E as <-. apply serve_effect in Es as [->|(mm & path & s & r & _ & _ & Ef)]; [exact H|]. eapply effect_ok; eassumption.
  - destruct (nth_error (s_games sv) i) as [g|] eqn:N; [|injection E as <-; exact H]. destruct (engine_seat g pid); [|injection E as <-; exact H].
    destruct (game_accept g pid m) as [[ok g']| | |] eqn:A; try discriminate E. injection E as <-. destruct H as (Ln & F). destruct (ok_at sv i g (conj Ln F) N) as (ms & G).
    destruct (accept_change (fun _ _ => True) g ms pid m ok g' G A) as (_ & X); [auto|]. split; cbn [s_games]; [rewrite set_length; exact Ln|]. apply set_Forall; [exact F|exact X].
Qed.
Lemma steps_ok : forall l sv sv', server_ok sv -> steps sv l = Ret sv' -> server_ok sv'.
Proof.
  induction l as [|ev l IH]; intros sv sv' H E; cbn [steps] in E; [injection E as <-; exact H|].
  destruct (step sv ev) as [sv1| | |] eqn:S; try discriminate E. cbn [bind] in E. eapply IH; [|exact E]. eapply step_ok; eassumption.
Qed.

(** The seat a nonzero id belongs to. *)
Lemma player_seat : forall (g : game K) pid, player_of g pid <> k_none K -> (player_of g pid = k_x K \/ player_of g pid = k_o K) /\ seat_id g (player_of g pid) = pid.
Proof.
  intros g pid N. unfold player_of, seat_id in *. destruct (l_seats _ _ _ L) as (D & _). destruct (Z.eqb_spec pid (g_xid g)) as [E|E].
  - rewrite Z.eqb_refl. auto.
  - destruct (Z.eqb_spec pid (g_oid g)) as [E'|E']; [|congruence]. destruct (Z.eqb_spec (k_o K) (k_x K)); [congruence|auto].
Qed.
Lemma engine_type : forall (g : game K) pid, engine_seat g pid = true -> seat_type g pid <> external.
Proof.
  intros g pid H. unfold engine_seat, seat_type in *. destruct (l_seats _ _ _ L) as (D & _). destruct (Z.eqb_spec pid (k_x K)) as [E|E].
  - replace (pid =? k_o K) with false in H by (symmetry; apply Z.eqb_neq; congruence). destruct (g_xtype g); cbn in H; congruence.
  - destruct (g_otype g); cbn in H; [rewrite andb_false_r in H; discriminate|discriminate..].
Qed.
Lemma step_evolves : forall sv ev sv', server_ok sv -> wired ev -> step sv ev = Ret sv' -> evolves R (may_play ev) sv sv'.
Proof.
  intros sv ev sv' H Rd E. destruct ev as [c e l|i pid m]; cbn [step] in E.
  - destruct (serve c e sv l) as [[a sv1]| | |] eqn:Es; try discriminate E. injection E as <-. apply serve_effect in Es as [->|(mm & path & s & r & El & Er & Ef)]; [apply evolves_none|].
    destruct Rd as (root & Hr & Ha). destruct (line_bytes _ _ _ _ _ l Hr Ha) as (m & sp & rr & rest & x & y & s' & El' & Nm & Nr & Eb & Fs & Pr).
    rewrite El in El'. injection El' as -> -> ->. rewrite Hr, drop_app_exact in Er. subst r.
    destruct Ef.
    + apply evolves_none.
    + match goal with H : find_slot _ = _ |- _ => destruct (find_slot_spec _ _ _ _ H) as [(A & -> & Lm & g0 & ->)|(-> & g & Ng & O & ->)] end.
      * split; [cbn [s_games]; rewrite set_length, app_length; lia|]. split.
        { intros j g Hj. exists g. split; [|constructor]. cbn [s_games]. assert (j < length (s_games sv))%nat by (apply nth_error_Some; congruence).
          rewrite set_other by lia. rewrite nth_error_app1 by lia. exact Hj. }
        split.
        { intros j g Hj Nj. cbn [s_games] in Nj. assert (j = length (s_games sv)) as ->.
          { assert (nth_error (set_game (s_games sv ++ [g0]) (length (s_games sv)) (game_reset ms id xt x0 ot o)) j <> None) as X by congruence.
            apply nth_error_Some in X. rewrite set_length, app_length in X. cbn [length] in X. lia. }
          rewrite set_same in Nj by (rewrite app_length; cbn [length]; lia). injection Nj as <-. apply reset_untouched. }
        { exists (length (s_games sv)). intros j D. cbn [s_games]. rewrite set_other by congruence. destruct (Nat.lt_ge_cases j (length (s_games sv))).
          - apply nth_error_app1. lia.
          - rewrite (proj2 (nth_error_None _ _)) by (rewrite app_length; cbn [length]; lia). symmetry. apply nth_error_None. lia. }
      * destruct (ok_at sv i g H Ng) as (ms & G). eapply evolves_set; [exact Ng|]. eapply new_game_change; eassumption.
    + match goal with H : find_game _ _ = _ |- _ => destruct (find_game_spec _ _ _ _ H) as (Ng & _) end. eapply evolves_set; [exact Ng|]. eapply claim_change; eassumption.
    + match goal with H : find_game _ _ = _ |- _ => destruct (find_game_spec _ _ _ _ H) as (Ng & Ei) end. destruct (ok_at sv k g H Ng) as (ms & G). eapply evolves_set; [exact Ng|].
      match goal with H : game_accept _ _ _ = _ |- _ => apply (accept_change (may_play (Request c e l)) g ms _ _ _ _ G H) end. intros _. cbn [may_play].
      destruct (player_seat g pid ltac:(assumption)) as (_ & Sp). rewrite Sp, Ei. split; [assumption|]. split; [assumption|].
      assert (Ng6 : exists gg q, rr = gg ++ q /\ same_i gg (b "/games")).
      { destruct (starts_i_spec rr y "/games" Nr) as (v & E1 & S1); [repeat constructor; discriminate|].
        match goal with H : starts_i _ _ = Ret true |- _ => rewrite H in E1 end. injection E1 as <-. apply S1. reflexivity. }
      destruct Ng6 as (gg & q & -> & Sg). assert (zlen gg = 6) as L6. { unfold same_i in Sg. apply (f_equal (@length Z)) in Sg. rewrite !map_length in Sg. unfold zlen. rewrite Sg. reflexivity. }
      match goal with H : c_str _ = Some _ |- _ => rewrite <- app_assoc, <- L6, drop_app_exact, c_str_app in H; [injection H as <-|apply Forall_app in Nr; tauto] end.
      match goal with H : scan _ _ = _ |- _ => apply scan_move in H as (t1 & t2 & rs & -> & T1 & T2); [|apply Forall_app in Pr; tauto] end.
      exists m, sp, gg, t1, t2, moves, (rs ++ rest). rewrite <- !app_assoc in Eb. split; [exact Eb|].
      destruct (equals_i_spec m x "POST" Nm) as (v & E1 & S1); [repeat constructor; discriminate|].
      match goal with H : equals_i _ "POST" = Ret true |- _ => rewrite H in E1 end. injection E1 as <-. split; [apply S1; reflexivity|]. split; [exact Fs|]. split; [exact Sg|]. split; [exact T1|]. split; [exact T2|].
      assert (no_nul moves) as Nv. { do 6 (apply Forall_app in Nr; destruct Nr as (_ & Nr)). apply Forall_app in Nr. tauto. }
      destruct (equals_i_spec moves [] "moves" Nv) as (v & E1 & S2); [repeat constructor; discriminate|].
      match goal with H : equals_i _ "moves" = Ret true |- _ => rewrite H in E1 end. injection E1 as <-. apply S2. reflexivity.
  - destruct (nth_error (s_games sv) i) as [g|] eqn:N; [|injection E as <-; apply evolves_none]. destruct (engine_seat g pid) eqn:Eg; [|injection E as <-; apply evolves_none].
    destruct (game_accept g pid m) as [[ok g']| | |] eqn:A; try discriminate E. injection E as <-. destruct (ok_at sv i g H N) as (ms & G). eapply evolves_set; [exact N|].
    apply (accept_change (may_play (Engine i pid m)) g ms pid m ok g' G A). intros _. cbn [may_play]. split; [reflexivity|apply engine_type, Eg].
Qed.

(** Only a POST changes anything. *)
Lemma step_posts : forall sv c e l (sv' : server K), wired (Request c e l) -> step sv (Request c e l) = Ret sv' -> sv' = sv \/ posts l.
Proof.
  intros sv c e l sv' (root & Hr & Ha) E. cbn [step] in E. destruct (serve c e sv l) as [[a sv1]| | |] eqn:Es; try discriminate E. injection E as <-.
  apply serve_effect in Es as [->|(mm & path & s & r & El & Er & Ef)]; [auto|].
  destruct (line_bytes _ _ _ _ _ l Hr Ha) as (m & sp & rr & rest & x & y & s' & El' & Nm & Nr & Eb & Fs & Pr).
  rewrite El in El'. injection El' as -> -> ->.
  assert (equals_i (m ++ 0 :: x) "POST" = Ret true -> posts l) as P.
  { intros H. destruct (equals_i_spec m x "POST" Nm) as (v & E1 & S1); [repeat constructor; discriminate|]. rewrite H in E1. injection E1 as <-.
    exists m, (sp ++ rr ++ rest). split; [exact Eb|apply S1; reflexivity]. }
  destruct Ef; auto.
Qed.

(** A game whose id is zero is out of reach; it keeps its slot until it is over. *)
Lemma stuck_effect : forall e m r sv sv', (max_game_count <= length (s_games sv))%nat -> Forall (fun g => g_id g = 0 /\ k_over K (g_board g) = false) (s_games sv) ->
  effect e m r sv sv' -> sv' = sv.
Proof.
  intros e m r sv sv' N F H. destruct H; [reflexivity|exfalso..].
  - match goal with H : find_slot _ = _ |- _ => destruct (find_slot_spec _ _ _ _ H) as [(A & _)|(_ & g & Ng & O & _)] end; [lia|].
    rewrite Forall_forall in F. destruct (F g (nth_error_In _ _ Ng)) as (_ & O'). congruence.
  - match goal with H : find_game _ _ = _ |- _ => destruct (find_game_spec _ _ _ _ H) as (Ng & Ei) end. rewrite Forall_forall in F. destruct (F g (nth_error_In _ _ Ng)) as (I0 & _). congruence.
  - match goal with H : find_game _ _ = _ |- _ => destruct (find_game_spec _ _ _ _ H) as (Ng & Ei) end. rewrite Forall_forall in F. destruct (F g (nth_error_In _ _ Ng)) as (I0 & _). congruence.
Qed.
Lemma stuck_steps : forall evs sv sv', (max_game_count <= length (s_games sv))%nat ->
  Forall (fun g : game K => g_id g = 0 /\ k_over K (g_board g) = false /\ g_xtype g = external /\ g_otype g = external) (s_games sv) ->
  steps sv evs = Ret sv' -> sv' = sv.
Proof.
  induction evs as [|ev evs IH]; intros sv sv' N F E; cbn [steps] in E; [injection E as <-; reflexivity|].
  destruct (step sv ev) as [sv1| | |] eqn:S; try discriminate E. cbn [bind] in E.
  assert (sv1 = sv) as ->; [|eapply IH; eassumption]. destruct ev as [c e l|i pid m]; cbn [step] in S.
  - destruct (serve c e sv l) as [[a sv2]| | |] eqn:Es; try discriminate S. injection S as <-. apply serve_effect in Es as [->|(mm & path & s & r & _ & _ & Ef)]; [reflexivity|].
    eapply stuck_effect; [exact N| |exact Ef]. eapply Forall_impl; [|exact F]. intros g (A & B & _). auto.
  - destruct (nth_error (s_games sv) i) as [g|] eqn:Ng; [|injection S as <-; reflexivity]. rewrite Forall_forall in F. destruct (F g (nth_error_In _ _ Ng)) as (_ & _ & X & O).
    unfold engine_seat in S. rewrite X, O in S. cbn [is_external negb] in S. rewrite !andb_false_r in S. injection S as <-. reflexivity.
Qed.
End Steps.
