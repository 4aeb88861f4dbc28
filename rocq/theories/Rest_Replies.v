(** Proofs for C68-C72, third part: the responses to request lines that fit. *)

From Coq Require Import String ZArith QArith List Bool Lia.
From Verif Require Import Base ListMem Ascii_Model Ascii_Spec Table_Model Http_Model Http_Calls Http_Spec Endpoint_Model Endpoint_Spec Rest_Model Rest_Spec.
From Verif Require Import Http_Proofs Http_Order Http_RoundTrip Endpoint_Proofs Ascii_Proofs Rest_Games Rest_Json Rest_Proofs.
From Verif Require Json_Model Json_Spec Json_Writer.
Import ListNotations.
Open Scope string_scope.
Open Scope list_scope.
Open Scope Z_scope.

(** ** The bodies are JSON texts *)
Section Texts.
Import Json_Spec.
Lemma int_val : forall n, 0 <= n < 2 ^ 64 -> val rfc_char (jint n) (compact (jint n)).
Proof.
  intros n H. constructor. destruct (decimal_spec n H) as (N & D & _ & Z0). exists [], (decimal n), [], []. split; [rewrite !app_nil_r; reflexivity|]. split; [auto|]. split; [split; [exact N|exact D]|]. split; [|auto].
  destruct (Z.eq_dec (hd 0 (decimal n)) 48) as [E|E]; auto.
Qed.
Definition fair (p : list Z * jv) : Prop := str_text rfc_char (fst p) (fst p) /\ val rfc_char (snd p) (compact (snd p)).
Lemma elems_compact : forall l, Forall (fun v => val rfc_char v (compact v)) l -> elems rfc_char l (join_with [44] (map compact l)).
Proof.
  intros l H. induction H as [|v l V F IH]; [apply e_nil; constructor|]. destruct l as [|v' l].
  - cbn [map join_with]. pose proof (e_one rfc_char v (compact v) [] [] ltac:(constructor) V ltac:(constructor)) as E. rewrite app_nil_r in E. exact E.
  - exact (e_cons rfc_char v (compact v) [] [] v' l _ ltac:(constructor) V ltac:(constructor) IH).
Qed.
Lemma members_compact : forall l, Forall fair l -> members rfc_char l (join_with [44] (map (fun p => match p with (n, v) => quoted n ++ [58] ++ compact v end) l)).
Proof.
  intros l H. induction H as [|[n v] l (N & V) F IH]; [apply m_nil; constructor|]. cbn [fst snd] in N, V. destruct l as [|p l].
  - cbn [map join_with]. pose proof (m_one rfc_char n v n (compact v) [] [] [] [] ltac:(constructor) N ltac:(constructor) ltac:(constructor) V ltac:(constructor)) as E. rewrite app_nil_r in E. unfold quoted. rewrite <- !app_assoc. exact E.
  - pose proof (m_cons rfc_char n v n (compact v) [] [] [] [] p l _ ltac:(constructor) N ltac:(constructor) ltac:(constructor) V ltac:(constructor) IH) as E. cbn [map join_with] in *. unfold quoted at 1. rewrite <- !app_assoc. exact E.
Qed.
Lemma obj_val : forall l, Forall fair l -> val rfc_char (JObj l) (compact (JObj l)).
Proof. intros l H. cbn [compact]. apply v_obj, members_compact, H. Qed.
Lemma name_fair : forall s : string, forallb (fun c => (32 <=? c) && (c <=? 255) && negb (c =? 34) && negb (c =? 92)) (b s) = true -> str_text rfc_char (b s) (b s).
Proof.
  intros s. induction (b s) as [|c l IH]; [intros; apply st_nil|]. cbn [forallb]. intros H. apply andb_true_iff in H as (A & H). apply st_plain; [unfold rfc_char; lia..|apply IH, H].
Qed.
Lemma item_val : forall p, 0 <= fst p < 2 ^ 64 -> small_move (snd p) -> val rfc_char (item p) (compact (item p)).
Proof.
  intros [i [r c]] H (A & B). cbn [fst snd] in *. apply obj_val. constructor; [split; [apply name_fair; reflexivity|apply int_val; lia]|]. constructor; [|constructor].
  split; [apply name_fair; reflexivity|]. apply obj_val. constructor; [split; [apply name_fair; reflexivity|apply int_val; cbn; lia]|].
  constructor; [split; [apply name_fair; reflexivity|apply int_val; cbn; lia]|constructor].
Qed.
Lemma numbered_fair : forall ms i, 0 <= i -> i + zlen ms < 2 ^ 64 -> Forall small_move ms -> Forall (fun p => 0 <= fst p < 2 ^ 64 /\ small_move (snd p)) (numbered i ms).
Proof.
  induction ms as [|m ms IH]; intros i A B F; [constructor|]. inversion F; subst. rewrite zlen_cons in B. pose proof (zlen_nonneg _ ms). cbn [numbered].
  constructor; [cbn [fst snd]; split; [lia|assumption]|]. apply IH; [lia|lia|assumption].
Qed.
Lemma skipn_all_of : forall A (P : A -> Prop) l n, Forall P l -> Forall P (skipn n l).
Proof. intros A P l n H. rewrite <- (firstn_skipn n l) in H. apply Forall_app in H. apply H. Qed.
Lemma listing_val : forall since ms over w, zlen ms <= 42 -> Forall small_move ms -> 0 <= w < 10 -> val rfc_char (listing since ms over w) (compact (listing since ms over w)).
Proof.
  intros since ms over w A B C. apply obj_val. constructor.
  - split; [apply name_fair; reflexivity|]. cbn [snd compact]. apply v_arr, elems_compact. apply Forall_map. unfold drop. apply skipn_all_of.
    eapply Forall_impl; [|apply (numbered_fair ms 0); [lia|lia|exact B]]. intros p (X & Y). apply item_val; assumption.
  - unfold winner_member. destruct over; [|constructor]. constructor; [|constructor]. split; [apply name_fair; reflexivity|apply int_val; lia].
Qed.
Lemma one_val : forall (s : string) n, forallb (fun c => (32 <=? c) && (c <=? 255) && negb (c =? 34) && negb (c =? 92)) (b s) = true -> 0 <= n < 2 ^ 64 ->
  val rfc_char (JObj [(b s, jint n)]) (compact (JObj [(b s, jint n)])).
Proof. intros s n S H. apply obj_val. constructor; [|constructor]. split; [apply name_fair, S|apply int_val, H]. Qed.
End Texts.

Lemma json_sent : spaced_words application_json.
Proof. exists [application_json]. split; [reflexivity|]. constructor; [|constructor]. split; [discriminate|]. repeat constructor; cbv; intuition discriminate. Qed.

(** ** Answers *)
Section Answers.
Context {K : kind}.
Variables (c : conn) (root : list Z) (e : env) (sv : server K) (l m r : list Z).
Hypothesis Rd : ready c root.
Hypothesis Q : request_line root l m r.
Hypothesis Nf : ~ file_asked (c_config c) m r.
Lemma serve_text : forall (code reason text : string) sv' sh,
  (forall x y s, no_nul m -> no_nul r -> Forall printable r -> process_rest e sv (m ++ 0 :: x) (r ++ 0 :: y) s = Ret {| r_server := sv'; r_shut := sh; r_calls := text_response code reason text; r_stream := s |}) ->
  forallb is_digit (b code) = true -> b code <> [] -> forallb is_abcprint_or_space (b reason) = true -> match b reason with c :: _ => is_abcprint c = true | [] => True end ->
  zlen (b text) < 2 ^ 64 ->
  exists a, serve c e sv l = Ret (a, sv') /\ a_shut a = sh /\ a_file a = None /\ text_reply (a_out a) code reason text.
Proof.
  intros code reason text sv' sh H D N R1 R2 Lt. destruct (serve_good c root e sv l m r Rd Q Nf) as (x & y & s & Nm & Nr & Pr & Gs & X).
  exact (X _ _ _ _ _ (H x y s Nm Nr Pr) Gs eq_refl N (code_digits code D) (ok_text reason R1 R2) plain_sent Lt).
Qed.
Lemma serve_json : forall v sv' sh,
  (forall x y s, no_nul m -> no_nul r -> Forall printable r -> process_rest e sv (m ++ 0 :: x) (r ++ 0 :: y) s = Ret {| r_server := sv'; r_shut := sh; r_calls := json_response (compact v); r_stream := s |}) ->
  zlen (compact v) < 2 ^ 64 -> Json_Spec.val Json_Spec.rfc_char v (compact v) ->
  exists a, serve c e sv l = Ret (a, sv') /\ a_shut a = sh /\ a_file a = None /\ json_ok (a_out a) v.
Proof.
  intros v sv' sh H Lt V. destruct (serve_good c root e sv l m r Rd Q Nf) as (x & y & s & Nm & Nr & Pr & Gs & X).
  destruct (X _ _ _ _ _ (H x y s Nm Nr Pr) Gs eq_refl ltac:(discriminate) ltac:(apply code_digits; reflexivity) ltac:(apply ok_text; reflexivity) json_sent Lt) as (a & A1 & A2 & A3 & A4).
  exists a. unfold json_ok. auto.
Qed.
End Answers.

Section Replies.
Variables (K : kind) (R : rules K) (rep : k_board K -> list (Z * Z) -> Prop).
Hypothesis L : laws K R rep.
Implicit Types sv : server K.

Lemma game_in_dec : forall sv id, (exists g, In g (s_games sv) /\ g_id g = id) \/ (forall g, In g (s_games sv) -> g_id g <> id).
Proof.
  intros sv id. induction (s_games sv) as [|g gs IH]; [right; intros g []|]. destruct (Z.eq_dec (g_id g) id) as [E|E]; [left; exists g; split; [left; reflexivity|exact E]|].
  destruct IH as [(g' & I & E')|N]; [left; exists g'; split; [right; exact I|exact E']|]. right. intros g' [<- |I]; [exact E|apply N, I].
Qed.
Lemma only_game : forall sv g g', server_ok K rep sv -> In g (s_games sv) -> In g' (s_games sv) -> g = g'.
Proof. intros sv g g' So H H'. destruct (find_at K rep sv g So H) as (_ & E). rewrite E in H'. destruct H' as [?|[]]; assumption. Qed.

Lemma moves_reply : forall sv c root e l m r id since, server_ok K rep sv -> ready c root -> sized e -> request_line root l m r -> ~ file_asked (c_config c) m r -> same_i m (b "GET") -> since_resource r id since ->
  exists a, serve c e sv l = Ret (a, sv) /\ a_shut a = false /\
    (id = 0 -> text_reply (a_out a) "400" "Bad Request" "An invalid resource was supplied.") /\
    (id <> 0 -> (forall g, In g (s_games sv) -> g_id g <> id) -> text_reply (a_out a) "404" "Not Found" "A game with the supplied ID was not found.") /\
    (id <> 0 -> forall g, In g (s_games sv) -> g_id g = id -> exists ms, played R ms /\ shows R (g_board g) ms /\ transcript g ms /\
       json_ok (a_out a) (listing since (rev ms) (k_over K (g_board g)) (k_winner K (g_board g)))).
Proof.
  intros sv c root e l m r id since So Rd Se Q Nf Gm Sr.
  destruct (Z.eq_dec id 0) as [-> |Ni].
  { destruct (serve_text c root e sv l m r Rd Q Nf "400" "Bad Request" "An invalid resource was supplied." sv false) as (a & A1 & A2 & _ & A3); try reflexivity; try discriminate.
    { intros x y s Nm Nr _. rewrite (route_since e sv _ r y s 0 since Nr Sr). apply moves_zero; assumption. }
    exists a. repeat split; auto; intros X; contradiction. }
  destruct (game_in_dec sv id) as [(g & Ig & Eg)|Nw].
  - destruct (ok_in K rep sv g So Ig) as (ms & G). destruct (coords_small K R rep L g ms G) as (Cs & Cl & Cw). assert (0 <= since) as Hs by (destruct Sr as (t1 & t2 & _ & T2); apply (u32_range _ _ T2)).
    destruct (serve_json c root e sv l m r Rd Q Nf (listing since (rev ms) (k_over K (g_board g)) (k_winner K (g_board g))) sv false) as (a & A1 & A2 & _ & A3).
    + intros x y s Nm Nr _. rewrite (route_since e sv _ r y s id since Nr Sr). eapply moves_handler; eassumption.
    + pose proof (listing_len since (rev ms) (k_over K (g_board g)) (k_winner K (g_board g)) Cl Cs Cw). lia.
    + apply listing_val; assumption.
    + exists a. split; [exact A1|]. split; [exact A2|]. split; [intros X; contradiction|]. split; [intros _ X; exfalso; exact (X g Ig Eg)|].
      intros _ g' Ig' _. rewrite <- (only_game sv g g' So Ig Ig'). exists ms. destruct G as (P & Lm & F & _). destruct (l_shows _ _ _ L _ _ P) as (S1 & S2).
      split; [exact S2|]. split; [exact S1|]. split; [|exact A3]. split; [exact (l_count _ _ _ L _ _ P)|exact F].
  - destruct (serve_text c root e sv l m r Rd Q Nf "404" "Not Found" "A game with the supplied ID was not found." sv false) as (a & A1 & A2 & _ & A3); try reflexivity; try discriminate.
    { intros x y s Nm Nr _. rewrite (route_since e sv _ r y s id since Nr Sr). apply moves_nowhere; assumption. }
    exists a. split; [exact A1|]. split; [exact A2|]. split; [intros X; contradiction|]. split; [auto|]. intros _ g Ig Eg. exfalso. exact (Nw g Ig Eg).
Qed.

Lemma claim_zero : forall e sv m x s id i, no_nul m -> same_i m (b "POST") -> id = 0 \/ 1 < i -> claim_player e sv (m ++ 0 :: x) s id i = answer_with sv s invalid_resource.
Proof.
  intros e sv m x s id i Nm Pm H. unfold claim_player. destruct (equals_i_spec m x "POST" Nm ltac:(nn)) as (v & -> & Sv). cbn [bind]. rewrite (proj2 Sv Pm). cbn [negb].
  replace ((id =? 0) || (1 <? i)) with true by lia. reflexivity.
Qed.
Lemma claim_nowhere : forall e sv m x s id i, no_nul m -> same_i m (b "POST") -> id <> 0 -> i <= 1 -> (forall g, In g (s_games sv) -> g_id g <> id) -> claim_player e sv (m ++ 0 :: x) s id i = answer_with sv s game_not_found.
Proof.
  intros e sv m x s id i Nm Pm Ni Hi H. unfold claim_player. destruct (equals_i_spec m x "POST" Nm ltac:(nn)) as (v & -> & Sv). cbn [bind]. rewrite (proj2 Sv Pm). cbn [negb].
  replace ((id =? 0) || (1 <? i)) with false by lia. rewrite (find_nowhere K sv id H). reflexivity.
Qed.
Lemma not_post : forall e sv m x s id i, no_nul m -> ~ same_i m (b "POST") -> claim_player e sv (m ++ 0 :: x) s id i = answer_with sv s expect_post.
Proof.
  intros e sv m x s id i Nm Pm. unfold claim_player. destruct (equals_i_spec m x "POST" Nm ltac:(nn)) as (v & -> & Sv). cbn [bind]. destruct v; [exfalso; apply Pm, Sv; reflexivity|reflexivity].
Qed.

Lemma claim_reply : forall sv c root e l m r id i, server_ok K rep sv -> ready c root -> sized e -> request_line root l m r -> ~ file_asked (c_config c) m r -> same_i m (b "POST") -> seat_resource r id i ->
  exists a sv', serve c e sv l = Ret (a, sv') /\ a_shut a = false /\
    (id = 0 \/ 1 < i -> sv' = sv /\ text_reply (a_out a) "400" "Bad Request" "An invalid resource was supplied.") /\
    (id <> 0 -> i <= 1 -> (forall g, In g (s_games sv) -> g_id g <> id) -> sv' = sv /\ text_reply (a_out a) "404" "Not Found" "A game with the supplied ID was not found.") /\
    (id <> 0 -> i <= 1 -> forall g, In g (s_games sv) -> g_id g = id -> is_claimed g i = true -> sv' = sv /\ text_reply (a_out a) "403" "Forbidden" "This play has already been claimed.") /\
    (id <> 0 -> i <= 1 -> forall g, In g (s_games sv) -> g_id g = id -> is_claimed g i = false -> exists g',
       s_games sv' = [g'] /\ s_rand sv' = s_rand sv /\ claims i g g' /\
       json_ok (a_out a) (Json_Spec.JObj [(b "playerId", jint (seat_number g i))])).
Proof.
  intros sv c root e l m r id i So Rd Se Q Nf Pm Sr. assert (0 <= i) as Hi by (destruct Sr as (t1 & t2 & _ & T2); apply (u32_range _ _ T2)).
  assert (id = 0 \/ 1 < i \/ id <> 0 /\ i <= 1) as [E|[E|(Ni & Hi')]] by lia.
  1,2: destruct (serve_text c root e sv l m r Rd Q Nf "400" "Bad Request" "An invalid resource was supplied." sv false) as (a & A1 & A2 & _ & A3); try reflexivity; try discriminate;
    [intros x y s Nm Nr _; rewrite (route_seat e sv _ r y s id i Nr Sr); apply claim_zero; auto|
     exists a, sv; split; [exact A1|]; split; [exact A2|]; split; [auto|]; repeat split; intros; lia].
  destruct (game_in_dec sv id) as [(g & Ig & Eg)|Nw].
  - pose proof (claim_handler K rep) as H. destruct (is_claimed g i) eqn:C.
    + destruct (serve_text c root e sv l m r Rd Q Nf "403" "Forbidden" "This play has already been claimed." sv false) as (a & A1 & A2 & _ & A3); try reflexivity; try discriminate.
      { intros x y s Nm Nr _. rewrite (route_seat e sv _ r y s id i Nr Sr). specialize (H e sv m x s id i g Se So Nm Pm Ni ltac:(lia) Ig Eg). change (claimed K g i) with (is_claimed g i) in H. rewrite C in H. exact H. }
      exists a, sv. split; [exact A1|]. split; [exact A2|]. split; [lia|]. split; [intros _ _ X; exfalso; exact (X g Ig Eg)|]. split; [auto|].
      intros _ _ g' Ig' _ C'. rewrite <- (only_game sv g g' So Ig Ig') in C'. congruence.
    + destruct (ok_in K rep sv g So Ig) as (ms & G). assert (exists g', game_claim g i = Some (seat_of K g i, g')) as (g' & Eg').
      { unfold game_claim, seat_of. unfold is_claimed in C. destruct (i =? 0); rewrite C; eexists; reflexivity. }
      destruct (claim_ok K rep g ms i _ g' G Eg') as (G' & Sm & Rp).
      destruct (serve_json c root e sv l m r Rd Q Nf (Json_Spec.JObj [(b "playerId", jint (seat_number g i))]) {| s_games := [g']; s_rand := s_rand sv |} false) as (a & A1 & A2 & _ & A3).
      * intros x y s Nm Nr _. rewrite (route_seat e sv _ r y s id i Nr Sr). specialize (H e sv m x s id i g Se So Nm Pm Ni ltac:(lia) Ig Eg). change (claimed K g i) with (is_claimed g i) in H. rewrite C in H.
        destruct H as (g'' & E1 & E2). rewrite Eg' in E1. injection E1 as <-. exact E2.
      * change (seat_of K g i) with (seat_number g i) in Rp. unfold zlen. cbn [compact map join_with]. unfold quoted, jint. cbn [compact]. repeat (rewrite app_length || cbn [length]).
        pose proof (decimal_len (seat_number g i) 19 ltac:(change (10 ^ Z.of_nat 19) with 10000000000000000000; lia) ltac:(lia)). change (length (b "playerId")) with 8%nat. lia.
      * apply one_val; [reflexivity|]. change (seat_of K g i) with (seat_number g i) in Rp. lia.
      * eexists a, _. split; [exact A1|]. split; [exact A2|]. split; [lia|]. split; [intros _ _ X; exfalso; exact (X g Ig Eg)|].
        split; [intros _ _ g1 Ig' _ C'; rewrite <- (only_game sv g g1 So Ig Ig') in C'; congruence|].
        intros _ _ g1 Ig' _ _. rewrite <- (only_game sv g g1 So Ig Ig'). exists g'. split; [reflexivity|]. split; [reflexivity|]. split; [|exact A3].
        destruct Sm as (S1 & S2 & S3). split; [exact S1|]. split; [exact S3|]. split; [exact S2|].
        unfold game_claim in Eg'. unfold is_claimed in *. destruct (i =? 0); [destruct (g_xclaimed g); [discriminate C|]|destruct (g_oclaimed g); [discriminate C|]]; injection Eg' as _ <-;
          unfold start_if_full; destruct (_ && _); cbn; auto.
  - destruct (serve_text c root e sv l m r Rd Q Nf "404" "Not Found" "A game with the supplied ID was not found." sv false) as (a & A1 & A2 & _ & A3); try reflexivity; try discriminate.
    { intros x y s Nm Nr _. rewrite (route_seat e sv _ r y s id i Nr Sr). apply claim_nowhere; assumption. }
    exists a, sv. split; [exact A1|]. split; [exact A2|]. split; [lia|]. split; [auto|]. split; intros _ _ g Ig Eg; exfalso; exact (Nw g Ig Eg).
Qed.
End Replies.
