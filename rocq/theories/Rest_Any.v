(** Proofs for C68-C72, fourth part: any bytes. *)

From Coq Require Import String ZArith QArith List Bool Lia.
From Verif Require Import Base ListMem Ascii_Model Ascii_Spec Table_Model Http_Model Http_Calls Http_Spec Endpoint_Model Endpoint_Spec Rest_Model Rest_Spec.
From Verif Require Import Http_Proofs Http_Order Http_RoundTrip Endpoint_Proofs Ascii_Proofs Rest_Games Rest_Json Rest_Proofs Rest_Replies.
From Verif Require Json_Model Json_Spec Json_Writer.
Import ListNotations.
Open Scope string_scope.
Open Scope list_scope.
Open Scope Z_scope.

(** ** The text in an array is not longer than the array *)
Section Room.
Import Json_Model.
Definition fills (n : nat) (w : wr) : Prop := exists k, room w = Some k /\ (length (out w) + k = n)%nat.
Lemma fills_bad : forall n w, fills n w -> fills n (w_set_bad w).
Proof. intros n w H. exact H. Qed.
Lemma fills_upd : forall n w k e s, fills n w -> fills n (w_upd w k e s).
Proof. intros n w k e s H. exact H. Qed.
Lemma fills_chars : forall n l w, fills n w -> fills n (put_chars w l).
Proof.
  intros n l. induction l as [|c l IH]; intros w H; [exact H|]. cbn [put_chars]. destruct (wbad w); [exact H|]. apply IH. destruct H as (k & R & E). unfold w_put1. rewrite R.
  destruct k as [|k]; [exists O; auto|]. exists k. cbn [room out]. split; [reflexivity|]. rewrite app_length. cbn [length]. lia.
Qed.
Lemma fills_comma : forall n w b, fills n w -> fills n (comma_if w b).
Proof. intros n w b H. unfold comma_if. destruct (_ && _); [apply fills_chars, H|exact H]. Qed.
Lemma fills_push : forall n w b, fills n w -> fills n (w_push w b).
Proof. intros n w b H. unfold w_push. destruct (_ <=? _); exact H. Qed.
Lemma fills_pop : forall n w b, fills n w -> fills n (w_pop w b).
Proof. intros n w b H. unfold w_pop. destruct (wstk w); [exact H|]. destruct (Bool.eqb _ _); exact H. Qed.
Lemma fills_token : forall n w t, fills n w -> fills n (put_token w t).
Proof.
  intros n w t H. destruct t; cbn [put_token]; unfold put_scalar, put_property, put_begin_array, put_end_array, put_begin_object, put_end_object; try (apply fills_bad; exact H);
    destruct (wexpect w); cbn [negb]; try (apply fills_bad; exact H); apply fills_upd; repeat (apply fills_push || apply fills_pop || apply fills_chars || apply fills_comma); exact H.
Qed.
Lemma fills_tokens : forall n ts w, fills n w -> fills n (put_ops w (map Tok ts)).
Proof. intros n ts. induction ts as [|t ts IH]; intros w H; [exact H|]. cbn [map]. unfold put_ops in *. cbn [fold_left put_op_run]. apply IH, fills_token, H. Qed.
End Room.
Lemma c_str_len : forall l t, c_str l = Some t -> (length t <= length l)%nat.
Proof.
  induction l as [|c l IH]; intros t H; cbn [c_str] in H; [discriminate|]. destruct (c =? 0); [injection H as <-; cbn; lia|].
  destruct (c_str l) as [t'|] eqn:E; [|discriminate]. injection H as <-. specialize (IH t' eq_refl). cbn [length]. lia.
Qed.
Lemma json_text_len : forall a ts t, json_text a ts = Ret t -> zlen t <= zlen a.
Proof.
  intros a ts t H. unfold json_text in H. destruct (fills_chars (length a) [0] _ (fills_tokens (length a) ts (Json_Model.writer 16 (Some (length a))) ltac:(exists (length a); split; reflexivity))) as (k & _ & E).
  destruct (c_str _) as [t'|] eqn:C; [|discriminate]. injection H as <-. apply c_str_len in C. rewrite app_length in C. unfold drop, zlen in *. rewrite skipn_length in C. lia.
Qed.

(** ** What is sent *)
Definition sendable (cs : list (wcall * list Z)) : Prop :=
  cs = [] \/ exists code reason ct body, cs = simple_response code reason ct body /\ code <> [] /\ Forall digit code /\ reason_text reason /\ spaced_words ct /\ zlen body < 2 ^ 64.
Lemma none_sendable : sendable [].
Proof. left. reflexivity. Qed.
Lemma text_sendable : forall code reason text : string,
  forallb is_digit (b code) && match b code with [] => false | _ => true end && forallb is_abcprint_or_space (b reason) && match b reason with c :: _ => is_abcprint c | [] => true end && (zlen (b text) <? 2 ^ 64) = true ->
  sendable (text_response code reason text).
Proof.
  intros code reason text H. repeat (apply andb_true_iff in H; destruct H as (H & ?)). right. exists (b code), (b reason), text_plain, (b text). split; [reflexivity|].
  split; [destruct (b code); congruence|]. split; [apply code_digits; assumption|]. split; [apply ok_text; [assumption|destruct (b reason); auto]|]. split; [exact plain_sent|lia].
Qed.
Lemma json_sendable : forall t, zlen t < 2 ^ 64 -> sendable (json_response t).
Proof.
  intros t H. right. exists (b "200"), (b "OK"), application_json, t. split; [reflexivity|]. split; [discriminate|]. split; [apply code_digits; reflexivity|]. split; [apply ok_text; reflexivity|]. split; [exact json_sent|exact H].
Qed.
Lemma sendable_writes : forall cs s ltr, sendable cs -> exists w, write_calls response cs (server_writer s ltr) = Ret w.
Proof.
  intros cs s ltr [-> |(code & reason & ct & body & -> & _)]; [eexists; reflexivity|]. rewrite simple_calls. apply writes_any. reflexivity.
Qed.
Lemma sendable_out : forall cs s w, sendable cs -> write_calls response cs (server_writer s true) = Ret w -> wout w = [] \/ some_response (wout w) /\ cs <> [].
Proof.
  intros cs s w [-> |(code & reason & ct & body & -> & N & D & Rr & Sw & Lb)] W; [injection W as <-; left; reflexivity|]. destruct (is_good s) eqn:G.
  - right. split; [|discriminate]. rewrite (server_writer_good s G) in W. destruct (simple_out code reason ct body N D Rr Sw Lb) as (w' & E & Rs). rewrite W in E. injection E as <-.
    exists code, reason, (Some ct), body. split; [apply digits_line, D|]. split; [|split; [apply spaced_one_line, Sw|exact Rs]].
    intros I. destruct Rr as (F & _). rewrite Forall_forall in F. apply F in I. unfold printable, blank in I. lia.
  - left. rewrite simple_calls in W. assert (wbad (server_writer s true) = true) as B by (unfold server_writer; cbn [wbad]; rewrite G; reflexivity).
    rewrite (writes_bad _ _ _ B (response_items _ _ _ _ _) W). reflexivity.
Qed.

(** A computation that has returned, step by step. *)
Ltac binds H :=
  repeat lazymatch type of H with
  | Ret _ = Ret _ => first [discriminate H | injection H; clear H; intros; subst; idtac]
  | (let '_ := ?x in _) = Ret _ => let E := fresh "E" in destruct x eqn:E; cbn [bind] in H; try discriminate H
  | bind ?x _ = Ret _ => let E := fresh "E" in destruct x eqn:E; cbn [bind] in H; try discriminate H
  | (if ?x then _ else _) = Ret _ => let E := fresh "E" in destruct x eqn:E; cbn [negb] in H; try discriminate H
  | match ?x with _ => _ end = Ret _ => let E := fresh "E" in destruct x eqn:E; cbn [bind] in H; try discriminate H
  end.

Section Calls.
Context {K : kind}.
Implicit Types sv : server K.
Variable e : env.
Hypothesis Se : sized e.
Hypothesis Km : 0 <= k_moves_size K <= 2049.
Lemma text_small : forall n ts t, 0 <= n <= 2049 -> json_text (e_body e n) ts = Ret t -> zlen t < 2 ^ 64.
Proof. intros n ts t Hn H. apply json_text_len in H. destruct Se as (_ & _ & Sb). rewrite Sb in H by lia. lia. Qed.
Lemma verify_calls : forall n i has s v s', verify_header_json e n i has s = Ret (v, s') -> match v with Some cs => sendable cs | None => True end.
Proof.
  induction n as [|n IH]; intros i has s v s' H; cbn [verify_header_json] in H; [discriminate H|]. binds H; try exact I; try apply none_sendable; try (apply text_sendable; vm_compute; reflexivity); try (eapply IH; eassumption). destruct has; [apply none_sendable|exact I].
Qed.
Lemma types_calls : forall s cs, get_player_types e s = Ret (Refuse cs) -> sendable cs.
Proof. intros s cs H. unfold get_player_types in H. binds H; apply text_sendable; vm_compute; reflexivity. Qed.
Ltac final := cbn [r_calls]; first [apply none_sendable|apply json_sendable; eapply text_small; [|eassumption]; lia|apply text_sendable; vm_compute; reflexivity].
Lemma create_calls : forall sv m s rp, create_game e sv m s = Ret rp -> sendable (r_calls rp).
Proof.
  intros sv m s rp H. unfold create_game, answer_with in H. binds H; try final.
  - match goal with H : get_player_types _ _ = _ |- _ => exact (types_calls _ _ H) end.
  - match goal with H : verify_header_json _ _ _ _ _ = _ |- _ => exact (verify_calls _ _ _ _ _ _ H) end.
Qed.
Lemma claim_calls : forall sv m s id i rp, claim_player e sv m s id i = Ret rp -> sendable (r_calls rp).
Proof. intros sv m s id i rp H. unfold claim_player, answer_with in H. binds H; final. Qed.
Lemma accept_calls : forall sv m s id pid mv rp, accept_move e sv m s id pid mv = Ret rp -> sendable (r_calls rp).
Proof.
  intros sv m s id pid mv rp H. unfold accept_move, answer_with in H. binds H; try final.
  match goal with H : verify_header_json _ _ _ _ _ = _ |- _ => exact (verify_calls _ _ _ _ _ _ H) end.
Qed.
Lemma moves_calls : forall sv m s id since rp, get_moves e sv m s id since = Ret rp -> sendable (r_calls rp).
Proof. intros sv m s id since rp H. unfold get_moves, answer_with in H. binds H; final. Qed.
Lemma rest_calls : forall sv m r s rp, process_rest e sv m r s = Ret rp -> sendable (r_calls rp).
Proof.
  intros sv m r s rp H. unfold process_rest, process_games, process_shutdown, answer_with in H.
  binds H; first [eapply create_calls; eassumption|eapply claim_calls; eassumption|eapply accept_calls; eassumption|eapply moves_calls; eassumption|final].
Qed.
End Calls.

(** C70: one complete response or nothing. *)
Lemma serve_any : forall K c root e (sv : server K) l a sv', 0 <= k_moves_size K <= 2049 -> ready c root -> sized e -> (forall p f, c_fs c p = Some f -> stable f) ->
  serve c e sv l = Ret (a, sv') -> a_out a = [] \/ some_response (a_out a).
Proof.
  intros K c root e sv l a sv' Km (Hr & Ha & Hp & Hl) Se St H. unfold serve in H. destruct (read_line _ _ _ _ l) as [[[m path] s]| | |] eqn:E; try discriminate H. cbn [bind] in H.
  destruct (is_file_request (c_config c) m _) as [[|]|] eqn:F; try discriminate H.
  - destruct (all_or_nothing (c_config c) (c_fs c) root (c_mb c) (c_pb c) (c_qb c) Hr Ha Hp St l) as (a' & P & O). unfold process_request in P. rewrite E in P. cbn [bind] in P. rewrite F, <- Hl in P.
    destruct (file_request (c_fs c) m path) as [[p cs]| | |]; try discriminate H. cbn [bind] in H, P. destruct (write_calls _ cs _) as [w| | |]; try discriminate H. cbn [bind] in H, P. injection H as <- _. injection P as <-. exact O.
  - destruct (process_rest _ _ _ _ _) as [rp| | |] eqn:P; try discriminate H. cbn [bind] in H. destruct (write_calls _ _ _) as [w| | |] eqn:W; try discriminate H. cbn [bind] in H. injection H as <- _.
    cbn [a_out]. rewrite Hl in W. destruct (sendable_out _ _ _ (rest_calls e Se Km _ _ _ _ _ P) W) as [?|(? & _)]; auto.
Qed.

(** ** C68: which requests can go wrong *)
Section Safe.
Variables (K : kind) (R : rules K) (rep : k_board K -> list (Z * Z) -> Prop).
Hypothesis L : laws K R rep.
Implicit Types sv : server K.
Lemma moves_any : forall e sv m x s id since, sized e -> server_ok K rep sv -> no_nul m -> 0 <= since -> exists rp, get_moves e sv (m ++ 0 :: x) s id since = Ret rp.
Proof.
  intros e sv m x s id since Se So Nm Hs. destruct (equals_i_spec m x "GET" Nm ltac:(nn)) as (v & Ev & Sv). destruct v.
  2: { eexists. unfold get_moves. rewrite Ev. reflexivity. }
  pose proof (proj1 Sv eq_refl) as Gm. destruct (Z.eq_dec id 0) as [-> |Ni]; [eexists; apply moves_zero; assumption|].
  destruct (game_in_dec K sv id) as [(g & Ig & Eg)|Nw]; [|eexists; apply moves_nowhere; assumption].
  destruct (ok_in K rep sv g So Ig) as (ms & G). eexists. eapply moves_handler; eassumption.
Qed.
Lemma claim_any : forall e sv m x s id i, sized e -> server_ok K rep sv -> no_nul m -> 0 <= i -> exists rp, claim_player e sv (m ++ 0 :: x) s id i = Ret rp.
Proof.
  intros e sv m x s id i Se So Nm Hi. destruct (equals_i_spec m x "POST" Nm ltac:(nn)) as (v & Ev & Sv). destruct v.
  2: { eexists. unfold claim_player. rewrite Ev. reflexivity. }
  pose proof (proj1 Sv eq_refl) as Pm. assert (id = 0 \/ 1 < i \/ id <> 0 /\ i <= 1) as [E|[E|(Ni & Hi')]] by lia; [eexists; apply claim_zero; auto..|].
  destruct (game_in_dec K sv id) as [(g & Ig & Eg)|Nw]; [|eexists; apply claim_nowhere; assumption].
  pose proof (claim_handler K rep e sv m x s id i g Se So Nm Pm Ni ltac:(lia) Ig Eg) as H. destruct (claimed K g i); [eexists; exact H|]. destruct H as (g' & _ & H). eexists. exact H.
Qed.
Lemma scan_u_range : forall s n s', scan_u s = Some (n, s') -> 0 <= n < 2 ^ 32.
Proof.
  intros s n s' H. unfold scan_u in H. destruct (match skip_scan_spaces s with 45 :: q => (true, q) | 43 :: q => (false, q) | _ => (false, skip_scan_spaces s) end) as [neg q].
  destruct q as [|c q]; [discriminate|]. destruct (_ && _); [|discriminate]. destruct (scan_digits (c :: q) 0) as [v q']. apply some_pair in H as (<- & _). apply Z.mod_pos_bound. lia.
Qed.
Lemma scan_range : forall f s n, In (Number n) (scan f s) -> 0 <= n < 2 ^ 32.
Proof.
  induction f as [|d f IH]; intros s n H; [destruct H|]. destruct d as [c| |]; cbn [scan] in H.
  - destruct s as [|c' s]; [destruct H|]. destruct (c' =? c); [eapply IH, H|destruct H].
  - destruct (scan_u s) as [[k s']|] eqn:E; [|destruct H]. destruct H as [[= ->]|H]; [eapply scan_u_range, E|eapply IH, H].
  - destruct (scan_chars 6 (skip_scan_spaces s)); [destruct H|]. destruct H as [H|H]; [discriminate H|eapply IH, H].
Qed.
(** Only two handlers read more than the request line. *)
Lemma rest_any : forall e sv m x r y s, sized e -> server_ok K rep sv -> no_nul m -> no_nul r ->
  (exists rp, process_rest e sv (m ++ 0 :: x) (r ++ 0 :: y) s = Ret rp) \/
  same_i m (b "POST") /\ (same_i r (b "/games") \/ exists g q id pid mv, r = g ++ q /\ same_i g (b "/games") /\ scan move_format q = [Number id; Number pid; Text mv] /\ same_i mv (b "moves")).
Proof.
  intros e sv m x r y s Se So Nm Nr. unfold process_rest. destruct (starts_i_spec r y "/games" Nr ltac:(nn)) as (v & Ev & Sv). rewrite Ev. cbn [bind]. destruct v.
  2: { destruct (equals_i_spec r y "/shutdown" Nr ltac:(nn)) as (v & -> & _). cbn [bind]. left. destruct v; [|eexists; reflexivity]. unfold process_shutdown.
       destruct (equals_i_spec m x "POST" Nm ltac:(nn)) as (v & -> & _). cbn [bind]. destruct v; eexists; reflexivity. }
  destruct (proj1 Sv eq_refl) as (g & q & -> & Sg). unfold process_games.
  assert (drop 6 ((g ++ q) ++ 0 :: y) = q ++ 0 :: y) as ->. { rewrite <- app_assoc. assert (zlen g = 6) as <- by (unfold zlen; rewrite (same_len g "/games" Sg); reflexivity). apply drop_app_exact. }
  apply Forall_app in Nr as (Ng & Nq). destruct (equals_i_spec q y "" Nq ltac:(nn)) as (v & -> & Sq). cbn [bind].
  destruct (equals_i_spec m x "POST" Nm ltac:(nn)) as (p & Ep & Sp).
  destruct v.
  { destruct p; [right; split; [apply Sp; reflexivity|left]|left; eexists; unfold create_game; rewrite Ep; reflexivity].
    pose proof (proj1 Sq eq_refl) as Eq. destruct q; [|discriminate Eq]. rewrite app_nil_r. exact Sg. }
  rewrite (c_str_app q y Nq).
  assert (exists rp, match scan player_format q with [Number id; Number i] => claim_player e sv (m ++ 0 :: x) s id i
    | _ => match scan since_format q with [Number id; Number since] => get_moves e sv (m ++ 0 :: x) s id since | _ => answer_with sv s [] end end = Ret rp) as Rest.
  { assert (exists rp, match scan since_format q with [Number id; Number since] => get_moves e sv (m ++ 0 :: x) s id since | _ => answer_with sv s [] end = Ret rp) as Rest.
    { pose proof (scan_range since_format q) as B. destruct (scan since_format q) as [|[id|?] [|[since|?] [|? ?]]]; try (eexists; reflexivity). apply moves_any; try assumption. apply (B since). right. left. reflexivity. }
    pose proof (scan_range player_format q) as B. destruct (scan player_format q) as [|[id|?] [|[i|?] [|? ?]]]; try exact Rest. apply claim_any; try assumption. apply (B i). right. left. reflexivity. }
  destruct (scan move_format q) as [|[id|?] [|[pid|?] [|[?|mv] [|? ?]]]] eqn:Em; try (left; exact Rest).
  assert (no_nul mv) as Nv.
  { assert (forall f s, no_nul s -> forall t, In (Text t) (scan f s) -> no_nul t) as X.
    { clear. induction f as [|d f IH]; intros s N t H; [destruct H|]. destruct d as [c| |]; cbn [scan] in H.
      - destruct s as [|c' s]; [destruct H|]. destruct (c' =? c); [|destruct H]. inversion N; subst. eapply IH; eassumption.
      - destruct (scan_u s) as [[k s']|] eqn:E; [|destruct H]. destruct H as [H|H]; [discriminate H|]. eapply IH; [|exact H].
        assert (exists p, s = p ++ s') as (p & ->); [|apply Forall_app in N; tauto].
        clear - E. assert (forall s v v' s', scan_digits s v = (v', s') -> exists p, s = p ++ s') as D.
        { clear. induction s as [|c s IH]; intros v v' s' H; cbn [scan_digits] in H; [injection H as <- <-; exists []; reflexivity|]. destruct (_ && _); [destruct (IH _ _ _ H) as (p & ->); exists (c :: p); reflexivity|injection H as <- <-; exists []; reflexivity]. }
        assert (forall s, exists p, s = p ++ skip_scan_spaces s) as Sk. { clear. induction s as [|c s IH]; [exists []; reflexivity|]. cbn [skip_scan_spaces]. destruct (scan_space c); [|exists []; reflexivity]. destruct IH as (p & E). exists (c :: p). cbn [app]. rewrite <- E. reflexivity. }
        unfold scan_u in E. destruct (Sk s) as (p0 & E0). assert (exists neg q p1, match skip_scan_spaces s with 45 :: q => (true, q) | 43 :: q => (false, q) | _ => (false, skip_scan_spaces s) end = (neg, q) /\ skip_scan_spaces s = p1 ++ q) as (neg & q & p1 & E1 & E2).
        { destruct (skip_scan_spaces s) as [|c q]; [exists false, [], []; split; reflexivity|]. destruct (Z.eq_dec c 45) as [-> |N1]; [exists true, q, [45]; split; reflexivity|]. destruct (Z.eq_dec c 43) as [-> |N2]; [exists false, q, [43]; split; reflexivity|].
          exists false, (c :: q), []. split; [|reflexivity]. destruct c as [|p|p]; try reflexivity; do 6 (destruct p as [p|p|]; try reflexivity); congruence. }
        rewrite E1 in E. destruct q as [|c q]; [discriminate|]. destruct ((48 <=? c) && (c <=? 57)); [|discriminate]. destruct (scan_digits (c :: q) 0) as [v q'] eqn:Ed. apply some_pair in E as (_ & <-).
        destruct (D _ _ _ _ Ed) as (p2 & E3). exists (p0 ++ p1 ++ p2). rewrite <- !app_assoc, <- E3, <- E2. exact E0.
      - assert (no_nul (skip_scan_spaces s)) as N'. { clear - N. induction s as [|c s IH]; [exact N|]. cbn [skip_scan_spaces]. inversion N; subst. destruct (scan_space c); auto. }
        destruct (scan_chars_prefix 6 (skip_scan_spaces s)) as (s' & Es). destruct (scan_chars 6 (skip_scan_spaces s)) as [|c q] eqn:Eq; [destruct H|]. rewrite Es in N'. apply Forall_app in N' as (N1 & N2).
        destruct H as [[= <-]|H]; [exact N1|]. eapply IH; [|exact H]. rewrite Es. rewrite drop_app_exact. exact N2. }
    apply (X move_format q Nq mv). rewrite Em. right. right. left. reflexivity. }
  unfold accept_move. destruct (equals_i_spec mv [] "moves" Nv ltac:(nn)) as (v & Ev' & Sm). rewrite Ev'. cbn [bind]. destruct v; cbn [negb]; [|left; eexists; reflexivity].
  rewrite Ep. cbn [bind]. destruct p; cbn [negb]; [|left; eexists; reflexivity]. right. split; [apply Sp; reflexivity|]. right. exists g, q, id, pid, mv. split; [reflexivity|]. split; [exact Sg|]. split; [exact Em|apply Sm; reflexivity].
Qed.
Lemma serve_safe : forall sv c root e l, server_ok K rep sv -> ready c root -> sized e -> (exists a sv', serve c e sv l = Ret (a, sv')) \/ asks_games l.
Proof.
  intros sv c root e l So (Hr & Ha & Hp & Hl) Se.
  destruct (line_bytes _ _ _ _ _ l Hr Ha) as (m & sp & r & rest & x & y & s & El & Nm & Nr & Eb & Fs & Pr).
  destruct (is_file (c_config c) m r x y Hp Nm Nr) as (v & Ev & _). destruct v.
  - left. destruct (process_any (c_config c) (c_fs c) root (c_mb c) (c_pb c) (c_qb c) Hr Ha Hp (c_ltr c) l) as (? & ? & ? & ? & ? & ? & ? & _ & _ & _ & _ & P).
    unfold process_request in P. rewrite El in P. cbn [bind] in P. rewrite Hr, drop_app_exact, Ev in P.
    unfold serve. rewrite El. cbn [bind]. rewrite Hr, drop_app_exact, Ev. destruct (file_request (c_fs c) (m ++ 0 :: x) (root ++ r ++ 0 :: y)) as [[p cs]| | |]; try discriminate P.
    cbn [bind] in *. destruct (write_calls response cs _) as [w| | |]; try discriminate P. cbn [bind]. eauto.
  - assert (0 <= k_moves_size K <= 2049) as Km by (destruct (l_room _ _ _ L); lia).
    destruct (rest_any e sv m x r y s Se So Nm Nr) as [(rp & E)|(Pm & Rg)].
    + left. unfold serve. rewrite El. cbn [bind]. rewrite Hr, drop_app_exact, Ev, E. cbn [bind].
      destruct (sendable_writes (r_calls rp) (r_stream rp) (c_ltr c) (rest_calls e Se Km _ _ _ _ _ E)) as (w & ->). cbn [bind]. eauto.
    + right. destruct Rg as [Rg|(g & q & _ & _ & _ & -> & Sg & _)].
      * exists m, sp, r, rest. auto.
      * exists m, sp, g, (q ++ rest). rewrite <- app_assoc in Eb. auto.
Qed.
End Safe.
