(** Lemmas for C30, C31, C32 and C66. *)

From Coq Require Import String ZArith List Bool Lia.
From Verif Require Import Base ListMem Ascii_Model Ascii_Spec Ascii_Proofs Table_Model Http_Model Http_Spec Http_Calls Http_Proofs Http_Writer Http_RoundTrip Http_Order Endpoint_Model Endpoint_Spec.
Import ListNotations.
Open Scope string_scope.
Open Scope list_scope.
Open Scope Z_scope.

(** ** The request line *)
Lemma text_no_nul : forall t, Forall text_char t -> no_nul t.
Proof. intros t H. eapply Forall_impl; [|exact H]. unfold text_char. intros; lia. Qed.
Lemma call_fits : forall it m s, it <> body -> hnext s = it -> 2 <= zlen m < 2 ^ 64 ->
  exists t s', read_call request it m s = Ret (t ++ (if item_eqb it resource then [0; 0] else [0]) ++ drop (zlen t + (if item_eqb it resource then 2 else 1)) m, s') /\
    hgc s' = zlen t /\ Forall text_char t.
Proof. intros it m s N H L. destruct (readers_fit request it m s N H L) as (t & s' & E & G & _ & F). exists t, s'. auto. Qed.
Lemma call_next : forall it m s m' s', 2 <= zlen m < 2 ^ 64 -> it <> header_value -> read_call request it m s = Ret (m', s') -> hnext s' = next_seen request (it, hgc s', is_good s').
Proof. intros it m s m' s' L N H. destruct (read_next request it m s m' s' L H) as (_ & [K|(K & _)]); [exact K|contradiction]. Qed.

Section Line.
Variables (c : config) (root mb pb qb : list Z).
Hypothesis Hroot : root_dir c = Some root.
Hypothesis Harr : arrays root mb pb qb.

Let rb := 0 :: drop (zlen root + 1) pb.
Lemma rb_len : 2 <= zlen rb < 2 ^ 64 /\ zlen rb = 2049 - zlen root.
Proof.
  destruct Harr as (_ & P & _ & _ & R). unfold rb. pose proof (zlen_nonneg _ root). unfold resource_size in P. rewrite zlen_cons, zlen_drop by lia. lia.
Qed.
(** Three reads, whatever the input is. *)
Lemma three_reads : forall l, exists m r q x y z s1 s2 s3,
  read_call request method mb (http_reader request l) = Ret (m ++ 0 :: x, s1) /\ hgc s1 = zlen m /\ Forall text_char m /\
  read_call request resource rb s1 = Ret (r ++ 0 :: y, s2) /\ hgc s2 = zlen r /\ Forall text_char r /\
  read_call request protocol qb s2 = Ret (q ++ 0 :: z, s3) /\ hgc s3 = zlen q.
Proof.
  intros l. destruct rb_len as (RL & _). destruct Harr as (M & P & Q & _ & R). unfold method_size, resource_size, protocol_size in *.
  assert (2 <= zlen mb < 2 ^ 64) as ML by lia. assert (2 <= zlen qb < 2 ^ 64) as QL by lia.
  assert (method <> body /\ resource <> body /\ protocol <> body /\ method <> header_value /\ resource <> header_value) as (D1 & D2 & D3 & D4 & D5) by (repeat split; discriminate).
  destruct (call_fits method mb (http_reader request l) D1 eq_refl ML) as (m & s1 & E1 & G1 & F1).
  destruct (call_fits resource rb s1 D2 (call_next _ _ _ _ _ ML D4 E1) RL) as (r & s2 & E2 & G2 & F2).
  destruct (call_fits protocol qb s2 D3 (call_next _ _ _ _ _ RL D5 E2) QL) as (q & s3 & E3 & G3 & F3).
  exists m, r, q. cbn [item_eqb] in *. eexists _, _, _, s1, s2, s3. rewrite E1, E2, E3. cbn [app]. repeat split; auto.
Qed.
Lemma read_any : forall l, exists m r x y s, read_line c mb pb qb l = Ret (m ++ 0 :: x, root ++ r ++ 0 :: y, s) /\ no_nul m /\ no_nul r.
Proof.
  intros l. destruct (three_reads l) as (m & r & q & x & y & z & s1 & s2 & s3 & E1 & _ & F1 & E2 & _ & F2 & E3 & _).
  exists m, r, x, y, s3. split; [|split; apply text_no_nul; assumption].
  unfold read_line. rewrite E1. cbn [bind]. rewrite Hroot.
  destruct Harr as (M & P & Q & _ & R). unfold resource_size in *. destruct (Z.ltb_spec (zlen pb) (zlen root + 1)); [lia|].
  fold rb. rewrite E2. cbn [bind]. rewrite E3. reflexivity.
Qed.
Lemma read_good : forall l m r, request_line root l m r -> exists x y s, read_line c mb pb qb l = Ret (m ++ 0 :: x, root ++ r ++ 0 :: y, s) /\ no_nul m /\ no_nul r /\ is_good s = true.
Proof.
  intros l m r (p & rest & El & Ok & Lm & Lr & Lp). destruct rb_len as (RL & RL').
  destruct (three_reads l) as (m' & r' & q & x & y & z & s1 & s2 & s3 & E1 & G1 & F1 & E2 & G2 & F2 & E3 & G3).
  destruct Harr as (M & P & Q & _ & R). unfold method_size, resource_size, protocol_size in *.
  pose proof (zlen_nonneg _ m). pose proof (zlen_nonneg _ r). pose proof (zlen_nonneg _ p).
  destruct (read_start request m r p mb rb qb [] rest Ok) as (g & E). { unfold start_room, room_for. lia. }
  assert (start_line_text request m r p ++ rest = l) as Et.
  { rewrite El. unfold start_line_text. rewrite <- !app_assoc. reflexivity. }
  rewrite Et in E. cbn [start_line_gets app read_calls bind] in E. rewrite E1 in E. cbn [bind] in E. rewrite E2 in E. cbn [bind] in E. rewrite E3 in E. cbn [bind] in E.
  rewrite G1, G2, G3, !take_app_exact in E. injection E as -> -> -> ->.
  exists x, y, (N header_name g rest). split; [|split; [|split]]; [|apply text_no_nul; assumption|apply text_no_nul; assumption|reflexivity].
  unfold read_line. rewrite E1. cbn [bind]. rewrite Hroot. destruct (Z.ltb_spec (zlen pb) (zlen root + 1)); [lia|].
  fold rb. rewrite E2. cbn [bind]. rewrite E3. reflexivity.
Qed.
End Line.

(** ** Comparisons *)
Lemma equal_i : forall s x (t : string), no_nul s -> no_nul (b t) -> exists v, are_equal_i (Some (s ++ 0 :: x)) (Some (lit t)) = Some v /\ (v = true <-> same_i s (b t)).
Proof.
  intros s x t Hs Ht. destruct (are_equal_no_oob false s (b t) x [] (unbounded (Some (s ++ 0 :: x))) Hs Ht) as (v & E).
  exists v. split; [exact E|]. rewrite <- (are_equal_i_spec s (b t) x [] Hs Ht). unfold are_equal_i, c_string, lit, b in *. rewrite E. split; [intros ->; reflexivity|intros [= ->]; reflexivity].
Qed.
Ltac nn := repeat constructor; discriminate.
Lemma is_file : forall c m r x y, prefix_text c -> no_nul m -> no_nul r ->
  exists v, is_file_request c (m ++ 0 :: x) (r ++ 0 :: y) = Some v /\ (v = true <-> file_asked c m r).
Proof.
  intros c m r x y Hp Hm Hr. unfold is_file_request, file_asked, prefix_text in *.
  destruct (equal_i m x "GET" Hm) as (v1 & E1 & S1); [nn|]. destruct (equal_i r y "/favicon.ico" Hr) as (v2 & E2 & S2); [nn|].
  rewrite E1, E2. destruct (files_prefix c) as [p|]; cbn [option_map].
  - destruct (are_equal_no_oob false r p y [] (length p) Hr Hp) as (v & E). pose proof (are_equal_i_n_spec r p y [] (length p) Hr Hp) as Sp.
    unfold are_equal_i_n, c_string in *. rewrite E in *. rewrite firstn_all in Sp.
    assert (v = true <-> exists p0 s t, Some p = Some p0 /\ r = s ++ t /\ same_i s p0) as Sv.
    { split.
      - intros ->. exists p, (firstn (length p) r), (skipn (length p) r). split; [reflexivity|]. split; [symmetry; apply firstn_skipn|]. apply Sp. reflexivity.
      - intros (p0 & s & t & [= <-] & -> & H). assert (Some v = Some true) as K; [|injection K; auto]. apply Sp.
        assert (length s = length p) as L. { apply (f_equal (@length Z)) in H. rewrite !map_length in H. exact H. }
        rewrite <- L, firstn_app, PeanoNat.Nat.sub_diag, firstn_all. cbn [firstn]. rewrite app_nil_r. exact H. }
    destruct v; [exists true; split; [reflexivity|]; split; [intros _; left; apply Sv; reflexivity|reflexivity]|].
    assert (~ exists p0 s t, Some p = Some p0 /\ r = s ++ t /\ same_i s p0) as Nv by (intros K; apply Sv in K; discriminate).
    destruct v1.
    + exists v2. split; [reflexivity|]. rewrite S2. split; [intros K; right; split; [apply S1; reflexivity|exact K]|]. intros [K|(_ & K)]; [contradiction|exact K].
    + exists false. split; [reflexivity|]. split; [discriminate|]. intros [K|(K & _)]; [contradiction|apply S1 in K; discriminate].
  - unfold are_equal_i_n. cbn [are_equal4].
    destruct v1.
    + exists v2. split; [reflexivity|]. rewrite S2. split; [intros K; right; split; [apply S1; reflexivity|exact K]|]. intros [(? & ? & ? & K & _)|(_ & K)]; [discriminate|exact K].
    + exists false. split; [reflexivity|]. split; [discriminate|]. intros [(? & ? & ? & K & _)|(K & _)]; [discriminate|apply S1 in K; discriminate].
Qed.
Lemma c_str_app : forall s y, no_nul s -> c_str (s ++ 0 :: y) = Some s.
Proof.
  induction 1 as [|x l H F IH]; [reflexivity|]. cbn [app c_str]. destruct (Z.eqb_spec x 0); [contradiction|]. rewrite IH. reflexivity.
Qed.

(** ** Content types *)
Lemma last_dot_spec : forall p, match last_dot p with
  | Some d => exists e, d = 46 :: e /\ extension p e
  | None => ~ In 46 p
  end.
Proof.
  induction p as [|x p IH]; cbn [last_dot]; [intros []|]. destruct (last_dot p) as [d|].
  - destruct IH as (e & -> & a & -> & N). exists e. split; [reflexivity|]. exists (x :: a). split; [reflexivity|exact N].
  - destruct (Z.eqb_spec x 46) as [->|N]; [exists p; split; [reflexivity|]; exists []; split; [reflexivity|exact IH]|]. intros [->|K]; [contradiction|contradiction].
Qed.
Lemma extension_unique : forall p e e', extension p e -> extension p e' -> e = e'.
Proof.
  intros p e e' (a & E & N) (a' & E' & N'). subst p.
  assert (forall a a', a ++ [46] ++ e = a' ++ [46] ++ e' -> e = e') as K; [|exact (K a a' E')].
  clear a a' E'. induction a as [|x a IH]; intros [|x' a'] H; cbn [app] in H.
  - injection H. auto.
  - injection H as <- H. exfalso. apply N. rewrite H. apply in_or_app. right. left. reflexivity.
  - injection H as -> H. exfalso. apply N'. rewrite <- H. apply in_or_app. right. left. reflexivity.
  - injection H as _ H. exact (IH a' H).
Qed.
(** the table of the specification, with the dot *)
Lemma tests_table : extension_tests = map (fun xy => ("." ++ fst xy, b (snd xy)))%string media_types.
Proof. reflexivity. Qed.
Lemma test_exts : forall e l, no_nul e -> Forall (fun xy => no_nul (b (fst xy))) l ->
  exists t, test_extensions (46 :: e) (map (fun xy => ("." ++ fst xy, b (snd xy)))%string l) = Some t /\
  match t with
  | Some t => exists x y, In (x, y) l /\ same_i e (b x) /\ t = b y
  | None => ~ exists x y, In (x, y) l /\ same_i e (b x)
  end.
Proof.
  intros e l He. induction l as [|[x y] l IH]; intros F; cbn [map test_extensions].
  - exists None. split; [reflexivity|]. intros (? & ? & [] & _).
  - inversion F as [|? ? Fx F']; subst. cbn [fst snd] in *.
    destruct (equal_i (46 :: e) [] ("." ++ x)%string) as (v & E & Sv).
    { constructor; [discriminate|exact He]. }
    { change (b ("." ++ x)%string) with (46 :: b x). constructor; [discriminate|exact Fx]. }
    rewrite E. assert (v = true <-> same_i e (b x)) as Sv'.
    { rewrite Sv. unfold same_i. change (b ("." ++ x)%string) with (46 :: b x). cbn [map]. split; [intros [= K]; exact K|intros ->; reflexivity]. }
    destruct v.
    + exists (Some (b y)). split; [reflexivity|]. exists x, y. split; [left; reflexivity|]. split; [apply Sv'; reflexivity|reflexivity].
    + destruct (IH F') as (t & Et & T). exists t. split; [exact Et|]. destruct t as [t|].
      * destruct T as (x' & y' & I & S & K). exists x', y'. split; [right; exact I|auto].
      * intros (x' & y' & [K|K] & S); [injection K as <- <-; apply Sv' in S; discriminate|apply T; exists x', y'; auto].
Qed.
Lemma type_of : forall p, no_nul p -> exists t, content_type_of p = Some t /\ media_type p t.
Proof.
  intros p Hp. unfold content_type_of. pose proof (last_dot_spec p) as L. destruct (last_dot p) as [d|].
  - destruct L as (e & -> & X). assert (no_nul e) as He. { destruct X as (a & -> & _). unfold no_nul in *. rewrite !Forall_app in Hp. tauto. }
    rewrite tests_table. destruct (test_exts e media_types He) as (t & E & T). { unfold media_types. repeat (constructor; [nn|]). constructor. }
    exists t. split; [exact E|]. destruct t as [t|]; unfold media_type.
    + destruct T as (x & y & I & S & K). exists e, x, y. auto.
    + intros (e' & x & y & X' & I & S). rewrite (extension_unique p e' e X' X) in S. apply T. exists x, y. auto.
  - exists None. split; [reflexivity|]. intros (e & x & y & (a & -> & _) & _). apply L. apply in_or_app. right. left. reflexivity.
Qed.

(** ** Numbers *)
Lemma value_app : forall a c, value_of (a ++ [c]) = 10 * value_of a + (c - 48).
Proof. intros. unfold value_of. rewrite fold_left_app. reflexivity. Qed.
Lemma zu_spec : forall fuel n, 0 <= n < 10 ^ Z.of_nat fuel -> (0 < fuel)%nat -> decimal_text (zu fuel n) n.
Proof.
  induction fuel as [|f IH]; intros n H P; [lia|]. cbn [zu]. destruct (Z.ltb_spec n 10).
  - split; [discriminate|]. split; [constructor; [unfold digit; lia|constructor]|]. split; [unfold value_of; cbn [fold_left]; lia|]. cbn [hd]. intros K. replace n with 0 by lia. reflexivity.
  - assert (0 < f)%nat as Pf. { destruct f; [cbn in H; lia|lia]. }
    assert (0 <= n / 10 < 10 ^ Z.of_nat f) as Hf.
    { split; [apply Z.div_pos; lia|]. apply Z.div_lt_upper_bound; [lia|]. rewrite <- Z.pow_succ_r by lia. rewrite <- Nat2Z.inj_succ. lia. }
    destruct (IH (n / 10) Hf Pf) as (N & F & V & L). pose proof (Z.mod_pos_bound n 10 ltac:(lia)).
    split; [destruct (zu f (n / 10)); discriminate|]. split; [apply Forall_app; split; [exact F|constructor; [unfold digit; lia|constructor]]|].
    split; [rewrite value_app, V; pose proof (Z.div_mod n 10 ltac:(lia)); lia|].
    destruct (zu f (n / 10)) as [|d ds] eqn:E; [congruence|]. cbn [app hd] in *. intros K. specialize (L K). injection L as -> ->.
    exfalso. unfold value_of in V. cbn [fold_left] in V. pose proof (Z.div_str_pos n 10 ltac:(lia)). lia.
Qed.
Lemma decimal_spec : forall n, 0 <= n < 2 ^ 64 -> decimal_text (decimal n) n.
Proof.
  intros n H. unfold decimal, wrap_u64. rewrite Z.mod_small by lia. apply zu_spec; [|lia]. change (10 ^ Z.of_nat 20) with 100000000000000000000. lia.
Qed.

(** ** The writer *)
Lemma w_bad_id : forall w, wbad w = true -> w_bad w = w.
Proof. intros [o r bd n l] H. cbn in H. subst. reflexivity. Qed.
Lemma value_loop_bad : forall fuel st l w, wbad w = true -> (0 < fuel)%nat -> put_value_loop fuel st l w = Ret w.
Proof.
  intros [|fuel] st l w B P; [lia|]. cbn [put_value_loop]. set (sp := skip_spaces_in_header_value l).
  assert (put_space w = w) as Ps by (unfold put_space; apply put_char_keeps_bad, B).
  replace (if st && (0 <? sp) && (0 <? zlen (drop sp l)) then put_space w else w) with w by (destruct (_ && _); [symmetry; exact Ps|reflexivity]).
  destruct (drop sp l) as [|x k]; [cbn [app]; rewrite B; reflexivity|].
  destruct (is_abcprint x).
  - rewrite put_chars_bad by exact B. rewrite B. reflexivity.
  - rewrite w_bad_id by exact B. rewrite B. reflexivity.
Qed.
Lemma put_bad : forall c buf w, wbad w = true -> has_item response (wcall_item c) = true ->
  exists w', put_call response c buf w = Ret w' /\ wout w' = wout w /\ wbad w' = true.
Proof.
  intros c buf w B H.
  assert (forall n, wout (set_pstate w n) = wout w /\ wbad (set_pstate w n) = true) as K by (intros; split; [reflexivity|exact B]).
  assert (put_crlf w = w) as Pc by (unfold put_crlf; destruct (wltr w); do 2 (rewrite put_char_keeps_bad; [|try exact B; rewrite put_char_keeps_bad; exact B]); reflexivity).
  assert (put_space w = w) as Ps by (unfold put_space; apply put_char_keeps_bad, B).
  assert (forall l, put_protocol_digits w l = (w, l)) as Pd by (intros; unfold put_protocol_digits; rewrite B; reflexivity).
  assert (forall l, put_protocol_dot w l = (w, l)) as Pt by (intros; unfold put_protocol_dot; rewrite B; reflexivity).
  destruct c as [it|]; [destruct it; try discriminate H|]; cbn [put_call].
  - exists (set_pstate w status_code). split; [|apply K]. unfold put_protocol_of. f_equal. f_equal.
    assert (put_protocol w buf = w) as Pp.
    { unfold put_protocol. destruct ((zlen buf <? 5) || negb _).
      - rewrite (w_bad_id w B). rewrite Pd, Pt, Pd, B; reflexivity.
      - unfold put_bytes. rewrite put_chars_bad by exact B. rewrite Pd, Pt, Pd, B; reflexivity. }
    rewrite Pp. exact Ps.
  - exists (set_pstate w reason_phrase). split; [|apply K]. unfold put_status_code. rewrite put_chars_bad by exact B. cbn [snd]. rewrite Ps. reflexivity.
  - exists (set_pstate w header_name). split; [|apply K]. unfold put_reason_phrase. rewrite put_chars_bad by exact B. cbn [snd]. rewrite Pc. reflexivity.
  - exists (set_pstate w header_value). split; [|apply K]. unfold put_header_name. rewrite put_chars_bad by exact B. rewrite B. cbn [negb andb]. rewrite B. reflexivity.
  - exists (set_pstate w header_name). split; [|apply K]. unfold put_header_value. rewrite value_loop_bad by (first [exact B|lia]). cbn [bind]. rewrite Pc. reflexivity.
  - exists (set_pstate w body). split; [|apply K]. unfold put_body, put_bytes. rewrite put_chars_bad by exact B. reflexivity.
  - exists (set_pstate w body). split; [|apply K]. unfold end_headers. rewrite Pc. reflexivity.
Qed.
Lemma writes_bad : forall cs w w', wbad w = true -> Forall (fun x => has_item response (wcall_item (fst x)) = true) cs -> write_calls response cs w = Ret w' -> wout w' = wout w.
Proof.
  induction cs as [|[c buf] cs IH]; intros w w' B F H; cbn [write_calls] in H; [injection H as <-; reflexivity|].
  inversion F as [|? ? Fc F']; subst. cbn [fst] in Fc. destruct (put_bad c buf w B Fc) as (w1 & E & O & B1).
  unfold write_call in H. destruct (item_eqb (wnext w) (wcall_item c)); [|discriminate H]. rewrite E in H. cbn [bind] in H. rewrite (IH w1 w' B1 F' H). exact O.
Qed.

(** ** Responses *)
Definition response_calls (code reason : list Z) (ctype : option (list Z)) (len : list Z) (bs : list (list Z)) : list (wcall * list Z) :=
  status_calls code reason
  ++ header_calls "Connection" (b "close")
  ++ match ctype with Some t => header_calls "Content-Type" t | None => [] end
  ++ header_calls "Content-Length" len
  ++ [(End_headers, [])] ++ map (fun x => (Put body, x)) bs.
Definition head_of (ctype : option (list Z)) (words : list (list Z)) (len : list Z) : list header :=
  [{| h_name := b "Connection"; h_value := b "close"; h_words := [b "close"] |}]
  ++ match ctype with Some t => [{| h_name := b "Content-Type"; h_value := t; h_words := words |}] | None => [] end
  ++ [{| h_name := b "Content-Length"; h_value := len; h_words := [len] |}].
Lemma response_message : forall code reason ctype words len bs, response_calls code reason ctype len bs = message_puts response (b "HTTP/1.1") code reason (head_of ctype words len) bs.
Proof. intros. destruct ctype; reflexivity. Qed.
Lemma name_ok : forall s : string, b s <> [] -> Forall (fun c => http_is_token c = true) (b s) -> header_name_text (b s).
Proof. intros s N F. split; [exact N|]. eapply Forall_impl; [|exact F]. intros a. apply token_iff. Qed.
Lemma one_word : forall w, w <> [] -> Forall printable w -> value_text true w [w].
Proof. intros w N F. rewrite <- (app_nil_r w) at 1. apply (value_word true [] w [] []); [constructor|discriminate|exact N|exact F|constructor; constructor]. Qed.
(** The header values that are sent. *)
Definition ctype_ok (ctype : option (list Z)) (words : list (list Z)) : Prop := match ctype with Some t => value_text true t words /\ join words = t | None => True end.
Lemma head_ok : forall ctype words len, ctype_ok ctype words -> len <> [] -> Forall digit len -> Forall header_ok (head_of ctype words len).
Proof.
  intros ctype words len C N D. unfold head_of.
  assert (Forall printable len) as P. { eapply Forall_impl; [|exact D]. unfold digit, printable. intros; lia. }
  assert (header_ok {| h_name := b "Connection"; h_value := b "close"; h_words := [b "close"] |}) as H1.
  { split; cbn [h_name h_value h_words]; [apply name_ok; [discriminate|repeat constructor]|]. apply one_word; [discriminate|]. eapply Forall_impl; [intros a; apply printable_iff|]. repeat constructor. }
  assert (header_ok {| h_name := b "Content-Length"; h_value := len; h_words := [len] |}) as H3.
  { split; cbn [h_name h_value h_words]; [apply name_ok; [discriminate|repeat constructor]|]. apply one_word; assumption. }
  destruct ctype as [t|]; cbn [app]; repeat (apply Forall_cons; [assumption|]); [|constructor].
  apply Forall_cons; [|apply Forall_cons; [exact H3|constructor]]. split; cbn [h_name h_value h_words]; [apply name_ok; [discriminate|repeat constructor]|]. apply C.
Qed.
Lemma response_out : forall code reason ctype words len bs, code <> [] -> Forall digit code -> reason_text reason -> ctype_ok ctype words -> len <> [] -> Forall digit len ->
  exists w, write_calls response (response_calls code reason ctype len bs) (http_writer response None true) = Ret w /\
    wout w = response_text code reason ctype len (concat bs).
Proof.
  intros code reason ctype words len bs Nc Dc R C Nl Dl. rewrite (response_message code reason ctype words len bs).
  destruct (write_message response (b "HTTP/1.1") code reason (head_of ctype words len) bs) as (w & E & _ & O).
  - split; [|split; [split; [exact Nc|exact Dc]|exact R]]. exists [49], [49]. split; [reflexivity|]. repeat split; try discriminate; repeat constructor; unfold digit; lia.
  - apply head_ok; assumption.
  - exists w. split; [exact E|]. rewrite O. unfold message_text, start_line_text, response_text, head_of, CRLF.
    destruct ctype as [t|]; cbn [flat_map app]; unfold header_text; cbn [h_name h_words join]; [destruct C as (_ & C); rewrite C|]; do 4 (rewrite <- ?app_assoc; cbn [app]); reflexivity.
Qed.
Lemma writes_any : forall code reason ctype len bs w, wnext w = first_item response -> exists w', write_calls response (response_calls code reason ctype len bs) w = Ret w'.
Proof.
  intros code reason ctype len bs w Hn. apply (proj1 (write_calls_chain response _ w ltac:(rewrite Hn; reflexivity))).
  rewrite Hn. unfold response_calls. apply (proj2 (chain_message response _)).
  exists (match ctype with Some _ => 3%nat | None => 2%nat end), (length bs). exists []. rewrite app_nil_r.
  destruct ctype; cbn; rewrite map_map; cbn; f_equal; induction bs; cbn; congruence.
Qed.
Lemma response_items : forall code reason ctype len bs, Forall (fun x => has_item response (wcall_item (fst x)) = true) (response_calls code reason ctype len bs).
Proof.
  intros. unfold response_calls, status_calls, header_calls. destruct ctype; cbn [app]; repeat (constructor; [reflexivity|]); apply Forall_forall; intros x Hx; apply in_map_iff in Hx; destruct Hx as (? & <- & _); reflexivity.
Qed.

(** ** Content types can be sent *)
Lemma spaced_value_false : forall words, Forall (fun w => w <> [] /\ Forall printable w) words -> words <> [] -> value_text false ([32] ++ join words) words.
Proof.
  induction words as [|w words IH]; intros F N; [congruence|]. inversion F as [|? ? (Nw & Pw) F']; subst.
  assert (gap [32]) as G by (constructor; [left; reflexivity|constructor]).
  destruct words as [|w' words].
  - cbn [join]. rewrite <- (app_nil_r w) at 1. apply value_word; [exact G|discriminate|exact Nw|exact Pw|constructor; constructor].
  - change (join (w :: w' :: words)) with (w ++ [32] ++ join (w' :: words)). apply value_word; [exact G|discriminate|exact Nw|exact Pw|]. apply IH; [exact F'|discriminate].
Qed.
Lemma spaced_value : forall words, Forall (fun w => w <> [] /\ Forall printable w) words -> value_text true (join words) words.
Proof.
  intros [|w words] F; [constructor; constructor|]. inversion F as [|? ? (Nw & Pw) F']; subst.
  destruct words as [|w' words]; [apply one_word; assumption|].
  change (join (w :: w' :: words)) with ([] ++ w ++ [32] ++ join (w' :: words)). apply value_word; [constructor|discriminate|exact Nw|exact Pw|]. apply spaced_value_false; [exact F'|discriminate].
Qed.
Lemma spaced_ok : forall t, spaced_words t -> exists words, ctype_ok (Some t) words.
Proof. intros t (words & -> & F). exists words. split; [apply spaced_value, F|reflexivity]. Qed.
Lemma spaced_one_line : forall t, spaced_words t -> one_line t.
Proof.
  intros t (words & -> & F). unfold one_line. induction F as [|w words (_ & P) F IH]; [intros []|].
  assert (~ In 13 w) as Nw. { intros I. rewrite Forall_forall in P. apply P in I. unfold printable in I. lia. }
  destruct words as [|w' words]; [exact Nw|]. change (join (w :: w' :: words)) with (w ++ [32] ++ join (w' :: words)).
  rewrite !in_app_iff. intros [K|[[K|[]]|K]]; [contradiction|discriminate|contradiction].
Qed.
Lemma printable_b : forall s : string, forallb is_abcprint (b s) = true -> Forall printable (b s).
Proof. intros s H. rewrite forallb_forall in H. apply Forall_forall. intros x I. apply printable_iff. auto. Qed.
Ltac words_of l := exists l; split; [reflexivity|]; repeat (apply Forall_cons; [split; [discriminate|apply printable_b; reflexivity]|]); apply Forall_nil.
Lemma media_sent : forall x y, In (x, y) media_types -> spaced_words (b y).
Proof.
  intros x y H. unfold media_types in H. cbn [In] in H.
  repeat (destruct H as [H|H]; [injection H as _ <-|]); [..|contradiction].
  - words_of [b "text/html;"; b "charset=utf-8"].
  - words_of [b "text/css;"; b "charset=utf-8"].
  - words_of [b "text/javascript;"; b "charset=utf-8"].
  - words_of [b "text/plain;"; b "charset=utf-8"].
  - words_of [b "text/xml;"; b "charset=utf-8"].
  - words_of [b "image/png"].
  - words_of [b "image/jpeg"].
  - words_of [b "image/jpeg"].
  - words_of [b "image/gif"].
  - words_of [b "image/bmp"].
  - words_of [b "image/svg+xml"].
Qed.
Lemma plain_sent : spaced_words text_plain.
Proof. apply (media_sent "txt"). unfold media_types. cbn. tauto. Qed.

(** ** Responses *)
Lemma decimal_digits : forall n, 0 <= n < 2 ^ 64 -> decimal n <> [] /\ Forall digit (decimal n).
Proof. intros n H. destruct (decimal_spec n H) as (A & B & _). auto. Qed.
Lemma zlen_u64 : forall n, 0 <= wrap_u64 n < 2 ^ 64.
Proof. intros. unfold wrap_u64. apply Z.mod_pos_bound. lia. Qed.
Lemma decimal_wrap : forall n, decimal n = decimal (wrap_u64 n).
Proof. intros. unfold decimal. f_equal. unfold wrap_u64. rewrite Z.mod_mod by lia. reflexivity. Qed.
Lemma simple_calls : forall code reason ctype body, simple_response code reason ctype body = response_calls code reason (Some ctype) (decimal (zlen body)) [body].
Proof. reflexivity. Qed.
Lemma simple_out : forall code reason ctype body, code <> [] -> Forall digit code -> reason_text reason -> spaced_words ctype -> zlen body < 2 ^ 64 ->
  exists w, write_calls response (simple_response code reason ctype body) (http_writer response None true) = Ret w /\ responds (wout w) code reason (Some ctype) body.
Proof.
  intros code reason ctype body Nc Dc R C L. pose proof (zlen_nonneg _ body). rewrite simple_calls.
  destruct (spaced_ok _ C) as (words & C'). destruct (decimal_digits (zlen body) ltac:(lia)) as (Nl & Dl).
  destruct (response_out code reason (Some ctype) words (decimal (zlen body)) [body] Nc Dc R C' Nl Dl) as (w & E & O).
  exists w. split; [exact E|]. exists (decimal (zlen body)). cbn [concat] in O. rewrite app_nil_r in O. split; [exact O|apply decimal_spec; lia].
Qed.
Lemma chunks_all : forall n d, zlen d <= Z.of_nat n * file_chunk_size -> concat (chunks n d) = d.
Proof.
  induction n as [|n IH]; intros d H; cbn [chunks concat].
  - pose proof (zlen_nonneg _ d). destruct d; [reflexivity|]. rewrite zlen_cons in *. pose proof (zlen_nonneg _ d). lia.
  - unfold file_chunk_size in *. rewrite IH; [apply take_drop|]. destruct (Z.le_gt_cases 1024 (zlen d)).
    + rewrite zlen_drop by lia. lia.
    + unfold drop. rewrite skipn_all2; [rewrite zlen_nil; lia|]. unfold zlen in *. lia.
Qed.
Lemma file_calls : forall t f, file_response t f = response_calls (b "200") (b "OK") t (decimal (f_size f)) (chunks (Z.to_nat ((f_size f + file_chunk_size - 1) / file_chunk_size)) (f_data f)).
Proof. reflexivity. Qed.
Definition type_sent (t : option (list Z)) : Prop := match t with Some t => spaced_words t | None => True end.
Lemma ok_words : forall t, type_sent t -> exists words, ctype_ok t words.
Proof. intros [t|] H; [apply spaced_ok, H|exists []; exact I]. Qed.
Lemma ok_text : forall s : string, forallb is_abcprint_or_space (b s) = true -> match b s with c :: _ => is_abcprint c = true | [] => True end -> reason_text (b s).
Proof.
  intros s H K. split.
  - rewrite forallb_forall in H. apply Forall_forall. intros x I. specialize (H x I). unfold is_abcprint_or_space, is_abcprint, is_space, is_between, printable, blank in *. lia.
  - destruct (b s) as [|c l]; [exact I|]. apply printable_iff in K. unfold printable, blank in *. lia.
Qed.
Lemma code_digits : forall s : string, forallb is_digit (b s) = true -> Forall digit (b s).
Proof. intros s H. rewrite forallb_forall in H. apply Forall_forall. intros x K. specialize (H x K). unfold is_digit, is_between, digit in *. lia. Qed.
Lemma file_out : forall t f, type_sent t -> stable f ->
  exists w, write_calls response (file_response t f) (http_writer response None true) = Ret w /\ responds (wout w) (b "200") (b "OK") t (f_data f).
Proof.
  intros t f C (S & L). pose proof (zlen_nonneg _ (f_data f)). rewrite file_calls. destruct (ok_words _ C) as (words & C').
  assert (0 <= f_size f < 2 ^ 64) as B by lia. destruct (decimal_digits _ B) as (Nl & Dl).
  destruct (response_out (b "200") (b "OK") t words (decimal (f_size f)) (chunks (Z.to_nat ((f_size f + file_chunk_size - 1) / file_chunk_size)) (f_data f))) as (w & E & O);
    [discriminate|apply code_digits; reflexivity|apply ok_text; reflexivity|exact C'|exact Nl|exact Dl|].
  exists w. split; [exact E|]. exists (decimal (f_size f)). split; [|rewrite <- S; apply decimal_spec, B].
  rewrite chunks_all in O; [exact O|]. unfold file_chunk_size. rewrite Z2Nat.id by (apply Z.div_pos; lia).
  pose proof (Z.div_mod (f_size f + 1024 - 1) 1024 ltac:(lia)). pose proof (Z.mod_pos_bound (f_size f + 1024 - 1) 1024 ltac:(lia)). lia.
Qed.
Lemma file_status_out : forall t f, type_sent t ->
  exists w, write_calls response (file_response t f) (http_writer response None true) = Ret w /\
    wout w = response_text (b "200") (b "OK") t (decimal (f_size f)) (concat (chunks (Z.to_nat ((f_size f + file_chunk_size - 1) / file_chunk_size)) (f_data f))).
Proof.
  intros t f C. rewrite file_calls. destruct (ok_words _ C) as (words & C'). rewrite decimal_wrap. destruct (decimal_digits _ (zlen_u64 (f_size f))) as (Nl & Dl).
  apply (response_out (b "200") (b "OK") t words); [discriminate|apply code_digits; reflexivity|apply ok_text; reflexivity|exact C'|exact Nl|exact Dl].
Qed.
Lemma media_type_sent : forall p t, media_type p t -> type_sent t.
Proof. intros p [t|] H; [|exact I]. destruct H as (e & x & y & _ & I & _ & ->). exact (media_sent x y I). Qed.

(** ** Requests *)
(** What a request with method [m] and resource [r] leads to: the file, the shutdown and the calls. *)
Inductive outcome (c : config) (fs : fsystem) (root m r : list Z) : option (list Z) -> bool -> list (wcall * list Z) -> Prop :=
| oc_405 : file_asked c m r -> ~ same_i m (b "GET") -> outcome c fs root m r None false (simple_response (b "405") (b "Method Not Allowed") text_plain get_only)
| oc_404 : file_asked c m r -> same_i m (b "GET") -> fs (root ++ r) = None -> outcome c fs root m r (Some (root ++ r)) false (simple_response (b "404") (b "Not Found") text_plain not_found)
| oc_200 : forall f t, file_asked c m r -> same_i m (b "GET") -> fs (root ++ r) = Some f -> media_type (root ++ r) t -> outcome c fs root m r (Some (root ++ r)) false (file_response t f)
| oc_rest : forall sh, ~ file_asked c m r -> (sh = true <-> same_i m (b "POST") /\ same_i r (b "/shutdown")) -> outcome c fs root m r None sh (simple_response (b "200") (b "200") text_plain todo).
Lemma outcome_calls : forall c fs root m r p sh cs, outcome c fs root m r p sh cs -> exists code reason t len bs, cs = response_calls code reason t len bs.
Proof. intros c fs root m r p sh cs H. destruct H; rewrite ?simple_calls, ?file_calls; repeat eexists. Qed.
Lemma process_line : forall c fs ltr mb pb qb l root m r x y s,
  root_dir c = Some root -> no_nul root -> prefix_text c -> no_nul m -> no_nul r ->
  read_line c mb pb qb l = Ret (m ++ 0 :: x, root ++ r ++ 0 :: y, s) ->
  exists p sh cs w, outcome c fs root m r p sh cs /\ write_calls response cs (server_writer s ltr) = Ret w /\
    process_request c fs ltr mb pb qb l = Ret {| a_file := p; a_shut := sh; a_calls := cs; a_out := wout w |}.
Proof.
  intros c fs ltr mb pb qb l root m r x y s Hroot Nroot Hp Nm Nr E. unfold process_request. rewrite E. cbn [bind]. rewrite Hroot, drop_app_exact.
  assert (forall p sh cs, outcome c fs root m r p sh cs -> exists w, write_calls response cs (server_writer s ltr) = Ret w) as Wr.
  { intros p sh cs O. destruct (outcome_calls _ _ _ _ _ _ _ _ O) as (? & ? & ? & ? & ? & ->). apply writes_any. reflexivity. }
  destruct (is_file c m r x y Hp Nm Nr) as (v & Ev & Sv). rewrite Ev. destruct v.
  - assert (file_asked c m r) as Fa by (apply Sv; reflexivity). unfold file_request.
    destruct (equal_i m x "GET" Nm ltac:(nn)) as (g & Eg & Sg). rewrite Eg. destruct g.
    + assert (same_i m (b "GET")) as Gm by (apply Sg; reflexivity). rewrite app_assoc, c_str_app by (apply Forall_app; split; assumption).
      destruct (fs (root ++ r)) as [f|] eqn:Ef.
      * destruct (type_of (root ++ r)) as (t & Et & Mt). { apply Forall_app; split; assumption. } rewrite Et. cbn [bind].
        pose proof (oc_200 c fs root m r f t Fa Gm Ef Mt) as O. destruct (Wr _ _ _ O) as (w & W). rewrite W. cbn [bind].
        exists (Some (root ++ r)), false, (file_response t f), w. auto.
      * cbn [bind]. pose proof (oc_404 c fs root m r Fa Gm Ef) as O. destruct (Wr _ _ _ O) as (w & W). unfold b in *. rewrite W. cbn [bind].
        do 4 eexists. split; [exact O|]. split; [exact W|reflexivity].
    + cbn [bind]. assert (~ same_i m (b "GET")) as Gm by (rewrite <- Sg; discriminate).
      pose proof (oc_405 c fs root m r Fa Gm) as O. destruct (Wr _ _ _ O) as (w & W). unfold b in *. rewrite W. cbn [bind].
      do 4 eexists. split; [exact O|]. split; [exact W|reflexivity].
  - assert (~ file_asked c m r) as Fa by (rewrite <- Sv; discriminate). unfold rest_request.
    destruct (equal_i m x "POST" Nm ltac:(nn)) as (g & Eg & Sg). rewrite Eg.
    destruct (equal_i r y "/shutdown" Nr ltac:(nn)) as (h & Eh & Sh). rewrite Eh.
    assert (outcome c fs root m r None (g && h) (simple_response (b "200") (b "200") text_plain todo)) as O.
    { apply oc_rest; [exact Fa|]. rewrite andb_true_iff, Sg, Sh. reflexivity. }
    destruct (Wr _ _ _ O) as (w & W). exists None, (g && h), (simple_response (b "200") (b "200") text_plain todo), w. split; [exact O|]. split; [exact W|].
    unfold b in *. destruct g; [destruct h|]; cbn [bind andb]; rewrite W; reflexivity.
Qed.
Lemma server_writer_good : forall s, is_good s = true -> server_writer s true = http_writer response None true.
Proof. intros s G. unfold server_writer. rewrite G. reflexivity. Qed.

Section Requests.
Variables (c : config) (fs : fsystem) (root mb pb qb : list Z).
Hypothesis Hroot : root_dir c = Some root.
Hypothesis Harr : arrays root mb pb qb.
Hypothesis Hpre : prefix_text c.
Lemma process_any : forall ltr l, exists m r p sh cs s w,
  no_nul m /\ no_nul r /\ outcome c fs root m r p sh cs /\ write_calls response cs (server_writer s ltr) = Ret w /\
  process_request c fs ltr mb pb qb l = Ret {| a_file := p; a_shut := sh; a_calls := cs; a_out := wout w |}.
Proof.
  intros ltr l. destruct (read_any c root mb pb qb Hroot Harr l) as (m & r & x & y & s & E & Nm & Nr).
  destruct (process_line c fs ltr mb pb qb l root m r x y s Hroot ltac:(apply Harr) Hpre Nm Nr E) as (p & sh & cs & w & O & W & P).
  exists m, r, p, sh, cs, s, w. auto.
Qed.
Lemma process_good : forall l m r, request_line root l m r -> exists p sh cs w,
  outcome c fs root m r p sh cs /\ write_calls response cs (http_writer response None true) = Ret w /\
  process_request c fs true mb pb qb l = Ret {| a_file := p; a_shut := sh; a_calls := cs; a_out := wout w |}.
Proof.
  intros l m r H. destruct (read_good c root mb pb qb Hroot Harr l m r H) as (x & y & s & E & Nm & Nr & G).
  destruct (process_line c fs true mb pb qb l root m r x y s Hroot ltac:(apply Harr) Hpre Nm Nr E) as (p & sh & cs & w & O & W & P).
  rewrite (server_writer_good s G) in W. exists p, sh, cs, w. auto.
Qed.

(** C32 *)
Lemma simple_resp : forall (code reason : string) body w, forallb is_digit (b code) = true -> b code <> [] -> forallb is_abcprint_or_space (b reason) = true ->
  match b reason with x :: _ => is_abcprint x = true | [] => True end -> zlen body < 2 ^ 64 ->
  write_calls response (simple_response (b code) (b reason) text_plain body) (http_writer response None true) = Ret w -> responds (wout w) (b code) (b reason) (Some text_plain) body.
Proof.
  intros code reason body w D N R1 R2 L W. destruct (simple_out (b code) (b reason) text_plain body) as (w' & E & H); [exact N|apply code_digits, D|apply ok_text; assumption|exact plain_sent|exact L|].
  rewrite W in E. injection E as <-. exact H.
Qed.
Lemma routing : forall l m r, request_line root l m r -> exists a, process_request c fs true mb pb qb l = Ret a /\
  (file_asked c m r -> a_shut a = false) /\
  (file_asked c m r -> ~ same_i m (b "GET") ->
     a_file a = None /\ responds (a_out a) (b "405") (b "Method Not Allowed") (Some (b "text/plain; charset=utf-8")) (b "GET is the only supported method for static files.")) /\
  (file_asked c m r -> same_i m (b "GET") -> fs (root ++ r) = None ->
     a_file a = Some (root ++ r) /\ responds (a_out a) (b "404") (b "Not Found") (Some (b "text/plain; charset=utf-8")) (b "Error: The requested resource was not found.")) /\
  (forall f, file_asked c m r -> same_i m (b "GET") -> fs (root ++ r) = Some f -> stable f ->
     a_file a = Some (root ++ r) /\ exists t, media_type (root ++ r) t /\ responds (a_out a) (b "200") (b "OK") t (f_data f)) /\
  (~ file_asked c m r ->
     a_file a = None /\ (a_shut a = true <-> same_i m (b "POST") /\ same_i r (b "/shutdown")) /\
     responds (a_out a) (b "200") (b "200") (Some (b "text/plain; charset=utf-8")) (b "TODO: Override process_rest_request().")).
Proof.
  intros l m r H. destruct (process_good l m r H) as (p & sh & cs & w & O & W & P). eexists. split; [exact P|]. cbn [a_file a_shut a_calls a_out]. clear P.
  destruct O as [Fa Gm|Fa Gm Ef|f t Fa Gm Ef Mt|sh Fa Ss].
  - split; [reflexivity|]. split; [|tauto]. intros _ _. split; [reflexivity|]. exact (simple_resp "405"%string "Method Not Allowed"%string get_only w eq_refl ltac:(discriminate) eq_refl eq_refl eq_refl W).
  - split; [reflexivity|]. split; [tauto|]. split; [|split; [|tauto]]; [|intros f' _ _ E; congruence]. intros _ _ _. split; [reflexivity|]. exact (simple_resp "404"%string "Not Found"%string not_found w eq_refl ltac:(discriminate) eq_refl eq_refl eq_refl W).
  - split; [reflexivity|]. split; [tauto|]. split; [intros _ _ E; congruence|]. split; [|tauto]. intros f' _ _ E St. rewrite E in Ef. injection Ef as <-. split; [reflexivity|]. exists t. split; [exact Mt|].
    destruct (file_out t f' (media_type_sent _ _ Mt) St) as (w' & E' & R). rewrite W in E'. injection E' as <-. exact R.
  - split; [tauto|]. split; [tauto|]. split; [tauto|]. split; [tauto|]. intros _. split; [reflexivity|]. split; [exact Ss|]. exact (simple_resp "200"%string "200"%string todo w eq_refl ltac:(discriminate) eq_refl eq_refl eq_refl W).
Qed.

(** C66 *)
Lemma digits_line : forall t, Forall digit t -> one_line t.
Proof. intros t F K. rewrite Forall_forall in F. apply F in K. unfold digit in K. lia. Qed.
Lemma all_or_nothing : (forall p f, fs p = Some f -> stable f) -> forall l, exists a, process_request c fs true mb pb qb l = Ret a /\ (a_out a = [] \/ some_response (a_out a)).
Proof.
  intros St l. destruct (process_any true l) as (m & r & p & sh & cs & s & w & Nm & Nr & O & W & P). eexists. split; [exact P|]. cbn [a_out]. clear P.
  destruct (is_good s) eqn:G.
  - right. rewrite (server_writer_good s G) in W.
    assert (forall code reason body, forallb is_digit (b code) = true -> b code <> [] -> forallb is_abcprint_or_space (b reason) = true ->
      match b reason with x :: _ => is_abcprint x = true | [] => True end -> zlen body < 2 ^ 64 ->
      write_calls response (simple_response (b code) (b reason) text_plain body) (http_writer response None true) = Ret w -> some_response (wout w)) as K.
    { intros code reason body D N R1 R2 L W'. exists (b code), (b reason), (Some text_plain), body. split; [apply digits_line, code_digits, D|]. split; [|split; [apply spaced_one_line, plain_sent|eapply simple_resp; eauto]].
      intros I. rewrite forallb_forall in R1. apply R1 in I. discriminate. }
    destruct O as [Fa Gm|Fa Gm Ef|f t Fa Gm Ef Mt|sh Fa Ss];
      [exact (K "405"%string "Method Not Allowed"%string get_only eq_refl ltac:(discriminate) eq_refl eq_refl eq_refl W)|exact (K "404"%string "Not Found"%string not_found eq_refl ltac:(discriminate) eq_refl eq_refl eq_refl W)| |exact (K "200"%string "200"%string todo eq_refl ltac:(discriminate) eq_refl eq_refl eq_refl W)].
    destruct (file_out t f (media_type_sent _ _ Mt) (St _ _ Ef)) as (w' & E' & R). rewrite W in E'. injection E' as <-.
    exists (b "200"), (b "OK"), t, (f_data f). split; [apply digits_line, code_digits; reflexivity|]. split; [intros K'; cbn in K'; intuition discriminate|]. split; [|exact R].
    pose proof (media_type_sent _ _ Mt) as Ts. destruct t as [t|]; [apply spaced_one_line, Ts|exact I].
  - left. destruct (outcome_calls _ _ _ _ _ _ _ _ O) as (? & ? & ? & ? & ? & ->). assert (wbad (server_writer s true) = true) as B by (unfold server_writer; cbn [wbad]; rewrite G; reflexivity).
    rewrite (writes_bad _ _ _ B (response_items _ _ _ _ _) W). reflexivity.
Qed.

(** C30 *)
Lemma opened : forall ltr l, exists a, process_request c fs ltr mb pb qb l = Ret a /\
  forall p, a_file a = Some p -> exists m r, p = root ++ r /\ file_asked c m r /\ no_nul r.
Proof.
  intros ltr l. destruct (process_any ltr l) as (m & r & p & sh & cs & s & w & Nm & Nr & O & W & P). eexists. split; [exact P|]. cbn [a_file].
  destruct O; intros q [= <-]; exists m, r; auto.
Qed.
End Requests.

(** ** Paths *)
Lemma components_cons : forall p, components p <> [].
Proof. intros [|x p]; cbn [components]; [discriminate|]. destruct (x =? 47); [discriminate|]. destruct (components p); discriminate. Qed.
Lemma components_slash : forall a p, components (a ++ 47 :: p) = components a ++ components p.
Proof.
  induction a as [|x a IH]; intros p; [reflexivity|]. cbn [app components]. rewrite IH. destruct (x =? 47); [reflexivity|].
  pose proof (components_cons a). destruct (components a); [congruence|reflexivity].
Qed.
Lemma walk_app : forall abs l at_ l', walk abs at_ (l ++ l') = walk abs (walk abs at_ l) l'.
Proof.
  induction l as [|x l IH]; intros at_ l'; [reflexivity|]. cbn [app walk]. destruct (list_eq_dec _ x []); [apply IH|]. destruct (list_eq_dec _ x dot); [apply IH|].
  destruct (list_eq_dec _ x dotdot); [|apply IH]. destruct at_ as [|y at_]; [apply IH|]. destruct (list_eq_dec _ y dotdot); apply IH.
Qed.
Lemma walk_down : forall abs l at_, ~ In dotdot l -> exists t, walk abs at_ l = t ++ at_ /\ ~ In dotdot t.
Proof.
  induction l as [|x l IH]; intros at_ N; [exists []; split; [reflexivity|intros []]|]. cbn [walk].
  assert (~ In dotdot l) as Nl by (intros K; apply N; right; exact K).
  destruct (list_eq_dec _ x []); [apply IH, Nl|]. destruct (list_eq_dec _ x dot); [apply IH, Nl|].
  destruct (list_eq_dec _ x dotdot) as [->|D]; [exfalso; apply N; left; reflexivity|].
  destruct (IH (x :: at_) Nl) as (t & E & Nt). exists (t ++ [x]). rewrite <- app_assoc. split; [exact E|]. rewrite in_app_iff. intros [K|[K|[]]]; [contradiction|congruence].
Qed.
Lemma below_slash : forall root r, root <> [] -> no_dotdot (47 :: r) -> below root (root ++ 47 :: r).
Proof.
  intros root r N D. assert (is_absolute (root ++ 47 :: r) = is_absolute root) as A by (destruct root; [congruence|reflexivity]).
  split.
  - destruct root as [|x root]; [congruence|]. unfold absolute. cbn [app]. split; intros (q & [= -> <-]); eexists; reflexivity.
  - unfold place. rewrite A, components_slash, walk_app. apply walk_down. unfold no_dotdot in D. cbn [components] in D. intros K. apply D. right. exact K.
Qed.
Lemma lower_slash : forall x, lower x = 47 -> x = 47.
Proof. intros x H. unfold lower in H. destruct (_ && _) eqn:E in H; lia. Qed.
Lemma same_i_slash : forall s, same_i s (b "/favicon.ico") -> absolute s.
Proof. intros [|x s] H; [discriminate|]. exists s. unfold same_i in H. cbn [map] in H. injection H as H _. apply lower_slash in H. subst. reflexivity. Qed.
Lemma asked_slash : forall c m r, slash_prefix c -> file_asked c m r -> absolute r.
Proof.
  intros c m r Hs [(p & s & t & E & -> & S)|(_ & S)]; [|exact (same_i_slash _ S)].
  unfold slash_prefix in Hs. rewrite E in Hs. destruct Hs as (q & ->). destruct s as [|x s]; [discriminate|]. exists (s ++ t).
  unfold same_i in S. cbn [map] in S. injection S as S _. apply lower_slash in S. subst. reflexivity.
Qed.

(** ** Refutations *)
Lemma cut_line : forall a a' x y, one_line a -> one_line a' -> a ++ 13 :: x = a' ++ 13 :: y -> a = a' /\ x = y.
Proof.
  unfold one_line. induction a as [|c a IH]; intros [|c' a'] x y N N' H; cbn [app] in H.
  - injection H as ->. auto.
  - injection H as <- _. exfalso. apply N'. left. reflexivity.
  - injection H as -> _. exfalso. apply N. left. reflexivity.
  - injection H as -> H. destruct (IH a' x y) as (-> & ->); [intros K; apply N; right; exact K|intros K; apply N'; right; exact K|exact H|auto].
Qed.
Lemma responds_length : forall code reason t len body code' reason' t' body', one_line code -> one_line reason -> match t with Some t => one_line t | None => True end -> Forall digit len ->
  one_line code' -> one_line reason' -> match t' with Some t => one_line t | None => True end ->
  responds (response_text code reason t len body) code' reason' t' body' -> body = body' /\ decimal_text len (zlen body').
Proof.
  intros code reason t len body code' reason' t' body' Nc Nr Nt D Nc' Nr' Nt' (len' & E & Dt).
  assert (one_line len) as Nl by (apply digits_line, D). assert (one_line len') as Nl' by (apply digits_line, Dt).
  assert (len = len' /\ body = body') as (-> & ->); [|auto].
  assert (forall s : string, existsb (Z.eqb 13) (b s) = false -> one_line (b s)) as Ns.
  { intros s K I. assert (existsb (Z.eqb 13) (b s) = true) as K'; [|congruence]. apply existsb_exists. exists 13. auto. }
  assert (forall u v, one_line u -> one_line v -> one_line (u ++ v)) as Na.
  { unfold one_line. intros u v A B K. apply in_app_iff in K. tauto. }
  assert (forall cd rs ty ln bd, response_text cd rs ty ln bd = (b "HTTP/1.1 " ++ cd ++ b " " ++ rs) ++ 13 :: 10 :: b "Connection: close" ++ 13 :: 10 ::
    (match ty with Some t => (b "Content-Type: " ++ t) ++ 13 :: 10 :: (b "Content-Length: " ++ ln) ++ 13 :: 10 :: 13 :: 10 :: bd | None => (b "Content-Length: " ++ ln) ++ 13 :: 10 :: 13 :: 10 :: bd end)) as Rt.
  { intros. unfold response_text, CRLF. rewrite <- !app_assoc. cbn [app]. destruct ty; do 2 (rewrite <- ?app_assoc; cbn [app]); reflexivity. }
  assert (forall (x y : Z) u v, x :: u = y :: v -> u = v) as Tl by (intros x y u v K; injection K; auto).
  rewrite !Rt in E. apply cut_line in E; [|auto 6|auto 6]. destruct E as (_ & E). apply Tl in E.
  apply (app_inv_head (b "Connection: close")) in E. apply Tl in E. apply Tl in E.
  destruct t as [t|], t' as [t'|].
  - apply cut_line in E; [|auto|auto]. destruct E as (_ & E). apply Tl in E. apply cut_line in E; [|auto|auto]. destruct E as (E1 & E). do 3 apply Tl in E. apply app_inv_head in E1. auto.
  - cbn in E. discriminate.
  - cbn in E. discriminate.
  - apply cut_line in E; [|auto|auto]. destruct E as (E1 & E). do 3 apply Tl in E. apply app_inv_head in E1. auto.
Qed.
Lemma tokens_b : forall s : string, forallb http_is_token (b s) = true -> Forall token_char (b s).
Proof. intros s H. rewrite forallb_forall in H. apply Forall_forall. intros x K. apply token_iff. auto. Qed.
