(** Lemmas about the HTTP writers, and the round trip. *)

From Coq Require Import ZArith List Bool Lia ZifyBool.
From Verif Require Import Base ListMem Ascii_Model Http_Model Http_Spec Http_Calls Http_Proofs.
Import ListNotations.
Open Scope Z_scope.

(** ** C11: what the writers emit, for every argument *)
(** [w'] emitted [t] after [w]; nothing else changed but the error bits and the room. *)
Definition adds (w w' : hwr) (t : list Z) : Prop := wout w' = wout w ++ t /\ wltr w' = wltr w.
Lemma adds_refl : forall w, adds w w [].
Proof. intro w. split; [rewrite app_nil_r|]; reflexivity. Qed.
Lemma adds_trans : forall a b c t u, adds a b t -> adds b c u -> adds a c (t ++ u).
Proof. unfold adds. intros a b c t u (-> & E1) (-> & ->). rewrite app_assoc. auto. Qed.
Lemma adds_bad : forall w w' t, adds w w' t -> adds w (w_bad w') t.
Proof. intros w w' t H. exact H. Qed.
Lemma adds_pstate : forall w w' t n, adds w w' t -> adds w (set_pstate w' n) t.
Proof. intros w w' t n H. exact H. Qed.
Lemma put1_adds : forall w c, exists t, adds w (put1 w c) t /\ prefix t [c] /\ (wbad (put1 w c) = false -> t = [c]).
Proof.
  intros w c. unfold put1. destruct (wroom w) as [[|n]|].
  - exists []. split; [apply adds_bad, adds_refl|]. split; [exists [c]; reflexivity|discriminate].
  - exists [c]. repeat split. exists []. reflexivity.
  - exists [c]. repeat split. exists []. reflexivity.
Qed.
Lemma put_char_adds : forall w c, exists t, adds w (put_char w c) t /\ prefix t [c] /\ (wbad (put_char w c) = false -> t = [c]).
Proof.
  intros w c. unfold put_char. destruct (wbad w) eqn:E; [|apply put1_adds].
  exists []. split; [apply adds_refl|]. split; [exists [c]; reflexivity|]. congruence.
Qed.
Lemma put_chars_adds : forall pred l w, exists t, adds w (snd (put_chars pred w l)) t /\ Forall (fun c => pred c = true) t.
Proof.
  intros pred l; induction l as [|c l IH]; intro w; cbn [put_chars].
  - exists []. split; [apply adds_refl|constructor].
  - destruct (wbad w); [exists []; split; [apply adds_refl|constructor]|].
    destruct (pred c) eqn:P; [|exists []; split; [apply adds_refl|constructor]].
    destruct (put1_adds w c) as (t1 & A1 & (u & E1) & _). destruct (IH (put1 w c)) as (t2 & A2 & F2).
    destruct (put_chars pred (put1 w c) l) as [n w']. cbn [snd] in *.
    exists (t1 ++ t2). split; [eapply adds_trans; eassumption|]. apply Forall_app. split; [|exact F2].
    destruct t1 as [|x [|y t1]]; [constructor|injection E1 as -> _; constructor; auto|discriminate].
Qed.
Lemma prefix_one : forall t (c : Z) (P : Z -> Prop), prefix t [c] -> P c -> Forall P t.
Proof.
  intros t c P (u & E) H. destruct t as [|x [|y t]]; [constructor|injection E as -> _; constructor; auto|discriminate].
Qed.
Lemma put_char_keeps_bad : forall w c, wbad w = true -> put_char w c = w.
Proof. intros w c H. unfold put_char. now rewrite H. Qed.
Lemma put1_ltr : forall w c, wltr (put1 w c) = wltr w.
Proof. intros. unfold put1. destruct (wroom w) as [[|]|]; reflexivity. Qed.
Lemma put_two : forall w a b, exists t, adds w (put_char (put_char w a) b) t /\ prefix t [a; b] /\ (wbad (put_char (put_char w a) b) = false -> t = [a; b]).
Proof.
  intros w a b. destruct (put_char_adds w a) as (t1 & A1 & P1 & B1). destruct (wbad (put_char w a)) eqn:E.
  - rewrite (put_char_keeps_bad _ b E). exists t1. split; [exact A1|]. split; [|congruence].
    destruct P1 as (u & P1). exists (u ++ [b]). rewrite app_assoc, <- P1. reflexivity.
  - destruct (put_char_adds (put_char w a) b) as (t2 & A2 & (u & P2) & B2). rewrite (B1 eq_refl) in A1.
    exists ([a] ++ t2). split; [eapply adds_trans; eassumption|]. split; [exists u; rewrite <- app_assoc, <- P2; reflexivity|].
    intro B. rewrite (B2 B). reflexivity.
Qed.
Lemma put_crlf_adds : forall w, exists t, adds w (put_crlf w) t /\ prefix t (eol w) /\ (wbad (put_crlf w) = false -> t = eol w).
Proof. intro w. unfold put_crlf, eol. destruct (wltr w); apply put_two. Qed.

Lemma print_line : forall r c, is_abcprint c = true -> line_char r c.
Proof. unfold is_abcprint, is_between, line_char. lia. Qed.
Lemma token_line : forall r c, http_is_token c = true -> line_char r c.
Proof. unfold http_is_token, is_abcprint, is_between, line_char. intros; lia. Qed.
Lemma digit_line : forall r c, is_digit c = true -> line_char r c.
Proof. unfold is_digit, is_between, line_char. lia. Qed.

Lemma adds_forall_trans : forall (P : Z -> Prop) a b c,
  (exists t, adds a b t /\ Forall P t) -> (exists t, adds b c t /\ Forall P t) -> exists t, adds a c t /\ Forall P t.
Proof.
  intros P a b c (t & A & F) (u & B & G). exists (t ++ u). split; [eapply adds_trans; eassumption|apply Forall_app; auto].
Qed.
Lemma put_chars_line : forall r pred l w, (forall c, pred c = true -> line_char r c) ->
  exists t, adds w (snd (put_chars pred w l)) t /\ Forall (line_char r) t.
Proof. intros r pred l w H. destruct (put_chars_adds pred l w) as (t & A & F). exists t. split; [exact A|]. eapply Forall_impl; [|exact F]. exact H. Qed.
Lemma put_char_line : forall r c w, line_char r c -> exists t, adds w (put_char w c) t /\ Forall (line_char r) t.
Proof. intros r c w H. destruct (put_char_adds w c) as (t & A & P & _). exists t. split; [exact A|]. eapply prefix_one; eassumption. Qed.
Lemma put1_line : forall r c w, line_char r c -> exists t, adds w (put1 w c) t /\ Forall (line_char r) t.
Proof. intros r c w H. destruct (put1_adds w c) as (t & A & P & _). exists t. split; [exact A|]. eapply prefix_one; eassumption. Qed.
Lemma refl_line : forall r w, exists t, adds w w t /\ Forall (line_char r) t.
Proof. intros. exists []. split; [apply adds_refl|constructor]. Qed.
Lemma bad_line : forall r w, exists t, adds w (w_bad w) t /\ Forall (line_char r) t.
Proof. intros. exists []. split; [apply adds_bad, adds_refl|constructor]. Qed.
Ltac rl := cbn [fst snd]; first [apply refl_line | apply bad_line].
Lemma blank_line : forall r, line_char r 32.
Proof. unfold line_char. lia. Qed.

(** the protocol *)
Lemma digits_line : forall w l, exists t, adds w (fst (put_protocol_digits w l)) t /\ Forall (line_char false) t.
Proof.
  intros w l. unfold put_protocol_digits. destruct (_ && _); [|apply refl_line].
  pose proof (put_chars_line false is_digit l w (digit_line false)) as H. destruct (put_chars is_digit w l) as [n w']. cbn [snd] in H.
  destruct (n =? 0); exact H.
Qed.
Lemma dot_line : forall w l, exists t, adds w (fst (put_protocol_dot w l)) t /\ Forall (line_char false) t.
Proof.
  intros w l. unfold put_protocol_dot. destruct (wbad w); [rl|]. destruct l as [|c l]; [rl|].
  destruct (negb _); [rl|]. apply put1_line. unfold line_char. lia.
Qed.
Lemma forallb_pred : forall (P : Z -> Prop) (f : Z -> bool) l, (forall c, f c = true -> P c) -> forallb f l = true -> Forall P l.
Proof. intros P f l H; induction l; cbn; intro E; constructor; apply andb_prop in E; destruct E; auto. Qed.
Lemma put_bytes_line : forall r l w, Forall (line_char r) l -> exists t, adds w (snd (put_bytes w l)) t /\ Forall (line_char r) t.
Proof.
  intros r l; unfold put_bytes; induction l as [|c l IH]; intros w F; cbn [put_chars]; [rl|]. destruct (wbad w); [rl|].
  inversion F; subst. pose proof (put1_line r c w H1) as A. pose proof (IH (put1 w c) H2) as B.
  destruct (put_chars (fun _ => true) (put1 w c) l) as [n w']. cbn [snd] in *. eapply adds_forall_trans; eassumption.
Qed.
Lemma protocol_line : forall w buf, exists t, adds w (put_protocol w buf) t /\ Forall (line_char false) t.
Proof.
  intros w buf. unfold put_protocol.
  match goal with |- context[if ?b then (w_bad w, buf) else ?e] =>
    assert (A : exists t, adds w (fst (if b then (w_bad w, buf) else e)) t /\ Forall (line_char false) t);
    [destruct b; [rl|]|destruct (if b then (w_bad w, buf) else e) as [w1 l1]] end.
  { pose proof (put_bytes_line false lit_http_slash w) as H. destruct (put_bytes w lit_http_slash) as [n w']. cbn [fst snd] in *. apply H.
    repeat constructor; unfold line_char; lia. }
  cbn [fst] in A. pose proof (digits_line w1 l1) as B. destruct (put_protocol_digits w1 l1) as [w2 l2]. cbn [fst] in B.
  pose proof (dot_line w2 l2) as C. destruct (put_protocol_dot w2 l2) as [w3 l3]. cbn [fst] in C.
  pose proof (digits_line w3 l3) as D. destruct (put_protocol_digits w3 l3) as [w4 l4]. cbn [fst] in D.
  destruct (negb (wbad w4) && (0 <? zlen l4)); [change (exists t, adds w w4 t /\ Forall (line_char false) t)|];
    eauto using adds_forall_trans.
Qed.

(** the header value *)
Lemma put_chars_len : forall pred l w, 0 <= fst (put_chars pred w l) <= zlen l /\
  (wbad w = false -> forall c k, l = c :: k -> pred c = true -> 1 <= fst (put_chars pred w l)).
Proof.
  intros pred l; induction l as [|c l IH]; intro w; cbn [put_chars]; [cbn; split; [lia|discriminate]|].
  rewrite zlen_cons. pose proof (zlen_nonneg _ l).
  destruct (wbad w); [cbn; split; [lia|discriminate]|]. destruct (pred c) eqn:P.
  - destruct (IH (put1 w c)) as (A & _). destruct (put_chars pred (put1 w c) l) as [n w']. cbn [fst] in *. split; [lia|]. intros. lia.
  - cbn [fst]. split; [lia|]. intros _ c0 k E. injection E as <- <-. congruence.
Qed.
Lemma put_chars_bad : forall pred l w, wbad w = true -> put_chars pred w l = (0, w).
Proof. intros pred [|c l] w H; cbn [put_chars]; [reflexivity|]. now rewrite H. Qed.
Lemma skip_len : forall n l, (length l <= n)%nat -> 0 <= skip_spaces_in_header_value l <= zlen l.
Proof.
  induction n as [|n IH]; intros l L; [destruct l; [cbn; lia|cbn in L; lia]|].
  destruct l as [|c l1]; [cbn; lia|]. cbn [skip_spaces_in_header_value length] in *. rewrite zlen_cons.
  destruct (is_space c); [specialize (IH l1); lia|].
  pose proof (zlen_nonneg _ l1). destruct l1 as [|c1 l2]; [lia|]. destruct l2 as [|c2 l3]; [lia|]. destruct l3 as [|c3 l4]; [lia|].
  destruct (_ && _); [|lia]. specialize (IH (c3 :: l4)). cbn [length] in *. rewrite !zlen_cons in *. lia.
Qed.
Lemma value_loop_line : forall fuel started l w, (length l < fuel)%nat ->
  exists w' t, put_value_loop fuel started l w = Ret w' /\ adds w w' t /\ Forall (line_char false) t.
Proof.
  induction fuel as [|fuel IH]; intros started l w F; [lia|]. cbn [put_value_loop].
  pose proof (skip_len (length l) l (le_n _)) as Hs. set (sp := skip_spaces_in_header_value l) in *.
  set (l1 := drop sp l). set (w1 := if started && (0 <? sp) && (0 <? zlen l1) then put_space w else w).
  assert (A1 : exists t, adds w w1 t /\ Forall (line_char false) t)
    by (unfold w1; destruct (_ && _); [apply put_char_line, blank_line|apply refl_line]).
  set (q := match l1 with [] => (0, w1) | c :: _ => if is_abcprint c then put_chars is_abcprint w1 l1 else (0, w_bad w1) end).
  assert (Hq : (exists t, adds w1 (snd q) t /\ Forall (line_char false) t) /\ 0 <= fst q <= zlen l1 /\
               (wbad (snd q) = false -> 0 < zlen l1 -> 1 <= fst q)).
  { unfold q. pose proof (zlen_nonneg _ l1). destruct l1 as [|c l1'] eqn:E1; [cbn; split; [rl|]; lia|].
    destruct (is_abcprint c) eqn:P; [|cbn; split; [rl|split; [lia|discriminate]]].
    split; [apply put_chars_line, print_line|]. destruct (put_chars_len is_abcprint (c :: l1') w1) as (B & C). split; [exact B|].
    intros G _. destruct (wbad w1) eqn:Gw; [rewrite put_chars_bad in G by exact Gw; cbn in G; congruence|]. eapply C; eauto. }
  destruct q as [n w2]. cbn [fst snd] in Hq. destruct Hq as (A2 & Hn & Hp).
  assert (A : exists t, adds w w2 t /\ Forall (line_char false) t) by eauto using adds_forall_trans.
  destruct (negb (wbad w2) && (0 <? zlen (drop n l1))) eqn:Go.
  - assert (Z1 : zlen l1 = zlen l - sp) by (unfold l1; apply zlen_drop; lia).
    assert (Z2 : zlen (drop n l1) = zlen l1 - n) by (apply zlen_drop; lia).
    destruct (IH (started || (0 <? sp) || (0 <? n)) (drop n l1) w2) as (w' & t & R & At & Ft).
    { assert (1 <= n) by (apply Hp; [destruct (wbad w2); [discriminate|reflexivity]|lia]). unfold zlen in *. lia. }
    rewrite R. destruct (adds_forall_trans (line_char false) w w2 w' A) as (t' & B & C); [eauto|]. exists w', t'. auto.
  - destruct A as (t & At & Ft). exists w2, t. auto.
Qed.

Lemma line_with_end : forall r w w1 n, (exists t, adds w w1 t /\ Forall (line_char r) t) ->
  exists txt tl, wout (set_pstate (put_crlf w1) n) = wout w ++ txt ++ tl /\ Forall (line_char r) txt /\ prefix tl (eol w) /\
   (wbad (set_pstate (put_crlf w1) n) = false -> tl = eol w).
Proof.
  intros r w w1 n (t & (O & L) & F). destruct (put_crlf_adds w1) as (tl & (O2 & L2) & P & B).
  unfold eol in *. rewrite L in *. exists t, tl. cbn [wout set_pstate wbad]. rewrite O2, O, app_assoc. auto.
Qed.
Lemma line_no_end : forall r w w1 n, (exists t, adds w w1 t /\ Forall (line_char r) t) ->
  exists txt tl, wout (set_pstate w1 n) = wout w ++ txt ++ tl /\ Forall (line_char r) txt /\ prefix tl [] /\
  (wbad (set_pstate w1 n) = false -> tl = []).
Proof.
  intros r w w1 n (t & (O & L) & F). exists t, []. cbn [wout set_pstate]. rewrite O, app_nil_r. split; [reflexivity|]. split; [exact F|]. split; [exists []; reflexivity|auto].
Qed.
Lemma writers_line : forall sd c buf w, has_item sd (wcall_item c) = true -> c <> Put body ->
  exists w' txt tl, put_call sd c buf w = Ret w' /\ wout w' = wout w ++ txt ++ tl /\ Forall (line_char (is_reason c)) txt /\
    prefix tl (if ends_line sd c then eol w else []) /\ (wbad w' = false -> tl = if ends_line sd c then eol w else []).
Proof.
  intros sd c buf w Hs Hb.
  assert (K : forall w' e, (exists txt tl, wout w' = wout w ++ txt ++ tl /\ Forall (line_char (is_reason c)) txt /\ prefix tl e /\ (wbad w' = false -> tl = e)) ->
     exists w'' txt tl, Ret w' = Ret w'' /\ wout w'' = wout w ++ txt ++ tl /\ Forall (line_char (is_reason c)) txt /\ prefix tl e /\ (wbad w'' = false -> tl = e)).
  { intros w' e (txt & tl & H). exists w', txt, tl. auto. }
  destruct c as [it|].
  - destruct it; cbn [put_call ends_line].
    + destruct sd; [|discriminate]. apply K, line_no_end. eapply adds_forall_trans; [apply put_chars_line, token_line|apply put_char_line, blank_line].
    + destruct sd; [|discriminate]. apply K, line_no_end. eapply adds_forall_trans; [apply put_chars_line, print_line|apply put_char_line, blank_line].
    + destruct sd; unfold put_protocol_of.
      * apply K, line_with_end. apply protocol_line.
      * apply K, line_no_end. eapply adds_forall_trans; [apply protocol_line|apply put_char_line, blank_line].
    + destruct sd; [discriminate|]. apply K, line_no_end. eapply adds_forall_trans; [apply put_chars_line, digit_line|apply put_char_line, blank_line].
    + destruct sd; [discriminate|]. apply K, line_with_end. apply put_chars_line.
      unfold is_abcprint_or_space, is_abcprint, is_space, is_between, line_char. cbn. lia.
    + assert (A : exists t, adds w (put_header_name w buf) t /\ Forall (line_char false) t).
      { unfold put_header_name. pose proof (put_chars_line false http_is_token buf w (token_line false)) as H.
        destruct (put_chars http_is_token w buf) as [n w1]. cbn [snd] in H.
        set (w2 := if negb (wbad w1) && (n <? zlen buf) then w_bad w1 else w1).
        assert (H2 : exists t, adds w w2 t /\ Forall (line_char false) t) by (unfold w2; destruct (_ && _); exact H).
        destruct (negb (wbad w2)); [|exact H2].
        change (exists t, adds w (put_space (put1 w2 58)) t /\ Forall (line_char false) t).
        eapply adds_forall_trans; [exact H2|]. apply (adds_forall_trans _ _ (put1 w2 58)); [apply put1_line; unfold line_char; lia|apply put_char_line, blank_line]. }
      destruct A as (t & (O & L) & F). apply K. exists t, []. rewrite O, app_nil_r.
      assert (P : prefix [] []) by (exists []; reflexivity). destruct sd; auto.
    + unfold put_header_value. destruct (value_loop_line (S (length buf)) false buf w) as (w1 & t & R & A & F); [lia|]. rewrite R. cbn [bind].
      destruct sd; apply K, line_with_end; eauto.
    + congruence.
  - cbn [put_call]. unfold end_headers. destruct sd; apply K, line_with_end, refl_line.
Qed.
