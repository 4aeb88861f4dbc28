(** The lemmas behind the JSON theorems of Json_Props.v. *)

From Coq Require Import ZArith List Bool Lia ZifyBool.
From Verif Require Import Base ListMem Ascii_Model Table_Model Json_Model Json_Spec Json_Proofs Json_Writer Json_Safety.
Import ListNotations.
Open Scope Z_scope.

Lemma over_end : forall l, number_over l -> num_end l.
Proof.
  intros l (c & r & -> & Hd & H). exists c, r. split; [reflexivity|]. split; [|assumption].
  unfold is_digit, is_between, dig in *. lia.
Qed.

Lemma tokens_length : forall plain,
  (forall v t, val plain v t -> (length (tokens v) <= length t)%nat)
  /\ (forall l t, elems plain l t -> (length (flat_map tokens l) <= length t)%nat)
  /\ (forall l t, members plain l t -> (length (flat_map mtokens l) <= length t)%nat).
Proof.
  intro plain. apply text_mut; intros; cbn [tokens flat_map mtokens]; repeat (rewrite ?app_length in *; cbn [length app flat_map] in * ); try lia.
  - cbn. lia.
  - cbn. lia.
  - cbn. lia.
  - match goal with H : number_text _ |- _ => destruct H as (sg & it & fr & ex & -> & _ & (Hi & _) & _) end.
    rewrite !app_length. destruct it; [congruence|cbn [length]]. lia.
  - change (flat_map _ l) with (flat_map mtokens l). lia.
Qed.

Lemma docs_one : forall plain v t, docs plain [v] t -> document plain v t.
Proof.
  intros plain v t H. inversion H as [|vs t0 v0 tv w D V W E]; subst.
  apply app_eq_unit in E as [(-> & E)|(_ & E)]; [|discriminate]. injection E as ->.
  inversion D as [w0 W0|vs1 t1 v1 tv1 w1 D1 V1 W1 E]; [|destruct vs1; discriminate]. subst. exists t0, tv, w. auto.
Qed.

Lemma document_read : forall plain v t rest fuel L bufs,
  document plain v t -> (is_num v = true -> number_over rest) -> depth v <= L -> Forall num_fits (tokens v) ->
  (length t + length rest + 2 < fuel)%nat ->
  (forall i, sizeof_token <= zlen (bufs i) < 2 ^ 64 /\ Forall (tok_fits (zlen (bufs i))) (tokens v)) ->
  exists w s', get_tokens fuel (length (tokens v)) bufs (reader L (t ++ rest)) = Ret (map Some (tokens v), s')
    /\ is_good s' = true /\ ws w /\ inp s' = w ++ rest /\ levels s' = 0.
Proof.
  intros plain v t rest fuel L bufs (w1 & t' & w2 & W1 & V & W2 & ->) Hn Hd Hf Hfu Hb.
  rewrite !app_length in Hfu.
  assert (R : Run fuel L (zlen (@nil bool)) (tokens v) (mk (w1 ++ t' ++ (w2 ++ rest)) [] false) (mk (w2 ++ rest) [] (top []))).
  { apply (proj1 (run_val_all plain)); auto; try reflexivity.
    - intro Hv. destruct w2 as [|c w2']; [apply over_end; auto|]. inversion W2 as [|? ? Hc]; subst. exists c, (w2' ++ rest). split; [reflexivity|].
      unfold ends_number, is_digit, is_between, is_ws in *. lia.
    - rewrite app_length. lia. }
  destruct (run_get_tokens _ _ _ _ _ _ R bufs None [] Hb) as (m' & n' & E).
  cbn [cinp ck ce] in E. rewrite <- !app_assoc. exists w2. eexists. split; [exact E|]. repeat split; auto.
Qed.

Lemma skip_same : forall plain L k e w v t rest rest' fuel bufs,
  e && top k = false -> ws w -> val plain v t -> follow k rest rest' -> (is_num v = true -> k = [] -> number_over rest) ->
  zlen k + depth v <= L -> Forall num_fits (tokens v) -> (length w + length t + length rest + 2 < fuel)%nat ->
  (forall i, sizeof_token <= zlen (bufs i) < 2 ^ 64 /\ Forall (tok_fits (zlen (bufs i))) (tokens v)) ->
  exists it s1 s2,
    skip_value fuel (reader_at L k e (w ++ t ++ rest)) = Ret (it, s1) /\
    get_tokens fuel (length (tokens v)) bufs (reader_at L k e (w ++ t ++ rest)) = Ret (map Some (tokens v), s2) /\
    inp s1 = rest' /\ is_good s1 = true /\ stk s1 = k /\ expp s1 = top k /\
    inp s2 = rest' /\ is_good s2 = true /\ stk s2 = k /\ expp s2 = top k.
Proof.
  intros plain L k e w v t rest rest' fuel bufs He Hw V Hfo Hn Hd Hf Hfu Hb.
  assert (R : Run fuel L (zlen k) (tokens v) (mk (w ++ t ++ rest) k e) (mk rest' k (top k))).
  { apply (proj1 (run_val_all plain)); auto. intro Hv. destruct k as [|b k]; [apply over_end; auto|]. eapply follow_num_end; [|exact Hfo]. discriminate. }
  destruct (run_get_tokens _ _ _ _ _ _ R bufs None [] Hb) as (m2 & n2 & E2).
  pose proof (proj1 (tokens_length plain) _ _ V) as HL.
  destruct (run_skip _ _ _ _ _ _ R (tokens_nonempty v) ltac:(cbn; lia) fuel None [] ltac:(lia)) as (it & m1 & n1 & E1).
  cbn [cinp ck ce] in E1, E2. eexists _, _, _. split; [exact E1|]. split; [exact E2|]. repeat split; auto.
Qed.

(** *** The local array of digits *)
Lemma get_chars_inp : forall fuel pred lim i s l s', pred 255 = false -> get_chars fuel pred lim i s = Ret (l, s') -> zlen l + zlen (inp s') <= zlen (inp s).
Proof.
  induction fuel as [|fuel IH]; intros pred lim i s l s' Hp H; [discriminate|]. cbn [get_chars] in H.
  destruct (is_good s) eqn:E; [|injection H as <- <-; rewrite zlen_nil; lia].
  destruct (peek_char s) as [ch s1] eqn:Ep.
  assert (Z1 : zlen (inp s1) <= zlen (inp s)).
  { destruct (st_suffix _ _ (proj1 (peek_step _ _ _ Ep))) as (d & ->). rewrite zlen_app. pose proof (zlen_nonneg _ d). lia. }
  destruct (pred ch) eqn:Epr; [|injection H as <- <-; rewrite zlen_nil; lia].
  destruct (i =? lim); [injection H as <- <-; rewrite zlen_nil; cbn [inp set_fail upd_flags]; lia|].
  destruct (peek_value _ _ _ Ep) as [(G & -> & (r & Er))|(_ & ->)]; [|congruence].
  unfold get in H. rewrite G, Er in H. destruct (get_chars fuel pred lim (i + 1) _) as [[l3 s3]| | | |] eqn:E3; try discriminate.
  injection H as <- <-. apply IH in E3; [|assumption]. cbn [inp upd_flags] in E3. rewrite Er, !zlen_cons. lia.
Qed.
Lemma digits_inp : forall fuel n s l s', get_digits fuel n s = Ret (l, s') -> zlen l + zlen (inp s') <= zlen (inp s).
Proof.
  intros fuel n s l s' H. unfold get_digits in H. destruct (get_chars _ _ _ _ s) as [[l1 s1]| | | |] eqn:E; try discriminate.
  destruct (_ <=? _); [|discriminate]. injection H as <- <-. eapply get_chars_inp; [|exact E]. reflexivity.
Qed.
Lemma digits_local : forall fuel n s, n + zlen (inp s) <= 25 -> get_digits fuel n s <> Oob_local.
Proof.
  intros fuel n s H. unfold get_digits. pose proof (get_chars_outcome fuel is_digit (limit_of (wrap_u64 (digits_size - n))) 0 s) as O.
  destruct (get_chars _ _ _ _ s) as [[l1 s1]| | | |] eqn:E; try contradiction; [|discriminate].
  apply get_chars_inp in E; [|reflexivity]. pose proof (zlen_nonneg _ (inp s1)).
  replace (n + zlen l1 + 1 <=? digits_size) with true by (unfold digits_size; lia). discriminate.
Qed.
Lemma char_local : forall d s, zlen d <= 25 -> get_digit_char d s <> Oob_local.
Proof. intros d s H. unfold get_digit_char. destruct (get s). replace (zlen d + 1 <=? digits_size) with true by (unfold digits_size; lia). discriminate. Qed.
(** A digit character that was peeked before comes from the input. *)
Lemma char_inp : forall d s d' s' ch s0, peek_char s0 = (ch, s) -> ch <> 255 -> get_digit_char d s = Ret (d', s') ->
  zlen d' + zlen (inp s') <= zlen d + zlen (inp s).
Proof.
  intros d s d' s' ch s0 Ep Hc H. destruct (peek_value _ _ _ Ep) as [(G & -> & (r & Er))|(_ & ->)]; [|congruence].
  unfold get_digit_char, get in H. rewrite G, Er in H. destruct (_ <=? _); [|discriminate]. injection H as <- <-.
  rewrite zlen_app, Er. cbn [inp upd_flags]. rewrite !zlen_cons, zlen_nil. lia.
Qed.
Lemma peek_inp : forall s ch s', peek_char s = (ch, s') -> zlen (inp s') <= zlen (inp s).
Proof. intros s ch s' H. destruct (st_suffix _ _ (proj1 (peek_step _ _ _ H))) as (d & ->). rewrite zlen_app. pose proof (zlen_nonneg _ d). lia. Qed.
Lemma bind_not_local : forall A B (x : res A) (f : A -> res B), x <> Oob_local -> (forall a, x = Ret a -> f a <> Oob_local) -> bind x f <> Oob_local.
Proof. intros A B [a| | | |] f H1 H2; cbn [bind]; try congruence. apply H2. reflexivity. Qed.

Lemma int_local : forall fuel s, zlen (inp s) <= 25 -> number_int fuel s <> Oob_local
  /\ forall d s', number_int fuel s = Ret (d, s') -> zlen d + zlen (inp s') <= 25.
Proof.
  intros fuel s H. unfold number_int. destruct (peek_char s) as [ch s1] eqn:Ep. pose proof (peek_inp _ _ _ Ep).
  assert (P : (if (ch =? 43) || (ch =? 45) then get_digit_char [] s1 else Ret ([], s1)) <> Oob_local
     /\ forall d s2, (if (ch =? 43) || (ch =? 45) then get_digit_char [] s1 else Ret ([], s1)) = Ret (d, s2) -> zlen d + zlen (inp s2) <= 25).
  { destruct ((ch =? 43) || (ch =? 45)) eqn:Ec.
    - split; [apply char_local; rewrite zlen_nil; lia|]. intros d s2 E. eapply char_inp in E; [|exact Ep|lia]. rewrite zlen_nil in E. lia.
    - split; [discriminate|]. intros d s2 E. injection E as <- <-. rewrite zlen_nil. lia. }
  destruct P as (P1 & P2). destruct (if (ch =? 43) || (ch =? 45) then _ else _) as [[d s2]| | | |]; cbn [bind]; try (split; [congruence|discriminate]).
  specialize (P2 d s2 eq_refl). pose proof (digits_local fuel (zlen d) s2 P2) as L.
  destruct (get_digits fuel (zlen d) s2) as [[l s3]| | | |] eqn:E3; cbn [bind]; try (split; [congruence|discriminate]).
  split; [discriminate|]. intros d' s' E. injection E as <- <-. apply digits_inp in E3. rewrite zlen_app. lia.
Qed.
Lemma frac_local : forall fuel d0 s, zlen d0 + zlen (inp s) <= 25 -> number_frac fuel d0 s <> Oob_local
  /\ forall d s', number_frac fuel d0 s = Ret (d, s') -> zlen d + zlen (inp s') <= 25.
Proof.
  intros fuel d0 s H. unfold number_frac. destruct (peek_char s) as [ch s1] eqn:Ep. pose proof (peek_inp _ _ _ Ep). pose proof (zlen_nonneg _ (inp s1)).
  destruct (ch =? 46) eqn:Ec.
  - pose proof (char_local d0 s1 ltac:(lia)) as L1.
    destruct (get_digit_char d0 s1) as [[d s2]| | | |] eqn:E2; cbn [bind]; try (split; [congruence|discriminate]).
    eapply char_inp in E2; [|exact Ep|lia]. pose proof (digits_local fuel (zlen d) s2 ltac:(lia)) as L.
    destruct (get_digits fuel (zlen d) s2) as [[l s3]| | | |] eqn:E3; cbn [bind]; try (split; [congruence|discriminate]).
    split; [discriminate|]. intros d' s' E. injection E as <- <-. apply digits_inp in E3. rewrite zlen_app. lia.
  - split; [discriminate|]. intros d s' E. injection E as <- <-. lia.
Qed.
Lemma exp_local : forall fuel d0 s, zlen d0 + zlen (inp s) <= 25 -> number_exp fuel d0 s <> Oob_local
  /\ forall d s', number_exp fuel d0 s = Ret (d, s') -> zlen d + zlen (inp s') <= 25.
Proof.
  intros fuel d0 s H. unfold number_exp. destruct (peek_char s) as [ch s1] eqn:Ep. pose proof (peek_inp _ _ _ Ep). pose proof (zlen_nonneg _ (inp s1)).
  destruct ((ch =? 101) || (ch =? 69)) eqn:Ec.
  - pose proof (char_local d0 s1 ltac:(lia)) as L1.
    destruct (get_digit_char d0 s1) as [[d s2]| | | |] eqn:E2; cbn [bind]; try (split; [congruence|discriminate]).
    eapply char_inp in E2; [|exact Ep|lia]. destruct (peek_char s2) as [ch3 s3] eqn:Ep3. pose proof (peek_inp _ _ _ Ep3). pose proof (zlen_nonneg _ (inp s3)).
    assert (P : (if (ch3 =? 43) || (ch3 =? 45) then get_digit_char d s3 else Ret (d, s3)) <> Oob_local
       /\ forall d' s4, (if (ch3 =? 43) || (ch3 =? 45) then get_digit_char d s3 else Ret (d, s3)) = Ret (d', s4) -> zlen d' + zlen (inp s4) <= 25).
    { destruct ((ch3 =? 43) || (ch3 =? 45)) eqn:Ec3.
      - split; [apply char_local; lia|]. intros d' s4 E. eapply char_inp in E; [|exact Ep3|lia]. lia.
      - split; [discriminate|]. intros d' s4 E. injection E as <- <-. lia. }
    destruct P as (P1 & P2). destruct (if (ch3 =? 43) || (ch3 =? 45) then _ else _) as [[d4 s4]| | | |]; cbn [bind]; try (split; [congruence|discriminate]).
    specialize (P2 d4 s4 eq_refl). pose proof (digits_local fuel (zlen d4) s4 P2) as L.
    destruct (get_digits fuel (zlen d4) s4) as [[l s5]| | | |] eqn:E5; cbn [bind]; try (split; [congruence|discriminate]).
    split; [discriminate|]. intros d' s' E. injection E as <- <-. apply digits_inp in E5. rewrite zlen_app. lia.
  - split; [discriminate|]. intros d s' E. injection E as <- <-. lia.
Qed.
Lemma number_local : forall fuel s, zlen (inp s) <= 25 -> get_or_skip_number fuel s <> Oob_local.
Proof.
  intros fuel s H. unfold get_or_skip_number. destruct (int_local fuel s H) as (A1 & A2).
  destruct (number_int fuel s) as [[d1 s1]| | | |]; cbn [bind]; try congruence. specialize (A2 _ _ eq_refl).
  destruct (frac_local fuel d1 s1 A2) as (B1 & B2).
  destruct (number_frac fuel d1 s1) as [[d2 s2]| | | |]; cbn [bind]; try congruence. specialize (B2 _ _ eq_refl).
  destruct (exp_local fuel d2 s2 B2) as (C1 & C2).
  destruct (number_exp fuel d2 s2) as [[d3 s3]| | | |]; cbn [bind]; try congruence. specialize (C2 _ _ eq_refl).
  pose proof (zlen_nonneg _ (inp s3)). replace (zlen d3 + 1 <=? digits_size) with true by (unfold digits_size; lia). discriminate.
Qed.

Lemma store_local : forall s p w, store s p w <> Oob_local.
Proof. intros. unfold store. destruct (mem s); [destruct (write_at _ _ _)|]; discriminate. Qed.
Lemma skip_spaces_local : forall fuel s, skip_spaces fuel s <> Oob_local.
Proof. intros. unfold skip_spaces. pose proof (skip_chars_outcome fuel json_is_space s). destruct (skip_chars _ _ s) as [[? ?]| | | |]; congruence. Qed.
Lemma content_local : forall fuel p size s, string_content fuel p size s <> Oob_local.
Proof.
  intros fuel p size s. unfold string_content. destruct (mem s).
  - pose proof (get_chars_outcome fuel json_is_string_content (limit_of size) 0 s). destruct (get_chars _ _ _ _ s) as [[? s1]| | | |]; try congruence; try contradiction.
    pose proof (store_local s1 p (l0 ++ [0])). destruct (store s1 p (l0 ++ [0])); congruence.
  - pose proof (skip_chars_outcome fuel json_is_string_content s). destruct (skip_chars _ _ s); try congruence; contradiction.
Qed.
Lemma escape_local : forall fuel s, get_escaped_char fuel s <> Oob_local.
Proof.
  intros fuel s. unfold get_escaped_char. destruct (peek_char s) as [ch s1]. destruct (ch =? 92); [|discriminate].
  destruct (get s1) as [c2 s2]. destruct (peek_char s2) as [ch3 s3].
  repeat match goal with |- (if ?b then _ else _) <> _ => destruct b; [discriminate|] end.
  destruct (ch3 =? 117); [|discriminate].
  destruct (get s3) as [c4 s4]. pose proof (get_chars_outcome fuel is_hex (limit_of 5) 0 s4).
  destruct (get_chars fuel is_hex (limit_of 5) 0 s4) as [[h s5]| | | |]; try congruence; try contradiction.
  destruct h as [|a [|b [|c' [|d [|]]]]]; try discriminate. destruct (_ && _); discriminate.
Qed.
Lemma loop_local : forall fuel size g s, string_loop fuel size g s <> Oob_local.
Proof.
  induction fuel as [|fuel IH]; intros size g s; [discriminate|]. cbn [string_loop].
  pose proof (content_local fuel g (wrap_u64 (size - g)) s). destruct (string_content fuel g (wrap_u64 (size - g)) s) as [[n s1]| | | |]; try congruence.
  destruct (peek_char s1) as [ch s2]. destruct (ch =? 34); [discriminate|]. destruct (ch =? 92); [|apply IH].
  pose proof (escape_local fuel s2). destruct (get_escaped_char fuel s2) as [[c s3]| | | |]; try congruence. destruct (mem s3); [|apply IH].
  pose proof (store_local s3 (g + n) [c]). destruct (store s3 (g + n) [c]); try discriminate; try congruence; apply IH.
Qed.
Lemma string_local : forall fuel size s, get_or_skip_string fuel size s <> Oob_local.
Proof.
  intros fuel size s. unfold get_or_skip_string. destruct (peek_char s) as [ch s1].
  assert (P : (if ch =? 34 then string_loop fuel size 0 (snd (get s1)) else Ret (0, s1)) <> Oob_local) by (destruct (ch =? 34); [apply loop_local|discriminate]).
  destruct (if ch =? 34 then _ else _) as [[g s2]| | | |]; try congruence. pose proof (store_local s2 g [0]). destruct (store s2 g [0]); congruence.
Qed.
Lemma token_local : forall fuel size s, zlen (inp s) <= 25 -> get_or_skip_token fuel size s <> Oob_local.
Proof.
  intros fuel size s H. unfold get_or_skip_token. apply bind_not_local; [apply skip_spaces_local|]. intros s1 E1. apply skip_spaces_step in E1.
  destruct (peek_char s1) as [ch s2] eqn:Ep. apply peek_step in Ep. pose proof (stepm_trans _ _ _ E1 Ep) as S.
  assert (H2 : zlen (inp s2) <= 25) by (destruct (st_suffix _ _ (proj1 S)) as (d & E); rewrite E, zlen_app in H; pose proof (zlen_nonneg _ d); lia).
  apply bind_not_local.
  - destruct (expect_property s2).
    + unfold token_property. destruct (ch =? 34).
      * apply bind_not_local; [apply string_local|]. intros [g s3] _. apply bind_not_local; [|intros [? ?] _; discriminate].
        destruct (is_good s3); [|discriminate]. apply bind_not_local; [apply skip_spaces_local|]. intros s4 _. destruct (peek_char s4). destruct (_ =? _); discriminate.
      * destruct (ch =? 125); [|discriminate]. destruct (get s2). destruct (pop_level _ _). discriminate.
    + unfold token_value. apply bind_not_local; [|intros [? ?] _; discriminate].
      destruct (ch =? 110); [discriminate|].
      destruct (ch =? 102). { destruct (is_good _); [|discriminate]. apply bind_not_local; [apply store_local|discriminate]. }
      destruct (ch =? 116). { destruct (is_good _); [|discriminate]. apply bind_not_local; [apply store_local|discriminate]. }
      destruct (_ || _). { apply bind_not_local; [apply number_local; assumption|discriminate]. }
      destruct (ch =? 34). { apply bind_not_local; [apply string_local|]. intros [? ?] _. discriminate. }
      destruct (ch =? 91). { destruct (get s2). destruct (push_level _ _). discriminate. }
      destruct (ch =? 93). { destruct (get s2). destruct (pop_level _ _). discriminate. }
      destruct (ch =? 123). { destruct (get s2). destruct (push_level _ _). discriminate. }
      discriminate.
  - intros [[it tr] s3] _. apply bind_not_local; [|discriminate]. destruct (_ && _); [|discriminate].
    unfold trailing. apply bind_not_local; [apply skip_spaces_local|]. intros s4 _. destruct (peek_char s4) as [c s5].
    destruct (c =? 44); [discriminate|]. destruct (expect_property s5); discriminate.
Qed.

(** *** What skip_spaces skipped *)
Lemma skip_chars_consumed : forall fuel pred s n s', skip_chars fuel pred s = Ret (n, s') -> is_good s' = true ->
  exists w, inp s = w ++ inp s' /\ Forall (fun c => pred c = true) w.
Proof.
  induction fuel as [|fuel IH]; intros pred s n s' H G; [discriminate|]. cbn [skip_chars] in H.
  destruct (is_good s) eqn:E; [|injection H as <- <-; congruence].
  destruct (peek_char s) as [ch s1] eqn:Ep. destruct (pred ch) eqn:Epr.
  - destruct (get s1) as [c s2] eqn:Eg. destruct (skip_chars fuel pred s2) as [[k s3]| | | |] eqn:E3; try discriminate. injection H as <- <-.
    assert (G1 : is_good s1 = true) by (eapply good_back; [exact (proj1 (get_step _ _ _ Eg))|]; eapply good_back; [exact (proj1 (skip_chars_step _ _ _ _ _ E3))|exact G]).
    destruct (peek_value _ _ _ Ep) as [(_ & -> & (r & Er))|(G' & _)]; [|congruence].
    unfold get in Eg. rewrite G1, Er in Eg. injection Eg as <- <-.
    destruct (IH _ _ _ _ E3 G) as (w & Ew & Fw). cbn [inp upd_flags] in Ew. exists (ch :: w). rewrite Er, Ew. auto.
  - injection H as <- <-. destruct (peek_value _ _ _ Ep) as [(_ & -> & _)|(G' & _)]; [|congruence]. exists []. auto.
Qed.
Lemma space_ws : forall c, json_is_space c = true -> is_ws c.
Proof. intros c H. unfold json_is_space, is_space, is_ws in *. lia. Qed.

Lemma terminates : forall fuel size s, zlen (inp s) + 1 < Z.of_nat fuel -> (forall w r, inp s = w ++ 34 :: r -> ~ ws w) -> get_or_skip_token fuel size s <> Loop.
Proof.
  intros fuel size s Hf Q. apply token_terminates; [unfold phi; destruct (is_good s); lia|].
  intros s1 E G r Er. unfold skip_spaces in E. destruct (skip_chars fuel json_is_space s) as [[n s2]| | | |] eqn:E2; try discriminate. injection E as ->.
  destruct (skip_chars_consumed _ _ _ _ _ E2 G) as (w & Ew & Fw). rewrite Er in Ew. apply (Q _ _ Ew).
  eapply Forall_impl; [|exact Fw]. intros c. apply space_ws.
Qed.

(** *** Loops of skip_value *)
Lemma skip_bad : forall f n base s, is_good s = false -> base < levels s -> skip_loop (S f) n base s = Loop.
Proof.
  intros f. induction n as [|n IH]; intros base s H Hb; [reflexivity|]. cbn [skip_loop].
  destruct (bad_token f 0 (with_mem s None) H) as (s' & -> & G & _ & K & _ & _). cbn [bind].
  unfold levels in *. rewrite K. cbn [stk with_mem upd_mem]. replace (base <? zlen (stk s)) with true by lia. apply IH; [assumption|]. rewrite K. exact Hb.
Qed.

(** *** Reading on after a failure *)
Lemma bad_tokens : forall n f bufs s, is_good s = false -> (forall i, sizeof_token <= zlen (bufs i)) ->
  exists s', get_tokens (S f) n bufs s = Ret (repeat (Some TNone) n, s') /\ is_good s' = false /\ inp s' = inp s /\ stk s' = stk s.
Proof.
  induction n as [|n IH]; intros f bufs s H Hb; [exists s; auto|]. cbn [get_tokens].
  unfold get_token. specialize (Hb n) as Hn. replace (zlen (bufs n) <? sizeof_token) with false by lia.
  destruct (bad_token f (zlen (bufs n)) (with_mem s (Some (bufs n))) H) as (s1 & -> & G & I1 & K & _ & _). cbn [bind].
  destruct (IH f bufs s1 G Hb) as (s' & -> & G' & I' & K'). cbn [bind]. exists s'. split; [reflexivity|]. rewrite I', K', I1, K. auto.
Qed.

(** *** Documents *)
Lemma doc_no_ws : forall plain v t, document plain v t -> Forall (fun c => ~ is_ws c) t -> val plain v t.
Proof.
  intros plain v t (w1 & t' & w2 & W1 & V & W2 & ->) F. rewrite !Forall_app in F. destruct F as (F1 & _ & F2).
  assert (N : forall w, ws w -> Forall (fun c => ~ is_ws c) w -> w = []).
  { intros [|c w] A B; [reflexivity|]. inversion A; inversion B; subst. contradiction. }
  rewrite (N w1), (N w2), app_nil_r by assumption. exact V.
Qed.

(** *** Escapes that never end *)
Lemma escape_diverges : forall L t f size m n,
  (forall fuel m' n', get_escaped_char fuel (gst L (92 :: t) [] false m' n') = Loop
     \/ exists c s, get_escaped_char fuel (gst L (92 :: t) [] false m' n') = Ret (c, s) /\ is_good s = false) ->
  string_loop f size 0 (gst L (92 :: t) [] false m n) = Loop \/ string_loop f size 0 (gst L (92 :: t) [] false m n) = Oob_token.
Proof.
  intros L t f size m n H. destruct f as [|f]; [auto|].
  destruct f as [|f]; [left; cbn [string_loop]; unfold string_content; destruct m; reflexivity|].
  assert (C : string_content (S f) 0 (wrap_u64 (size - 0)) (gst L (92 :: t) [] false m n) = Oob_token
     \/ exists m', string_content (S f) 0 (wrap_u64 (size - 0)) (gst L (92 :: t) [] false m n) = Ret (0, gst L (92 :: t) [] false m' n)).
  { unfold string_content. cbn [mem gst]. destruct m as [m|].
    - change (get_chars _ _ _ _ _) with (Ret (@nil Z, gst L (92 :: t) [] false (Some m) n)). cbv iota. unfold store. cbn [mem gst app].
      destruct (write_at m (value_offset + 0) [0]) as [m'|]; [right; exists (Some m'); reflexivity|auto].
    - right. exists None. reflexivity. }
  destruct C as [C|(m' & C)]; [right; cbn [string_loop]; rewrite C; reflexivity|].
  destruct (H (S f) m' n) as [E|(c & s & E & G)].
  - left. cbn [string_loop]. rewrite C. rewrite peek_g. cbn [Z.eqb Pos.eqb]. rewrite E. reflexivity.
  - eapply loop_bad_escape; [exact C|apply peek_g|exact E|exact G].
Qed.
