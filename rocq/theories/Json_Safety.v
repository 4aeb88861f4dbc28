(** Proofs about the JSON reader on arbitrary input (C04-C07). *)

From Coq Require Import ZArith List Bool Lia ZifyBool.
From Verif Require Import Base ListMem Ascii_Model Table_Model Json_Model Json_Spec Json_Proofs.
Import ListNotations.
Open Scope Z_scope.

(** *** What every internal step preserves *)
Definition phi (s : rd) : Z := zlen (inp s) + (if is_good s then 1 else 0).
Record Step (s s' : rd) : Prop := {
  st_maxl : maxl s' = maxl s;
  st_stk : stk s' = stk s;
  st_expp : expp s' = expp s;
  st_bad : is_good s = false -> is_good s' = false /\ inp s' = inp s;
  st_suffix : exists d, inp s = d ++ inp s';
  st_phi : phi s' <= phi s
}.
(** ... and what those that do not touch the buffer preserve besides *)
Definition StepM (s s' : rd) : Prop := Step s s' /\ mem s' = mem s.

Lemma step_refl : forall s, Step s s.
Proof. intro s. constructor; auto; [exists []; reflexivity|lia]. Qed.
Lemma step_trans : forall a b c, Step a b -> Step b c -> Step a c.
Proof.
  intros a b c [A1 A2 A3 A4 (d & A5) A6] [B1 B2 B3 B4 (d' & B5) B6]. constructor; try congruence; try lia.
  - intro H. destruct (A4 H) as (H1 & H2). destruct (B4 H1). split; congruence.
  - exists (d ++ d'). rewrite <- app_assoc, <- B5. assumption.
Qed.
Lemma stepm_refl : forall s, StepM s s.
Proof. split; auto using step_refl. Qed.
Lemma stepm_trans : forall a b c, StepM a b -> StepM b c -> StepM a c.
Proof. intros a b c (A & A') (B & B'). split; [eauto using step_trans|congruence]. Qed.

Lemma good_back : forall s s', Step s s' -> is_good s' = true -> is_good s = true.
Proof. intros s s' H G. destruct (is_good s) eqn:E; [reflexivity|]. destruct (st_bad _ _ H E). congruence. Qed.

Ltac phi_case := unfold phi; cbn [inp upd_flags set_fail set_bad]; repeat match goal with |- context[if ?b then _ else _] => destruct b eqn:? end; try lia.

Lemma set_bad_step : forall s, StepM s (set_bad s).
Proof.
  intro s. split; [|reflexivity]. constructor; cbn [maxl stk expp inp set_bad upd_flags]; auto.
  - exists []; reflexivity.
  - unfold phi. change (is_good (set_bad s)) with false. cbn [inp set_bad upd_flags]. destruct (is_good s); lia.
Qed.
Lemma set_fail_step : forall s, StepM s (set_fail s).
Proof.
  intro s. split; [|reflexivity]. constructor; cbn [maxl stk expp inp set_fail upd_flags]; auto.
  - intros _. split; [unfold is_good, set_fail; cbn; rewrite !andb_false_r; reflexivity|reflexivity].
  - exists []; reflexivity.
  - unfold phi. assert (is_good (set_fail s) = false) as -> by (unfold is_good, set_fail; cbn; rewrite !andb_false_r; reflexivity).
    cbn [inp set_fail upd_flags]. destruct (is_good s); lia.
Qed.
Lemma peek_step : forall s ch s', peek_char s = (ch, s') -> StepM s s'.
Proof.
  intros s ch s' H. unfold peek_char, peek in H. destruct (is_good s) eqn:E.
  - destruct (inp s) as [|c l] eqn:Ei; injection H as <- <-; [|apply stepm_refl].
    split; [|reflexivity]. constructor; cbn [maxl stk expp inp upd_flags]; auto; try congruence.
    + exists []. rewrite Ei. reflexivity.
    + unfold phi. rewrite E, Ei. cbn [inp upd_flags]. change (is_good _) with false. cbv iota. lia.
  - injection H as <- <-. apply set_fail_step.
Qed.
(** peek looks at the next character, and fails with the byte 255. *)
Lemma peek_value : forall s ch s', peek_char s = (ch, s') ->
  (is_good s' = true /\ s' = s /\ exists l, inp s = ch :: l) \/ (is_good s' = false /\ ch = 255).
Proof.
  intros s ch s' H. unfold peek_char, peek in H. destruct (is_good s) eqn:E.
  - destruct (inp s) as [|c l] eqn:Ei; injection H as <- <-; [right; auto|left; eauto].
  - injection H as <- <-. right. split; [|reflexivity]. unfold is_good, set_fail; cbn; rewrite !andb_false_r; reflexivity.
Qed.
Lemma get_step : forall s ch s', get s = (ch, s') -> StepM s s'.
Proof.
  intros s ch s' H. unfold get in H. destruct (is_good s) eqn:E.
  - destruct (inp s) as [|c l] eqn:Ei; injection H as <- <-.
    + split; [|reflexivity]. constructor; cbn [maxl stk expp inp upd_flags]; auto; try congruence.
      * exists []. rewrite Ei. reflexivity.
      * unfold phi. rewrite E, Ei. cbn [inp upd_flags]. change (is_good _) with false. cbv iota. lia.
    + split; [|reflexivity]. constructor; cbn [maxl stk expp inp upd_flags]; auto; try congruence.
      * exists [c]. rewrite Ei. reflexivity.
      * unfold phi. rewrite E, Ei. cbn [inp upd_flags]. rewrite zlen_cons. change (is_good _) with (is_good s). rewrite E. lia.
  - injection H as <- <-. apply set_fail_step.
Qed.
(** On a stream that was good, get takes one unit of [phi]. *)
Lemma get_phi : forall s ch s', get s = (ch, s') -> is_good s = true -> phi s' + 1 <= phi s.
Proof.
  intros s ch s' H E. unfold get in H. rewrite E in H. destruct (inp s) as [|c l] eqn:Ei; injection H as <- <-; unfold phi; rewrite E, Ei; cbn [inp upd_flags].
  - change (is_good _) with false. cbv iota. lia.
  - change (is_good _) with (is_good s). rewrite E, zlen_cons. lia.
Qed.
Lemma snd_get_step : forall s, StepM s (snd (get s)).
Proof. intro s. destruct (get s) eqn:E. eapply get_step; eassumption. Qed.

Lemma get_chars_step : forall fuel pred lim i s l s', get_chars fuel pred lim i s = Ret (l, s') ->
  StepM s s' /\ zlen l + phi s' <= phi s.
Proof.
  induction fuel as [|fuel IH]; intros pred lim i s l s' H; [discriminate|]. cbn [get_chars] in H.
  destruct (is_good s) eqn:E; [|injection H as <- <-; split; [apply stepm_refl|rewrite zlen_nil; lia]].
  destruct (peek_char s) as [ch s1] eqn:Ep. pose proof (peek_step _ _ _ Ep) as S1. pose proof (st_phi _ _ (proj1 S1)).
  destruct (pred ch); [|injection H as <- <-; split; [assumption|rewrite zlen_nil; lia]].
  destruct (i =? lim).
  - injection H as <- <-. pose proof (set_fail_step s1) as S2. pose proof (st_phi _ _ (proj1 S2)).
    split; [eapply stepm_trans; eassumption|rewrite zlen_nil; lia].
  - destruct (get s1) as [c2 s2] eqn:Eg. pose proof (get_step _ _ _ Eg) as S2.
    assert (phi s2 + 1 <= phi s).
    { destruct (peek_value _ _ _ Ep) as [(G & -> & _) | (G & _)].
      - eapply get_phi; eassumption.
      - pose proof (st_phi _ _ (proj1 S2)). unfold phi at 2. rewrite E.
        destruct (st_suffix _ _ (proj1 S1)) as (d & Ed). unfold phi in H1. rewrite G in H1. rewrite Ed, zlen_app. pose proof (zlen_nonneg _ d).
        unfold phi. lia. }
    destruct (get_chars fuel pred lim (i + 1) s2) as [[l3 s3]| | | |] eqn:E3; try discriminate. injection H as <- <-.
    destruct (IH _ _ _ _ _ _ E3) as (S3 & P3). split; [eauto using stepm_trans|]. rewrite zlen_cons. lia.
Qed.
Lemma skip_chars_step : forall fuel pred s l s', skip_chars fuel pred s = Ret (l, s') -> StepM s s'.
Proof.
  induction fuel as [|fuel IH]; intros pred s l s' H; [discriminate|]. cbn [skip_chars] in H.
  destruct (is_good s) eqn:E; [|injection H as <- <-; apply stepm_refl].
  destruct (peek_char s) as [ch s1] eqn:Ep. pose proof (peek_step _ _ _ Ep) as S1.
  destruct (pred ch); [|injection H as <- <-; assumption].
  destruct (get s1) as [c2 s2] eqn:Eg. pose proof (get_step _ _ _ Eg) as S2.
  destruct (skip_chars fuel pred s2) as [[l3 s3]| | | |] eqn:E3; try discriminate. injection H as <- <-.
  eauto using stepm_trans.
Qed.
Lemma skip_spaces_step : forall fuel s s', skip_spaces fuel s = Ret s' -> StepM s s'.
Proof.
  intros fuel s s' H. unfold skip_spaces in H. destruct (skip_chars fuel json_is_space s) as [[l3 s3]| | | |] eqn:E3; try discriminate.
  injection H as <-. eapply skip_chars_step; eassumption.
Qed.

(** Only the buffer-writing functions can leave the token buffer, and none of the loops over
    characters runs out of fuel when the fuel exceeds the input. *)
Lemma get_chars_ok : forall fuel pred lim i s, (Z.of_nat fuel > phi s) -> exists l s', get_chars fuel pred lim i s = Ret (l, s').
Proof.
  induction fuel as [|fuel IH]; intros pred lim i s Hf.
  - exfalso. unfold phi in Hf. pose proof (zlen_nonneg _ (inp s)). destruct (is_good s); lia.
  - cbn [get_chars]. destruct (is_good s) eqn:E; [|eauto].
    destruct (peek_char s) as [ch s1] eqn:Ep. destruct (pred ch); [|eauto]. destruct (i =? lim); [eauto|].
    destruct (get s1) as [c2 s2] eqn:Eg.
    assert (phi s2 + 1 <= phi s).
    { destruct (peek_value _ _ _ Ep) as [(G & -> & _) | (G & _)].
      - eapply get_phi; eassumption.
      - pose proof (st_phi _ _ (proj1 (get_step _ _ _ Eg))). unfold phi at 2. rewrite E.
        destruct (st_suffix _ _ (proj1 (peek_step _ _ _ Ep))) as (d & Ed). unfold phi in H. rewrite G in H. rewrite Ed, zlen_app. pose proof (zlen_nonneg _ d).
        unfold phi. lia. }
    destruct (IH pred lim (i + 1) s2) as (l & s' & ->); [lia|]. eauto.
Qed.
Lemma skip_chars_ok : forall fuel pred s, (Z.of_nat fuel > phi s) -> exists l s', skip_chars fuel pred s = Ret (l, s').
Proof.
  induction fuel as [|fuel IH]; intros pred s Hf.
  - exfalso. unfold phi in Hf. pose proof (zlen_nonneg _ (inp s)). destruct (is_good s); lia.
  - cbn [skip_chars]. destruct (is_good s) eqn:E; [|eauto].
    destruct (peek_char s) as [ch s1] eqn:Ep. destruct (pred ch); [|eauto].
    destruct (get s1) as [c2 s2] eqn:Eg.
    assert (phi s2 + 1 <= phi s).
    { destruct (peek_value _ _ _ Ep) as [(G & -> & _) | (G & _)].
      - eapply get_phi; eassumption.
      - pose proof (st_phi _ _ (proj1 (get_step _ _ _ Eg))). unfold phi at 2. rewrite E.
        destruct (st_suffix _ _ (proj1 (peek_step _ _ _ Ep))) as (d & Ed). unfold phi in H. rewrite G in H. rewrite Ed, zlen_app. pose proof (zlen_nonneg _ d).
        unfold phi. lia. }
    destruct (IH pred s2) as (l & s' & ->); [lia|]. eauto.
Qed.
Lemma skip_spaces_ok : forall fuel s, (Z.of_nat fuel > phi s) -> exists s', skip_spaces fuel s = Ret s'.
Proof. intros fuel s H. unfold skip_spaces. destruct (skip_chars_ok fuel json_is_space s H) as (l & s' & ->). eauto. Qed.

Lemma store_step : forall s p w s', store s p w = Ret s' -> Step s s' /\ (mem s = None -> mem s' = None)
  /\ (forall m, mem s = Some m -> exists m', mem s' = Some m' /\ zlen m' = zlen m).
Proof.
  intros s p w s' H. unfold store in H. destruct (mem s) as [m|] eqn:Em.
  - destruct (write_at m (value_offset + p) w) as [m'|] eqn:Ew; [|discriminate]. injection H as <-.
    split; [|split; [discriminate|]].
    + constructor; cbn [maxl stk expp inp upd_mem]; auto; [exists []; reflexivity|unfold phi; cbn [inp upd_mem]; change (is_good (upd_mem s (Some m') (num s))) with (is_good s); lia].
    + intros m0 E. injection E as <-. exists m'. split; [reflexivity|]. eapply write_at_len; eassumption.
  - injection H as <-. split; [apply step_refl|]. rewrite Em. split; [auto|discriminate].
Qed.
Lemma store_ok : forall s p w, 0 <= p -> (forall m, mem s = Some m -> value_offset + p + zlen w <= zlen m) -> exists s', store s p w = Ret s'.
Proof.
  intros s p w Hp H. unfold store. destruct (mem s) as [m|]; [|eauto]. specialize (H m eq_refl).
  destruct (write_at_some m (value_offset + p) w) as (m' & ->); [unfold value_offset; lia|lia|]. eauto.
Qed.

(** Same mode (skipping or not), same buffer size. *)
Definition same_buf (s s' : rd) : Prop := option_map (@zlen Z) (mem s') = option_map (@zlen Z) (mem s).
Lemma store_same : forall s p w s', store s p w = Ret s' -> same_buf s s'.
Proof.
  intros s p w s' H. destruct (store_step _ _ _ _ H) as (_ & H1 & H2). unfold same_buf. destruct (mem s) as [m|].
  - destruct (H2 m eq_refl) as (m' & -> & E). cbn. congruence.
  - rewrite H1; reflexivity.
Qed.
Lemma stepm_same : forall s s', StepM s s' -> same_buf s s'.
Proof. intros s s' (_ & H). unfold same_buf. congruence. Qed.
Lemma same_trans : forall a b c, same_buf a b -> same_buf b c -> same_buf a c.
Proof. unfold same_buf. congruence. Qed.

Definition StepB (s s' : rd) : Prop := Step s s' /\ same_buf s s'.
Lemma stepb_of : forall s s', StepM s s' -> StepB s s'.
Proof. intros s s' H. split; [exact (proj1 H)|apply stepm_same; assumption]. Qed.
Lemma stepb_trans : forall a b c, StepB a b -> StepB b c -> StepB a c.
Proof. intros a b c (A & A') (B & B'). split; eauto using step_trans, same_trans. Qed.
Lemma stepb_refl : forall s, StepB s s.
Proof. intro. apply stepb_of, stepm_refl. Qed.
Lemma store_stepb : forall s p w s', store s p w = Ret s' -> StepB s s'.
Proof. intros. split; [eapply store_step; eassumption|eapply store_same; eassumption]. Qed.

Lemma content_step : forall fuel p size s n s', string_content fuel p size s = Ret (n, s') ->
  StepB s s' /\ 0 <= n /\ (mem s <> None -> n + phi s' <= phi s).
Proof.
  intros fuel p size s n s' H. unfold string_content in H. destruct (mem s) as [m|] eqn:Em.
  - destruct (get_chars fuel json_is_string_content (limit_of size) 0 s) as [[l s1]| | | |] eqn:E; try discriminate.
    destruct (get_chars_step _ _ _ _ _ _ _ E) as (S1 & P1).
    destruct (store s1 p (l ++ [0])) as [s2| | | |] eqn:E2; try discriminate. injection H as <- <-.
    pose proof (store_stepb _ _ _ _ E2) as S2. split; [eapply stepb_trans; [apply stepb_of|]; eassumption|].
    split; [apply zlen_nonneg|]. intros _. pose proof (st_phi _ _ (proj1 S2)). lia.
  - split; [apply stepb_of; eapply skip_chars_step; eassumption|]. split; [|congruence].
    revert s n s' H Em. generalize fuel. clear. induction fuel as [|fuel IH]; intros s n s' H Em; [discriminate|].
    cbn [skip_chars] in H. destruct (is_good s); [|injection H; lia].
    destruct (peek_char s) as [ch s1] eqn:Ep. destruct (json_is_string_content ch); [|injection H; lia].
    destruct (get s1) as [c2 s2] eqn:Eg. destruct (skip_chars fuel json_is_string_content s2) as [[l3 s3]| | | |] eqn:E3; try discriminate.
    injection H as <- <-. enough (0 <= l3) by lia. eapply IH; [exact E3|].
    rewrite (proj2 (get_step _ _ _ Eg)), (proj2 (peek_step _ _ _ Ep)). assumption.
Qed.

Lemma escape_step : forall fuel s c s', get_escaped_char fuel s = Ret (c, s') -> StepM s s'.
Proof.
  intros fuel s c s' H. unfold get_escaped_char in H.
  destruct (peek_char s) as [ch s1] eqn:Ep. pose proof (peek_step _ _ _ Ep) as S1.
  destruct (ch =? 92); [|injection H as <- <-; eapply stepm_trans; [eassumption|apply set_bad_step]].
  destruct (get s1) as [c2 s2] eqn:Eg. pose proof (get_step _ _ _ Eg) as S2.
  destruct (peek_char s2) as [ch3 s3] eqn:Ep3. pose proof (peek_step _ _ _ Ep3) as S3.
  pose proof (snd_get_step s3) as S4.
  repeat match type of H with (if ?b then _ else _) = _ => destruct b end;
    try (injection H as <- <-; eauto using stepm_trans; fail).
  destruct (get s3) as [c4 s4] eqn:Eg4. cbn [snd] in S4.
  destruct (get_chars fuel is_hex (limit_of 5) 0 s4) as [[h s5]| | | |] eqn:E5; try discriminate.
  destruct (get_chars_step _ _ _ _ _ _ _ E5) as (S5 & _). pose proof (set_bad_step s5) as S6.
  assert (StepM s s5) as S15 by eauto using stepm_trans.
  destruct h as [|a [|b [|c' [|d [|]]]]]; try (injection H as <- <-; eauto using stepm_trans; fail).
  destruct ((a =? 48) && (b =? 48)); injection H as <- <-; eauto using stepm_trans.
Qed.
(** The backslash itself is consumed. *)
Lemma escape_phi : forall fuel s c s', get_escaped_char fuel s = Ret (c, s') -> fst (peek_char s) = 92 -> phi s' + 1 <= phi s.
Proof.
  intros fuel s c s' H H92. unfold get_escaped_char in H.
  destruct (peek_char s) as [ch s1] eqn:Ep. cbn [fst] in H92. subst ch.
  destruct (peek_value _ _ _ Ep) as [(G & -> & _) | (_ & ?)]; [|discriminate].
  cbn [Z.eqb Pos.eqb] in H.
  destruct (get s) as [c2 s2] eqn:Eg. pose proof (get_phi _ _ _ Eg G) as P2.
  destruct (peek_char s2) as [ch3 s3] eqn:Ep3. pose proof (st_phi _ _ (proj1 (peek_step _ _ _ Ep3))) as S3.
  pose proof (st_phi _ _ (proj1 (snd_get_step s3))) as S4.
  repeat match type of H with (if ?b then _ else _) = _ => destruct b end;
    try (injection H as <- <-; lia).
  destruct (get s3) as [c4 s4] eqn:Eg4. cbn [snd] in S4.
  destruct (get_chars fuel is_hex (limit_of 5) 0 s4) as [[h s5]| | | |] eqn:E5; try discriminate.
  destruct (get_chars_step _ _ _ _ _ _ _ E5) as (S5 & _). pose proof (st_phi _ _ (proj1 S5)). pose proof (st_phi _ _ (proj1 (set_bad_step s5))) as S6.
  destruct h as [|a [|b [|c' [|d [|]]]]]; try (injection H as <- <-; lia).
  destruct ((a =? 48) && (b =? 48)); injection H as <- <-; lia.
Qed.
Lemma escape_ok : forall fuel s, Z.of_nat fuel > phi s -> exists c s', get_escaped_char fuel s = Ret (c, s').
Proof.
  intros fuel s Hf. unfold get_escaped_char.
  destruct (peek_char s) as [ch s1] eqn:Ep. pose proof (st_phi _ _ (proj1 (peek_step _ _ _ Ep))).
  destruct (ch =? 92); [|eauto].
  destruct (get s1) as [c2 s2] eqn:Eg. pose proof (st_phi _ _ (proj1 (get_step _ _ _ Eg))).
  destruct (peek_char s2) as [ch3 s3] eqn:Ep3. pose proof (st_phi _ _ (proj1 (peek_step _ _ _ Ep3))).
  repeat match goal with |- exists c s', (if ?b then _ else _) = _ => destruct b; [eauto; fail|] end.
  destruct (ch3 =? 117); [|eauto].
  destruct (get s3) as [c4 s4] eqn:Eg4. pose proof (st_phi _ _ (proj1 (get_step _ _ _ Eg4))).
  destruct (get_chars_ok fuel is_hex (limit_of 5) 0 s4) as (h & s5 & ->); [lia|].
  destruct h as [|a [|b [|c' [|d [|]]]]]; eauto. destruct (_ && _); eauto.
Qed.

Lemma string_loop_step : forall fuel size g s n s', string_loop fuel size g s = Ret (n, s') -> StepB s s'.
Proof.
  induction fuel as [|fuel IH]; intros size g s n s' H; [discriminate|]. cbn [string_loop] in H.
  destruct (string_content fuel g (wrap_u64 (size - g)) s) as [[n1 s1]| | | |] eqn:E1; try discriminate.
  destruct (content_step _ _ _ _ _ _ E1) as (S1 & _ & _).
  destruct (peek_char s1) as [ch s2] eqn:Ep. pose proof (stepb_of _ _ (peek_step _ _ _ Ep)) as S2.
  destruct (ch =? 34); [injection H as <- <-; pose proof (stepb_of _ _ (snd_get_step s2)); eauto using stepb_trans|].
  destruct (ch =? 92).
  - destruct (get_escaped_char fuel s2) as [[c3 s3]| | | |] eqn:E3; try discriminate.
    pose proof (stepb_of _ _ (escape_step _ _ _ _ E3)) as S3. destruct (mem s3) as [m3|].
    + destruct (store s3 (g + n1) [c3]) as [s4| | | |] eqn:E4; try discriminate.
      pose proof (store_stepb _ _ _ _ E4) as S4. apply IH in H. eauto 6 using stepb_trans.
    + apply IH in H. eauto using stepb_trans.
  - apply IH in H. eauto using stepb_trans.
Qed.
Lemma get_string_step : forall fuel size s n s', get_or_skip_string fuel size s = Ret (n, s') -> StepB s s'.
Proof.
  intros fuel size s n s' H. unfold get_or_skip_string in H.
  destruct (peek_char s) as [ch s1] eqn:Ep. pose proof (stepb_of _ _ (peek_step _ _ _ Ep)) as S1.
  destruct (ch =? 34).
  - destruct (string_loop fuel size 0 (snd (get s1))) as [[g s2]| | | |] eqn:E2; try discriminate.
    apply string_loop_step in E2. pose proof (stepb_of _ _ (snd_get_step s1)) as S2.
    destruct (store s2 g [0]) as [s3| | | |] eqn:E3; try discriminate. injection H as <- <-.
    apply store_stepb in E3. eauto using stepb_trans.
  - destruct (store s1 0 [0]) as [s3| | | |] eqn:E3; try discriminate. injection H as <- <-.
    apply store_stepb in E3. eauto using stepb_trans.
Qed.

(** *** Numbers and literals *)
Lemma get_digits_step : forall fuel i s l s', get_digits fuel i s = Ret (l, s') -> StepM s s'.
Proof.
  intros fuel i s l s' H. unfold get_digits in H.
  destruct (get_chars _ _ _ _ s) as [[l1 s1]| | | |] eqn:E; try discriminate. destruct (_ <=? _); [|discriminate]. injection H as <- <-.
  eapply get_chars_step; eassumption.
Qed.
Lemma digit_char_step : forall d s l s', get_digit_char d s = Ret (l, s') -> StepM s s'.
Proof.
  intros d s l s' H. unfold get_digit_char in H. destruct (get s) as [c s1] eqn:E. destruct (_ <=? _); [|discriminate]. injection H as <- <-.
  eapply get_step; eassumption.
Qed.
Ltac bnd H := match type of H with
  | bind ?x _ = Ret _ => let E := fresh "E" in destruct x as [[? ?]| | | |] eqn:E; cbn [bind] in H; try discriminate
  | context[peek_char ?s] => let E := fresh "Ep" in destruct (peek_char s) as [? ?] eqn:E
  | (if ?b then _ else _) = _ => destruct b
  | Ret _ = Ret _ => injection H; clear H; intros; subst
  end.
Ltac steps := repeat match goal with
  | H : get_digits _ _ _ = Ret _ |- _ => apply get_digits_step in H
  | H : get_digit_char _ _ = Ret _ |- _ => apply digit_char_step in H
  | H : peek_char _ = _ |- _ => apply peek_step in H
  end.
Lemma number_int_step : forall fuel s l s', number_int fuel s = Ret (l, s') -> StepM s s'.
Proof.
  intros fuel s l s' H. unfold number_int in H. bnd H. bnd H. bnd H. bnd H.
  destruct (_ || _); [|bnd E]; steps; eauto using stepm_trans.
Qed.
Lemma number_frac_step : forall fuel d s l s', number_frac fuel d s = Ret (l, s') -> StepM s s'.
Proof.
  intros fuel d s l s' H. unfold number_frac in H. bnd H. bnd H; [|bnd H; steps; assumption].
  bnd H. bnd H. bnd H. steps. eauto using stepm_trans.
Qed.
Lemma number_exp_step : forall fuel d s l s', number_exp fuel d s = Ret (l, s') -> StepM s s'.
Proof.
  intros fuel d s l s' H. unfold number_exp in H. bnd H. bnd H; [|bnd H; steps; assumption].
  bnd H. bnd H. bnd H. bnd H. bnd H.
  destruct (_ || _) in E0; [|bnd E0]; steps; eauto using stepm_trans.
Qed.
Lemma number_step : forall fuel s s', get_or_skip_number fuel s = Ret s' -> StepB s s'.
Proof.
  intros fuel s s' H. unfold get_or_skip_number in H. bnd H. bnd H. bnd H.
  apply number_int_step in E. apply number_frac_step in E0. apply number_exp_step in E1.
  destruct (_ <=? _); [|discriminate]. injection H as <-.
  assert (S : StepM s r1) by eauto using stepm_trans. apply stepb_of in S.
  destruct (mem r1) as [m|] eqn:Em; [|assumption]. eapply stepb_trans; [exact S|]. split.
  - constructor; cbn [maxl stk expp inp upd_mem]; auto; [exists []; reflexivity|unfold phi; cbn [inp upd_mem]; change (is_good (upd_mem r1 (Some m) l1)) with (is_good r1); lia].
  - unfold same_buf. cbn [mem upd_mem]. congruence.
Qed.
Lemma literal_step : forall lit s, StepM s (get_literal lit s).
Proof.
  induction lit as [|c lit IH]; intro s; cbn [get_literal]; [apply stepm_refl|]. unfold get_char.
  destruct (peek_char s) as [ch s1] eqn:Ep. apply peek_step in Ep. destruct (is_good s1).
  - pose proof (snd_get_step s1). destruct (ch =? c); [eauto using stepm_trans|]. pose proof (set_bad_step (snd (get s1))). eauto using stepm_trans.
  - destruct (ch =? c); [eauto using stepm_trans|]. pose proof (set_bad_step s1). eauto using stepm_trans.
Qed.

(** *** A stream that is not good stays so, silently (C07) *)
Lemma bad_skip : forall f s, is_good s = false -> skip_spaces (S f) s = Ret s.
Proof. intros f s H. unfold skip_spaces. cbn [skip_chars]. rewrite H. reflexivity. Qed.
Lemma set_fail_bad : forall s, is_good (set_fail s) = false.
Proof. intro s. unfold is_good, set_fail; cbn; rewrite !andb_false_r; reflexivity. Qed.
Lemma bad_peek : forall s, is_good s = false -> peek_char s = (255, set_fail s).
Proof. intros s H. unfold peek_char, peek. rewrite H. reflexivity. Qed.

Lemma bad_token : forall f size s, is_good s = false ->
  exists s', get_or_skip_token (S f) size s = Ret (none, s') /\ is_good s' = false /\ inp s' = inp s /\ stk s' = stk s /\ mem s' = mem s /\ maxl s' = maxl s.
Proof.
  intros f size s H. unfold get_or_skip_token. rewrite bad_skip by assumption. cbn [bind].
  rewrite bad_peek by assumption.
  assert (E : (if expect_property (set_fail s) then token_property (S f) size 255 (set_fail s) else token_value (S f) size 255 (set_fail s))
     = Ret ((none, true), if expect_property (set_fail s) then set_bad (set_fail s) else set_expect_property (set_bad (set_fail s)) true)).
  { destruct (expect_property (set_fail s)); reflexivity. }
  rewrite E. cbn [bind]. clear E.
  set (s1 := if expect_property (set_fail s) then _ else _).
  assert (is_good s1 = false /\ inp s1 = inp s /\ stk s1 = stk s /\ mem s1 = mem s /\ maxl s1 = maxl s) as (G1 & I1 & K1 & M1 & L1)
    by (subst s1; destruct (expect_property (set_fail s)); auto).
  clearbody s1. destruct (true && (0 <? levels s1)).
  - unfold trailing. rewrite bad_skip by assumption. cbn [bind]. rewrite bad_peek by assumption. cbn [Z.eqb Pos.eqb negb].
    destruct (expect_property (set_fail s1)); cbn [set_bad_if bind]; eexists; (split; [reflexivity|]); cbn [inp stk mem maxl set_bad set_fail upd_flags]; auto.
  - cbn [bind]. eexists. split; [reflexivity|auto].
Qed.

(** *** The effect of a token on the nesting (C06) *)
Definition eff (L : Z) (it : item) (k k' : list bool) : Prop :=
  match it with
  | begin_array => k' = false :: k /\ zlen k < L
  | begin_object => k' = true :: k /\ zlen k < L
  | end_array => k = false :: k'
  | end_object => k = true :: k'
  | _ => k' = k
  end.

Lemma set_bad_if_step : forall s b, StepM s (set_bad_if s b).
Proof. intros s b. destruct b; [apply set_bad_step|apply stepm_refl]. Qed.

Lemma trailing_step : forall fuel s s', trailing fuel s = Ret s' -> StepM s s'.
Proof.
  intros fuel s s' H. unfold trailing in H. destruct (skip_spaces fuel s) as [s1| | | |] eqn:E; cbn [bind] in H; try discriminate.
  apply skip_spaces_step in E. destruct (peek_char s1) as [ch s2] eqn:Ep. apply peek_step in Ep.
  destruct (ch =? 44); [injection H as <-; pose proof (snd_get_step s2); eauto using stepm_trans|].
  destruct (expect_property s2); injection H as <-.
  - pose proof (set_bad_if_step s2 (negb (ch =? 125))). eauto using stepm_trans.
  - pose proof (set_bad_if_step s2 (negb (ch =? 93))). eauto using stepm_trans.
Qed.

Definition Eff (it : item) (s s' : rd) : Prop :=
  maxl s' = maxl s /\ (is_good s' = true -> is_good s = true /\ eff (maxl s) it (stk s) (stk s')) /\ (exists d, inp s = d ++ inp s') /\ same_buf s s'.

Lemma eff_expect : forall it s s' b, Eff it s s' -> Eff it s (set_expect_property s' b).
Proof. intros it s s' b H. exact H. Qed.
Lemma eff_none_step : forall it s s', StepB s s' -> (eff (maxl s) it (stk s) (stk s)) -> Eff it s s'.
Proof.
  intros it s s' (S & B) He. split; [apply S|]. split; [|split; [apply S|assumption]].
  intro G. split; [eapply good_back; eassumption|]. rewrite (st_stk _ _ S). assumption.
Qed.
Lemma eff_then : forall it s s1 s2, Eff it s s1 -> StepB s1 s2 -> Eff it s s2.
Proof.
  intros it s s1 s2 (H1 & H2 & (d & H3) & H4) (S & B). split; [rewrite (st_maxl _ _ S); assumption|]. split; [|split].
  - intro G. rewrite (st_stk _ _ S). apply H2. eapply good_back; eassumption.
  - destruct (st_suffix _ _ S) as (d' & E). exists (d ++ d'). rewrite <- app_assoc, <- E. assumption.
  - eapply same_trans; eassumption.
Qed.
Lemma eff_before : forall it s s1 s2, StepB s s1 -> Eff it s1 s2 -> Eff it s s2.
Proof.
  intros it s s1 s2 (S & B) (H1 & H2 & (d & H3) & H4). split; [rewrite H1; apply S|]. split; [|split].
  - intro G. destruct (H2 G) as (G1 & E). rewrite (st_maxl _ _ S), (st_stk _ _ S) in E. split; [eapply good_back; eassumption|assumption].
  - destruct (st_suffix _ _ S) as (d' & E). exists (d' ++ d). rewrite <- app_assoc, <- H3. assumption.
  - eapply same_trans; eassumption.
Qed.
Lemma push_eff : forall s o s1 ok, push_level s o = (s1, ok) -> Eff (if o then begin_object else begin_array) s (set_bad_if s1 (negb ok)).
Proof.
  intros s o s1 ok H. unfold push_level in H. destruct (maxl s <=? levels s) eqn:E; injection H as <- <-; cbn [negb set_bad_if].
  - split; [reflexivity|]. split; [discriminate|]. split; [exists []; reflexivity|reflexivity].
  - split; [reflexivity|]. split; [|split; [exists []; reflexivity|reflexivity]]. intro G. split; [exact G|]. unfold levels in E.
    destruct o; cbn [eff stk upd_stk]; split; auto; lia.
Qed.
Lemma pop_eff : forall s o s1 ok, pop_level s o = (s1, ok) -> Eff (if o then end_object else end_array) s (set_bad_if s1 (negb ok)).
Proof.
  intros s o s1 ok H. unfold pop_level in H.
  assert (B : Eff (if o then end_object else end_array) s (set_bad s)).
  { split; [reflexivity|]. split; [discriminate|]. split; [exists []; reflexivity|reflexivity]. }
  destruct (stk s) as [|l k] eqn:Ek; [injection H as <- <-; exact B|].
  destruct (Bool.eqb l o) eqn:E; injection H as <- <-; cbn [negb set_bad_if]; [|exact B].
  apply eqb_prop in E. subst l. split; [reflexivity|]. split; [|split; [exists []; reflexivity|reflexivity]].
  intro G. split; [exact G|]. destruct o; cbn [eff stk upd_stk]; congruence.
Qed.

Lemma property_eff : forall fuel size ch s it tr s', token_property fuel size ch s = Ret ((it, tr), s') -> Eff it s s'.
Proof.
  intros fuel size ch s it tr s' H. unfold token_property in H. destruct (ch =? 34).
  - destruct (get_or_skip_string fuel (wrap_u64 (size - sizeof_item)) s) as [[g s1]| | | |] eqn:E; cbn [bind] in H; try discriminate.
    apply get_string_step in E. destruct (is_good s1).
    + destruct (skip_spaces fuel s1) as [s2| | | |] eqn:E2; cbn [bind] in H; try discriminate. apply skip_spaces_step, stepb_of in E2.
      destruct (peek_char s2) as [c s3] eqn:Ep. apply peek_step, stepb_of in Ep.
      pose proof (stepb_of _ _ (snd_get_step s3)). pose proof (stepb_of _ _ (set_bad_step s3)).
      destruct (c =? 58); cbn [bind] in H; injection H as <- <- <-; apply eff_expect, eff_none_step; try reflexivity; eauto using stepb_trans.
    + cbn [bind] in H. injection H as <- <- <-. apply eff_expect, eff_none_step; [assumption|reflexivity].
  - destruct (ch =? 125).
    + destruct (get s) as [c s1] eqn:Eg. apply get_step, stepb_of in Eg.
      destruct (pop_level s1 true) as [s2 ok] eqn:E2. injection H as <- <- <-.
      apply eff_expect. eapply eff_before; [exact Eg|]. apply (pop_eff _ true _ _ E2).
    + injection H as <- <- <-. apply eff_none_step; [apply stepb_of, set_bad_step|reflexivity].
Qed.

Lemma value_eff : forall fuel size ch s it tr s', token_value fuel size ch s = Ret ((it, tr), s') -> Eff it s s'.
Proof.
  intros fuel size ch s it tr s' H. unfold token_value in H.
  match type of H with bind ?x _ = _ => destruct x as [[[it1 tr1] s1]| | | |] eqn:E; cbn [bind] in H; try discriminate end.
  injection H as <- <- <-. apply eff_expect.
  pose proof (fun lit => stepb_of _ _ (literal_step lit s)) as SL.
  generalize dependent lit_null. generalize dependent lit_false. generalize dependent lit_true. intros lit_true lit_false lit_null E.
  destruct (ch =? 110).
  { destruct (is_good (get_literal lit_null s)); injection E as <- <- <-; (apply eff_none_step; [exact (SL _)|reflexivity]). }
  destruct (ch =? 102).
  { destruct (is_good (get_literal lit_false s)); [|injection E as <- <- <-; (apply eff_none_step; [exact (SL _)|reflexivity])].
    destruct (store (get_literal lit_false s) 0 [0]) as [s2| | | |] eqn:E2; cbn [bind] in E; try discriminate. injection E as <- <- <-.
    apply store_stepb in E2. apply eff_none_step; [eauto using stepb_trans|reflexivity]. }
  destruct (ch =? 116).
  { destruct (is_good (get_literal lit_true s)); [|injection E as <- <- <-; (apply eff_none_step; [exact (SL _)|reflexivity])].
    destruct (store (get_literal lit_true s) 0 [1]) as [s2| | | |] eqn:E2; cbn [bind] in E; try discriminate. injection E as <- <- <-.
    apply store_stepb in E2. apply eff_none_step; [eauto using stepb_trans|reflexivity]. }
  destruct (is_digit ch || (ch =? 43) || (ch =? 45)).
  { destruct (get_or_skip_number fuel s) as [s2| | | |] eqn:E2; cbn [bind] in E; try discriminate. injection E as <- <- <-.
    apply number_step in E2. apply eff_none_step; [assumption|reflexivity]. }
  destruct (ch =? 34).
  { destruct (get_or_skip_string fuel (wrap_u64 (size - sizeof_item)) s) as [[g s2]| | | |] eqn:E2; cbn [bind] in E; try discriminate.
    apply get_string_step in E2. destruct (is_good s2); injection E as <- <- <-; (apply eff_none_step; [exact E2|reflexivity]). }
  destruct (ch =? 91).
  { destruct (get s) as [c s2] eqn:Eg. apply get_step, stepb_of in Eg. destruct (push_level s2 false) as [s3 ok] eqn:E3. injection E as <- <- <-.
    eapply eff_before; [exact Eg|]. apply (push_eff _ false _ _ E3). }
  destruct (ch =? 93).
  { destruct (get s) as [c s2] eqn:Eg. apply get_step, stepb_of in Eg. destruct (pop_level s2 false) as [s3 ok] eqn:E3. injection E as <- <- <-.
    eapply eff_before; [exact Eg|]. apply (pop_eff _ false _ _ E3). }
  destruct (ch =? 123).
  { destruct (get s) as [c s2] eqn:Eg. apply get_step, stepb_of in Eg. destruct (push_level s2 true) as [s3 ok] eqn:E3. injection E as <- <- <-.
    eapply eff_before; [exact Eg|]. apply (push_eff _ true _ _ E3). }
  injection E as <- <- <-. apply eff_none_step; [apply stepb_of, set_bad_step|reflexivity].
Qed.

Lemma token_eff : forall fuel size s it s', get_or_skip_token fuel size s = Ret (it, s') -> Eff it s s'.
Proof.
  intros fuel size s it s' H. unfold get_or_skip_token in H.
  destruct (skip_spaces fuel s) as [s1| | | |] eqn:E1; cbn [bind] in H; try discriminate. apply skip_spaces_step, stepb_of in E1.
  destruct (peek_char s1) as [ch s2] eqn:Ep. apply peek_step, stepb_of in Ep.
  match type of H with bind ?x _ = _ => destruct x as [[[it1 tr1] s3]| | | |] eqn:E3; cbn [bind] in H; try discriminate end.
  assert (Eff it1 s2 s3) as F3 by (destruct (expect_property s2); [eapply property_eff|eapply value_eff]; eassumption).
  assert (Eff it1 s s3) as F by (do 2 (eapply eff_before; [eassumption|]); assumption).
  destruct (tr1 && (0 <? levels s3)).
  - destruct (trailing fuel s3) as [s4| | | |] eqn:E4; cbn [bind] in H; try discriminate. injection H as <- <-.
    apply trailing_step, stepb_of in E4. eapply eff_then; eassumption.
  - cbn [bind] in H. injection H as <- <-. assumption.
Qed.

(** Levels as open brackets. *)
Definition open_of (k : list bool) : list token := map (fun b : bool => if b then TBegO else TBegA) k.
Definition tok_of (o : option token) : token := match o with Some t => t | None => TNone end.

Lemma observe_eff : forall L it s k k' rest, eff L it k k' -> 
  nesting (open_of k) (tok_of (observe it s) :: rest) = nesting (open_of k') rest.
Proof.
  intros L it s k k' rest He. destruct it; cbn [eff observe tok_of] in *; subst; try reflexivity.
  - unfold observe. destruct (match mem s with Some m => drop value_offset m | None => [] end); reflexivity.
  - unfold observe. destruct (c_str _); reflexivity.
  - destruct He as (-> & _). reflexivity.
  - destruct He as (-> & _). reflexivity.
  - unfold observe. destruct (c_str _); reflexivity.
Qed.
Lemma eff_max : forall L it k k', eff L it k k' -> zlen k <= L -> zlen k' <= L.
Proof. intros L it k k' He H. destruct it; cbn [eff] in He; subst; rewrite ?zlen_cons in *; try lia; destruct He as (-> & He); rewrite ?zlen_cons; lia. Qed.

Lemma tokens_nest : forall n fuel bufs s toks s', get_tokens fuel n bufs s = Ret (toks, s') -> is_good s' = true -> zlen (stk s) <= maxl s ->
  is_good s = true /\ maxl s' = maxl s /\
  forall i, exists k, nesting (open_of (stk s)) (firstn i (map tok_of toks)) = Some (open_of k) /\ zlen k <= maxl s.
Proof.
  induction n as [|n IH]; intros fuel bufs s toks s' H G HL; cbn [get_tokens] in H.
  - injection H as <- <-. repeat split; auto. intro i. exists (stk s). rewrite firstn_nil. auto.
  - destruct (get_token fuel (bufs n) s) as [[it s1]| | | |] eqn:E; cbn [bind] in H; try discriminate.
    destruct (get_tokens fuel n bufs s1) as [[l s2]| | | |] eqn:E2; cbn [bind] in H; try discriminate. injection H as <- <-.
    unfold get_token in E. destruct (zlen (bufs n) <? sizeof_token); [discriminate|]. apply token_eff in E.
    destruct E as (M & GE & _ & _). cbn [maxl stk with_mem upd_mem] in M, GE. change (is_good (with_mem s (Some (bufs n)))) with (is_good s) in GE.
    assert (M1 : is_good s1 = true /\ maxl s2 = maxl s1).
    { destruct (is_good s1) eqn:G1.
      - destruct (GE eq_refl) as (_ & He). apply eff_max in He; [|assumption]. rewrite <- M in He. destruct (IH _ _ _ _ _ E2 G He) as (? & ? & _). auto.
      - exfalso. clear -E2 G G1. revert s1 l s2 E2 G G1. clear. induction n as [|n IH]; intros s1 l s2 E2 G G1; cbn [get_tokens] in E2; [injection E2 as <- <-; congruence|].
        destruct (get_token fuel (bufs n) s1) as [[it s3]| | | |] eqn:E; cbn [bind] in E2; try discriminate.
        destruct (get_tokens fuel n bufs s3) as [[l' s4]| | | |] eqn:E4; cbn [bind] in E2; try discriminate. injection E2 as <- <-.
        unfold get_token in E. destruct (zlen (bufs n) <? sizeof_token); [discriminate|]. apply token_eff in E.
        destruct (is_good s3) eqn:G3; [|eapply IH; eassumption]. destruct E as (_ & GE & _). destruct (GE G3) as (GE' & _).
        change (is_good (with_mem s1 (Some (bufs n)))) with (is_good s1) in GE'. congruence. }
    destruct M1 as (G1 & M1). destruct (GE G1) as (G0 & He). pose proof (eff_max _ _ _ _ He HL) as HL1. rewrite <- M in HL1.
    destruct (IH _ _ _ _ _ E2 G HL1) as (_ & _ & N). split; [assumption|]. split; [congruence|].
    intro i. destruct i as [|i]; [exists (stk s); auto|]. cbn [map firstn]. destruct (N i) as (k & Nk & Lk).
    exists k. rewrite M in Lk. split; [|assumption]. rewrite <- Nk. eapply observe_eff. exact He.
Qed.

(** *** The token buffer (C05) *)
Definition fits (s : rd) (k : Z) : Prop := forall m, mem s = Some m -> value_offset + k <= zlen m.
Lemma fits_same : forall s s' k, same_buf s s' -> fits s k -> fits s' k.
Proof.
  intros s s' k H F m E. unfold same_buf in H. rewrite E in H. cbn in H. destruct (mem s) as [m0|] eqn:E0; [|discriminate].
  cbn in H. injection H as H. rewrite H. apply F. assumption.
Qed.
Lemma fits_le : forall s a b, b <= a -> fits s a -> fits s b.
Proof. intros s a b H F m E. specialize (F m E). lia. Qed.
Lemma store_fits : forall s p w, 0 <= p -> fits s (p + zlen w) -> store s p w <> Oob_token.
Proof. intros s p w Hp F. destruct (store_ok s p w Hp) as (s' & ->); [|discriminate]. intros m E. specialize (F m E). lia. Qed.

Lemma get_chars_not_oob : forall fuel pred lim i s, get_chars fuel pred lim i s <> Oob_token.
Proof.
  induction fuel as [|fuel IH]; intros pred lim i s; [discriminate|]. cbn [get_chars]. destruct (is_good s); [|discriminate].
  destruct (peek_char s) as [ch s1]. destruct (pred ch); [|discriminate]. destruct (i =? lim); [discriminate|].
  destruct (get s1) as [c s2]. specialize (IH pred lim (i + 1) s2). destruct (get_chars _ _ _ _ s2) as [[? ?]| | | |]; congruence.
Qed.
Lemma skip_chars_not_oob : forall fuel pred s, skip_chars fuel pred s <> Oob_token.
Proof.
  induction fuel as [|fuel IH]; intros pred s; [discriminate|]. cbn [skip_chars]. destruct (is_good s); [|discriminate].
  destruct (peek_char s) as [ch s1]. destruct (pred ch); [|discriminate].
  destruct (get s1) as [c s2]. specialize (IH pred s2). destruct (skip_chars _ _ s2) as [[? ?]| | | |]; congruence.
Qed.
Lemma skip_spaces_not_oob : forall fuel s, skip_spaces fuel s <> Oob_token.
Proof. intros. unfold skip_spaces. pose proof (skip_chars_not_oob fuel json_is_space s). destruct (skip_chars _ _ s) as [[? ?]| | | |]; congruence. Qed.
Lemma escape_not_oob : forall fuel s, get_escaped_char fuel s <> Oob_token.
Proof.
  intros fuel s. unfold get_escaped_char. destruct (peek_char s) as [ch s1]. destruct (ch =? 92); [|discriminate].
  destruct (get s1) as [c2 s2]. destruct (peek_char s2) as [ch3 s3].
  repeat match goal with |- (if ?b then _ else _) <> _ => destruct b; [discriminate|] end.
  destruct (ch3 =? 117); [|discriminate].
  destruct (get s3) as [c4 s4]. pose proof (get_chars_not_oob fuel is_hex (limit_of 5) 0 s4).
  destruct (get_chars fuel is_hex (limit_of 5) 0 s4) as [[h s5]| | | |]; try congruence.
  destruct h as [|a [|b [|c' [|d [|]]]]]; try discriminate. destruct (_ && _); discriminate.
Qed.

Lemma content_safe : forall fuel p size s, 0 <= p -> fits s (p + phi s + 1) -> string_content fuel p size s <> Oob_token.
Proof.
  intros fuel p size s Hp F. unfold string_content. destruct (mem s) as [m|] eqn:Em; [|apply skip_chars_not_oob].
  pose proof (get_chars_not_oob fuel json_is_string_content (limit_of size) 0 s).
  destruct (get_chars _ _ _ _ s) as [[l s1]| | | |] eqn:E; try congruence. apply get_chars_step in E. destruct E as (S1 & P1).
  assert (phi s1 >= 0) by (unfold phi; pose proof (zlen_nonneg _ (inp s1)); destruct (is_good s1); lia).
  pose proof (store_fits s1 p (l ++ [0]) Hp) as N. 
  destruct (store s1 p (l ++ [0])); try congruence. exfalso. apply N; [|reflexivity].
  eapply fits_same; [apply stepm_same; exact S1|]. eapply fits_le; [|exact F]. rewrite zlen_app, zlen_cons, zlen_nil. lia.
Qed.
Lemma loop_safe : forall fuel size g s, 0 <= g -> fits s (g + phi s + 1) ->
  match string_loop fuel size g s with Oob_token => False | Ret (n, s') => 0 <= n /\ fits s' (n + 1) | _ => True end.
Proof.
  induction fuel as [|fuel IH]; intros size g s Hg F; [exact I|]. cbn [string_loop].
  pose proof (content_safe fuel g (wrap_u64 (size - g)) s Hg F) as NC.
  destruct (string_content fuel g (wrap_u64 (size - g)) s) as [[n1 s1]| | | |] eqn:E1; try exact I; [|congruence].
  destruct (content_step _ _ _ _ _ _ E1) as ((S1 & B1) & Hn & P1).
  assert (F1 : fits s1 (g + n1 + phi s1 + 1)).
  { intros m Em. assert (mem s <> None) as M0 by (intro Z0; unfold same_buf in B1; rewrite Z0, Em in B1; discriminate).
    specialize (P1 M0). pose proof (fits_same _ _ _ B1 F m Em). lia. }
  destruct (peek_char s1) as [ch s2] eqn:Ep. pose proof (peek_step _ _ _ Ep) as S2. pose proof (st_phi _ _ (proj1 S2)).
  assert (forall x, phi x >= 0) as P0 by (intro x; unfold phi; pose proof (zlen_nonneg _ (inp x)); destruct (is_good x); lia).
  assert (F2 : fits s2 (g + n1 + phi s2 + 1)).
  { eapply fits_same; [apply stepm_same; exact S2|]. eapply fits_le; [|exact F1]. lia. }
  destruct (ch =? 34).
  { split; [lia|]. pose proof (snd_get_step s2) as S3. eapply fits_same; [apply stepm_same; exact S3|]. eapply fits_le; [|exact F2]. specialize (P0 s2). lia. }
  destruct (ch =? 92) eqn:E92; [|apply IH; [lia|assumption]].
  pose proof (escape_not_oob fuel s2) as NE. destruct (get_escaped_char fuel s2) as [[c3 s3]| | | |] eqn:E3; try exact I; [|congruence].
  pose proof (escape_step _ _ _ _ E3) as S3.
  assert (P3 : phi s3 + 1 <= phi s2).
  { eapply escape_phi; [exact E3|]. destruct (peek_value _ _ _ Ep) as [(_ & -> & _)|(_ & ->)]; [rewrite Ep; cbn [fst]; lia|discriminate]. }
  assert (F3 : fits s3 (g + n1 + 1 + phi s3 + 1)).
  { eapply fits_same; [apply stepm_same; exact S3|]. eapply fits_le; [|exact F2]. lia. }
  destruct (mem s3) as [m3|] eqn:E3m.
  - pose proof (store_fits s3 (g + n1) [c3] ltac:(lia)) as N. destruct (store s3 (g + n1) [c3]) as [s4| | | |] eqn:E4; try exact I.
    + apply IH; [lia|]. pose proof (store_stepb _ _ _ _ E4) as (S4 & B4). pose proof (st_phi _ _ S4).
      eapply fits_same; [exact B4|]. eapply fits_le; [|exact F3]. lia.
    + apply N; [|reflexivity]. eapply fits_le; [|exact F3]. rewrite zlen_cons, zlen_nil. specialize (P0 s3). lia.
  - apply IH; [lia|]. intros m E. congruence.
Qed.
Lemma string_safe : forall fuel size s, fits s (phi s + 1) -> get_or_skip_string fuel size s <> Oob_token.
Proof.
  intros fuel size s F. unfold get_or_skip_string.
  destruct (peek_char s) as [ch s1] eqn:Ep. pose proof (peek_step _ _ _ Ep) as S1. pose proof (st_phi _ _ (proj1 S1)).
  assert (F1 : fits s1 (phi s1 + 1)) by (eapply fits_same; [apply stepm_same; exact S1|]; eapply fits_le; [|exact F]; lia).
  destruct (ch =? 34).
  - pose proof (snd_get_step s1) as S2. pose proof (st_phi _ _ (proj1 S2)).
    pose proof (loop_safe fuel size 0 (snd (get s1)) ltac:(lia)) as L.
    destruct (string_loop fuel size 0 (snd (get s1))) as [[g s2]| | | |]; try discriminate.
    + destruct L as (Hg & Fg). { eapply fits_same; [apply stepm_same; exact S2|]. eapply fits_le; [|exact F1]. lia. }
      pose proof (store_fits s2 g [0] Hg) as N. destruct (store s2 g [0]); try discriminate. exfalso. apply N; auto.
    + exfalso. apply L. eapply fits_same; [apply stepm_same; exact S2|]. eapply fits_le; [|exact F1]. lia.
  - pose proof (store_fits s1 0 [0] ltac:(lia)) as N. destruct (store s1 0 [0]); try discriminate. exfalso. apply N; auto.
    eapply fits_le; [|exact F1]. rewrite zlen_cons, zlen_nil. unfold phi. pose proof (zlen_nonneg _ (inp s1)). destruct (is_good s1); lia.
Qed.
Lemma digits_not_oob : forall fuel n s, get_digits fuel n s <> Oob_token.
Proof.
  intros fuel n s. unfold get_digits. pose proof (get_chars_not_oob fuel is_digit (limit_of (wrap_u64 (digits_size - n))) 0 s).
  destruct (get_chars _ _ _ _ s) as [[? ?]| | | |]; try congruence. destruct (_ <=? _); discriminate.
Qed.
Lemma digit_char_not_oob : forall d s, get_digit_char d s <> Oob_token.
Proof. intros d s. unfold get_digit_char. destruct (get s). destruct (_ <=? _); discriminate. Qed.
Lemma bind_not_oob : forall A B (x : res A) (f : A -> res B), x <> Oob_token -> (forall a, x = Ret a -> f a <> Oob_token) -> bind x f <> Oob_token.
Proof. intros A B [a| | | |] f H1 H2; cbn [bind]; try congruence. apply H2. reflexivity. Qed.
Ltac noob := repeat first [ discriminate | apply digits_not_oob | apply digit_char_not_oob | (apply bind_not_oob; [|intros [? ?] _])
  | match goal with |- context[peek_char ?s] => destruct (peek_char s) as [? ?] end
  | match goal with |- (if ?b then _ else _) <> _ => destruct b end ].
Lemma number_not_oob : forall fuel s, get_or_skip_number fuel s <> Oob_token.
Proof. intros fuel s. unfold get_or_skip_number, number_int, number_frac, number_exp. noob. Qed.

Lemma property_safe : forall fuel size ch s, fits s (phi s + 1) -> token_property fuel size ch s <> Oob_token.
Proof.
  intros fuel size ch s F. unfold token_property. destruct (ch =? 34).
  - apply bind_not_oob; [apply string_safe; assumption|]. intros [g s1] _. apply bind_not_oob; [|intros [? ?] _; discriminate].
    destruct (is_good s1); [|discriminate]. apply bind_not_oob; [apply skip_spaces_not_oob|]. intros s2 _. destruct (peek_char s2). destruct (_ =? _); discriminate.
  - destruct (ch =? 125); [|discriminate]. destruct (get s). destruct (pop_level _ _). discriminate.
Qed.
Lemma value_safe : forall fuel size ch s, fits s (phi s + 1) -> fits s 1 -> token_value fuel size ch s <> Oob_token.
Proof.
  intros fuel size ch s F F1. unfold token_value. apply bind_not_oob; [|intros [? ?] _; discriminate].
  assert (FL : forall lit b, store (get_literal lit s) 0 [b] <> Oob_token).
  { intros lit b. apply store_fits; [lia|]. eapply fits_same; [apply stepm_same, literal_step|]. exact F1. }
  destruct (ch =? 110); [discriminate|].
  destruct (ch =? 102). { destruct (is_good _); [|discriminate]. apply bind_not_oob; [apply FL|discriminate]. }
  destruct (ch =? 116). { destruct (is_good _); [|discriminate]. apply bind_not_oob; [apply FL|discriminate]. }
  destruct (_ || _). { apply bind_not_oob; [apply number_not_oob|discriminate]. }
  destruct (ch =? 34). { apply bind_not_oob; [apply string_safe; assumption|]. intros [? ?] _. discriminate. }
  destruct (ch =? 91). { destruct (get s). destruct (push_level _ _). discriminate. }
  destruct (ch =? 93). { destruct (get s). destruct (pop_level _ _). discriminate. }
  destruct (ch =? 123). { destruct (get s). destruct (push_level _ _). discriminate. }
  discriminate.
Qed.
Lemma trailing_not_oob : forall fuel s, trailing fuel s <> Oob_token.
Proof.
  intros fuel s. unfold trailing. apply bind_not_oob; [apply skip_spaces_not_oob|]. intros s1 _. destruct (peek_char s1) as [ch s2].
  destruct (ch =? 44); [discriminate|]. destruct (expect_property s2); discriminate.
Qed.
Lemma token_safe : forall fuel size s, fits s (phi s + 1) -> fits s 1 -> get_or_skip_token fuel size s <> Oob_token.
Proof.
  intros fuel size s F F1. unfold get_or_skip_token. apply bind_not_oob; [apply skip_spaces_not_oob|]. intros s1 E1. apply skip_spaces_step in E1.
  destruct (peek_char s1) as [ch s2] eqn:Ep. apply peek_step in Ep. pose proof (stepm_trans _ _ _ E1 Ep) as S.
  pose proof (st_phi _ _ (proj1 S)).
  assert (fits s2 (phi s2 + 1)) by (eapply fits_same; [apply stepm_same; exact S|]; eapply fits_le; [|exact F]; lia).
  assert (fits s2 1) by (eapply fits_same; [apply stepm_same; exact S|exact F1]).
  apply bind_not_oob; [destruct (expect_property s2); auto using property_safe, value_safe|].
  intros [[it tr] s3] _. apply bind_not_oob; [|discriminate]. destruct (_ && _); [apply trailing_not_oob|discriminate].
Qed.

(** *** Without escapes the reader writes at most six bytes too many *)
Definition stuck (pred : Z -> bool) (s : rd) : Prop := is_good s = false \/ exists c r, inp s = c :: r /\ pred c = false.
Lemma get_chars_stuck : forall fuel pred lim i s l s', get_chars fuel pred lim i s = Ret (l, s') -> i <= lim ->
  stuck pred s' /\ zlen l <= lim - i /\ (stuck pred s -> l = []).
Proof.
  induction fuel as [|fuel IH]; intros pred lim i s l s' H Hi; [discriminate|]. cbn [get_chars] in H.
  destruct (is_good s) eqn:E; [|injection H as <- <-; split; [left; assumption|]; split; [rewrite zlen_nil; lia|reflexivity]].
  destruct (peek_char s) as [ch s1] eqn:Ep. destruct (pred ch) eqn:Epr.
  - destruct (i =? lim) eqn:El.
    + injection H as <- <-. split; [left; apply set_fail_bad|]. split; [rewrite zlen_nil; lia|reflexivity].
    + destruct (get s1) as [c2 s2] eqn:Eg. destruct (get_chars fuel pred lim (i + 1) s2) as [[l3 s3]| | | |] eqn:E3; try discriminate. injection H as <- <-.
      destruct (IH _ _ _ _ _ _ E3) as (K & Z3 & _); [lia|]. split; [assumption|]. split; [rewrite zlen_cons; lia|].
      intros [?|(c & r & Ei & Ec)]; [congruence|]. unfold peek_char, peek in Ep. rewrite E, Ei in Ep. injection Ep as <- <-. congruence.
  - injection H as <- <-. destruct (peek_value _ _ _ Ep) as [(_ & -> & (r & Er))|(G & _)].
    + split; [right; eauto|]. split; [rewrite zlen_nil; lia|reflexivity].
    + split; [left; assumption|]. split; [rewrite zlen_nil; lia|reflexivity].
Qed.
Lemma step_no92 : forall s s', Step s s' -> ~ In 92 (inp s) -> ~ In 92 (inp s').
Proof. intros s s' S N H. destruct (st_suffix _ _ S) as (d & E). apply N. rewrite E. apply in_or_app. auto. Qed.

Lemma plain_loop_safe : forall fuel size g s, 3 <= size < 2^63 -> 0 <= g <= size - 1 -> (g = 0 \/ stuck json_is_string_content s) -> ~ In 92 (inp s) ->
  fits s size -> mem s <> None ->
  match string_loop fuel size g s with Oob_token => False | Ret (n, s') => 0 <= n /\ fits s' (n + 1) | _ => True end.
Proof.
  induction fuel as [|fuel IH]; intros size g s Hs Hg Hk N F M; [exact I|]. cbn [string_loop]. unfold string_content.
  destruct (mem s) as [m|] eqn:Em; [|congruence]. clear M.
  assert (EL : limit_of (wrap_u64 (size - g)) = size - g - 1) by (unfold limit_of, wrap_u64; rewrite (Z.mod_small (size - g)) by lia; rewrite Z.mod_small by lia; lia).
  rewrite EL. pose proof (get_chars_not_oob fuel json_is_string_content (size - g - 1) 0 s) as NC.
  destruct (get_chars fuel json_is_string_content (size - g - 1) 0 s) as [[l s1]| | | |] eqn:E; try exact I; [|congruence].
  destruct (get_chars_step _ _ _ _ _ _ _ E) as (S1 & _). destruct (get_chars_stuck _ _ _ _ _ _ _ E) as (K1 & Z1 & L1); [lia|].
  assert (M1 : mem s1 = Some m) by (rewrite (proj2 S1); assumption).
  assert (F1 : fits s1 size) by (eapply fits_same; [apply stepm_same; exact S1|exact F]).
  destruct (store_ok s1 g (l ++ [0])) as (s2 & E2); [lia| |].
  { intros m0 E0. specialize (F1 m0 E0). rewrite zlen_app, zlen_cons, zlen_nil. lia. }
  rewrite E2. destruct (store_stepb _ _ _ _ E2) as (S2 & B2).
  assert (F2 : fits s2 size) by (eapply fits_same; eassumption).
  assert (K2 : stuck json_is_string_content s2).
  { unfold store in E2. rewrite M1 in E2. destruct (write_at m (value_offset + g) (l ++ [0])); [|discriminate]. injection E2 as <-. exact K1. }
  assert (M2 : exists m2, mem s2 = Some m2) by (unfold same_buf in B2; rewrite M1 in B2; destruct (mem s2); [eauto|discriminate]).
  destruct M2 as (m2 & M2).
  destruct (peek_char s2) as [ch s3] eqn:Ep. pose proof (peek_step _ _ _ Ep) as S3.
  assert (F3 : fits s3 size) by (eapply fits_same; [apply stepm_same; exact S3|exact F2]).
  pose proof (zlen_nonneg _ l). 
  destruct (ch =? 34).
  { split; [lia|]. pose proof (snd_get_step s3) as S4. eapply fits_same; [apply stepm_same; exact S4|]. eapply fits_le; [|exact F3]. lia. }
  assert (N2 : ~ In 92 (inp s2)) by (eapply step_no92; [exact S2|]; eapply step_no92; [exact (proj1 S1)|exact N]).
  destruct (peek_value _ _ _ Ep) as [(G & -> & (r & Er))|(G & ->)].
  - destruct (ch =? 92) eqn:E92. { exfalso. apply N2. rewrite Er. left. lia. }
    apply IH; auto; try lia; congruence.
  - cbn [Z.eqb Pos.eqb]. apply IH; auto; try lia.
    + right. left. assumption.
    + eapply step_no92; [exact (proj1 S3)|assumption].
    + rewrite (proj2 S3). congruence.
Qed.
Lemma plain_string_safe : forall fuel size s, 3 <= size < 2^63 -> ~ In 92 (inp s) -> fits s size -> mem s <> None ->
  get_or_skip_string fuel size s <> Oob_token.
Proof.
  intros fuel size s Hs N F M. unfold get_or_skip_string.
  destruct (peek_char s) as [ch s1] eqn:Ep. pose proof (peek_step _ _ _ Ep) as S1.
  assert (F1 : fits s1 size) by (eapply fits_same; [apply stepm_same; exact S1|]; exact F).
  destruct (ch =? 34).
  - pose proof (snd_get_step s1) as S2. pose proof (stepm_trans _ _ _ S1 S2) as S.
    pose proof (plain_loop_safe fuel size 0 (snd (get s1)) Hs ltac:(lia) ltac:(auto)) as L.
    specialize (L (step_no92 _ _ (proj1 S) N) (fits_same _ _ _ (stepm_same _ _ S) F) ltac:(rewrite (proj2 S); assumption)).
    destruct (string_loop fuel size 0 (snd (get s1))) as [[g s2]| | | |]; try discriminate; [|contradiction].
    destruct L as (Hg & Fg). pose proof (store_fits s2 g [0] Hg) as NN. destruct (store s2 g [0]); try discriminate. exfalso. apply NN; auto.
  - pose proof (store_fits s1 0 [0] ltac:(lia)) as NN. destruct (store s1 0 [0]); try discriminate. exfalso. apply NN; auto.
    eapply fits_le; [|exact F1]. rewrite zlen_cons, zlen_nil. lia.
Qed.
Lemma plain_token_safe : forall fuel size s, 16 <= size < 2^63 -> ~ In 92 (inp s) -> fits s (size - 2) -> mem s <> None ->
  get_or_skip_token fuel size s <> Oob_token.
Proof.
  intros fuel size s Hs N F M. unfold get_or_skip_token. apply bind_not_oob; [apply skip_spaces_not_oob|]. intros s1 E1. apply skip_spaces_step in E1.
  destruct (peek_char s1) as [ch s2] eqn:Ep. apply peek_step in Ep. pose proof (stepm_trans _ _ _ E1 Ep) as S.
  assert (F2 : fits s2 (size - 2)) by (eapply fits_same; [apply stepm_same; exact S|]; exact F).
  pose proof (step_no92 _ _ (proj1 S) N) as N2. assert (M2 : mem s2 <> None) by (rewrite (proj2 S); assumption).
  assert (EW : wrap_u64 (size - sizeof_item) = size - 2) by (unfold wrap_u64, sizeof_item; rewrite Z.mod_small; lia).
  assert (SS : get_or_skip_string fuel (size - 2) s2 <> Oob_token) by (apply plain_string_safe; auto; lia).
  apply bind_not_oob.
  - destruct (expect_property s2).
    + unfold token_property. rewrite EW. destruct (ch =? 34).
      * apply bind_not_oob; [assumption|]. intros [g s3] _. apply bind_not_oob; [|intros [? ?] _; discriminate].
        destruct (is_good s3); [|discriminate]. apply bind_not_oob; [apply skip_spaces_not_oob|]. intros s4 _. destruct (peek_char s4). destruct (_ =? _); discriminate.
      * destruct (ch =? 125); [|discriminate]. destruct (get s2). destruct (pop_level _ _). discriminate.
    + unfold token_value. rewrite EW. apply bind_not_oob; [|intros [? ?] _; discriminate].
      assert (FL : forall lit b, store (get_literal lit s2) 0 [b] <> Oob_token).
      { intros lit b. apply store_fits; [lia|]. eapply fits_same; [apply stepm_same, literal_step|]. eapply fits_le; [|exact F2]. rewrite zlen_cons, zlen_nil. lia. }
      destruct (ch =? 110); [discriminate|].
      destruct (ch =? 102). { destruct (is_good _); [|discriminate]. apply bind_not_oob; [apply FL|discriminate]. }
      destruct (ch =? 116). { destruct (is_good _); [|discriminate]. apply bind_not_oob; [apply FL|discriminate]. }
      destruct (_ || _). { apply bind_not_oob; [apply number_not_oob|discriminate]. }
      destruct (ch =? 34). { apply bind_not_oob; [assumption|]. intros [? ?] _. discriminate. }
      destruct (ch =? 91). { destruct (get s2). destruct (push_level _ _). discriminate. }
      destruct (ch =? 93). { destruct (get s2). destruct (pop_level _ _). discriminate. }
      destruct (ch =? 123). { destruct (get s2). destruct (push_level _ _). discriminate. }
      discriminate.
  - intros [[it tr] s3] _. apply bind_not_oob; [|discriminate]. destruct (_ && _); [apply trailing_not_oob|discriminate].
Qed.

(** *** Termination (C04) *)
Lemma bind_not_loop : forall A B (x : res A) (f : A -> res B), x <> Loop -> (forall a, x = Ret a -> f a <> Loop) -> bind x f <> Loop.
Proof. intros A B [a| | | |] f H1 H2; cbn [bind]; try congruence. apply H2. reflexivity. Qed.
Lemma get_digits_not_loop : forall fuel n s, Z.of_nat fuel > phi s -> get_digits fuel n s <> Loop.
Proof.
  intros fuel n s H. unfold get_digits. destruct (get_chars_ok fuel is_digit (limit_of (wrap_u64 (digits_size - n))) 0 s H) as (l & s' & ->).
  destruct (_ <=? _); discriminate.
Qed.
Lemma digit_char_not_loop : forall d s, get_digit_char d s <> Loop.
Proof. intros d s. unfold get_digit_char. destruct (get s). destruct (_ <=? _); discriminate. Qed.
Lemma stepm_fuel : forall (fuel : nat) s s', StepM s s' -> Z.of_nat fuel > phi s -> Z.of_nat fuel > phi s'.
Proof. intros fuel s s' S H. pose proof (st_phi _ _ (proj1 S)). lia. Qed.
Ltac fu := repeat match goal with
  | H : get_digits _ _ _ = Ret _ |- _ => apply get_digits_step in H
  | H : get_digit_char _ _ = Ret _ |- _ => apply digit_char_step in H
  | H : peek_char _ = _ |- _ => apply peek_step in H
  | S : StepM ?a _, H : Z.of_nat _ > phi ?a |- _ => apply (stepm_fuel _ _ _ S) in H; clear S
  end.
Ltac nloop := repeat first [ discriminate | (apply get_digits_not_loop; fu; assumption) | apply digit_char_not_loop | (apply bind_not_loop; [|intros [? ?] ?])
  | match goal with |- context[peek_char ?s] => let E := fresh "Ep" in destruct (peek_char s) as [? ?] eqn:E; fu end
  | match goal with |- (if ?b then _ else _) <> _ => destruct b end ].
Lemma number_int_not_loop : forall fuel s, Z.of_nat fuel > phi s -> number_int fuel s <> Loop.
Proof.
  intros fuel s H. unfold number_int. destruct (peek_char s) as [ch s1] eqn:Ep. fu. apply bind_not_loop.
  - destruct (_ || _); [apply digit_char_not_loop|discriminate].
  - intros [d s2] E. assert (StepM s1 s2) by (destruct (_ || _); [eapply digit_char_step; exact E|injection E as <- <-; apply stepm_refl]). clear E. fu.
    apply bind_not_loop; [apply get_digits_not_loop; assumption|]. intros [? ?] _. discriminate.
Qed.
Lemma number_frac_not_loop : forall fuel d s, Z.of_nat fuel > phi s -> number_frac fuel d s <> Loop.
Proof.
  intros fuel d s H. unfold number_frac. destruct (peek_char s) as [ch s1] eqn:Ep. fu. destruct (_ =? _); [|discriminate].
  apply bind_not_loop; [apply digit_char_not_loop|]. intros [d2 s2] E. fu.
  apply bind_not_loop; [apply get_digits_not_loop; assumption|]. intros [? ?] _. discriminate.
Qed.
Lemma number_exp_not_loop : forall fuel d s, Z.of_nat fuel > phi s -> number_exp fuel d s <> Loop.
Proof.
  intros fuel d s H. unfold number_exp. destruct (peek_char s) as [ch s1] eqn:Ep. fu. destruct (_ || _); [|discriminate].
  apply bind_not_loop; [apply digit_char_not_loop|]. intros [d2 s2] E. fu.
  destruct (peek_char s2) as [ch3 s3] eqn:Ep. fu. apply bind_not_loop.
  - destruct (_ || _); [apply digit_char_not_loop|discriminate].
  - intros [d4 s4] E. assert (StepM s3 s4) by (destruct (_ || _); [eapply digit_char_step; exact E|injection E as <- <-; apply stepm_refl]). clear E. fu.
    apply bind_not_loop; [apply get_digits_not_loop; assumption|]. intros [? ?] _. discriminate.
Qed.
Lemma number_not_loop : forall fuel s, Z.of_nat fuel > phi s -> get_or_skip_number fuel s <> Loop.
Proof.
  intros fuel s H. unfold get_or_skip_number. apply bind_not_loop; [apply number_int_not_loop; assumption|]. intros [d s1] E. apply number_int_step in E. fu.
  apply bind_not_loop; [apply number_frac_not_loop; assumption|]. intros [d2 s2] E. apply number_frac_step in E. fu.
  apply bind_not_loop; [apply number_exp_not_loop; assumption|]. intros [d3 s3] E. destruct (_ <=? _); discriminate.
Qed.
Lemma store_not_loop : forall s p w, store s p w <> Loop.
Proof. intros. unfold store. destruct (mem s); [destruct (write_at _ _ _)|]; discriminate. Qed.
Lemma skip_spaces_not_loop : forall fuel s, Z.of_nat fuel > phi s -> skip_spaces fuel s <> Loop.
Proof. intros fuel s H. destruct (skip_spaces_ok fuel s H) as (s' & ->). discriminate. Qed.

Lemma token_terminates : forall fuel size s, Z.of_nat fuel > phi s ->
  (forall s1, skip_spaces fuel s = Ret s1 -> is_good s1 = true -> forall r, inp s1 <> 34 :: r) ->
  get_or_skip_token fuel size s <> Loop.
Proof.
  intros fuel size s H Q. unfold get_or_skip_token. apply bind_not_loop; [apply skip_spaces_not_loop; assumption|]. intros s1 E1.
  specialize (Q s1 E1). apply skip_spaces_step in E1.
  destruct (peek_char s1) as [ch s2] eqn:Ep.
  assert (NQ : (ch =? 34) = false).
  { destruct (peek_value _ _ _ Ep) as [(G & -> & (r & Er))|(_ & ->)]; [|reflexivity]. apply Z.eqb_neq. intros ->. apply (Q G r). assumption. }
  clear Q. fu.
  apply bind_not_loop.
  - destruct (expect_property s2).
    + unfold token_property. rewrite NQ. destruct (ch =? 125); [|discriminate]. destruct (get s2). destruct (pop_level _ _). discriminate.
    + unfold token_value. rewrite NQ. apply bind_not_loop; [|intros [? ?] _; discriminate].
      destruct (ch =? 110); [discriminate|].
      destruct (ch =? 102). { destruct (is_good _); [|discriminate]. apply bind_not_loop; [apply store_not_loop|discriminate]. }
      destruct (ch =? 116). { destruct (is_good _); [|discriminate]. apply bind_not_loop; [apply store_not_loop|discriminate]. }
      destruct (_ || _). { apply bind_not_loop; [apply number_not_loop; assumption|discriminate]. }
      destruct (ch =? 91). { destruct (get s2). destruct (push_level _ _). discriminate. }
      destruct (ch =? 93). { destruct (get s2). destruct (pop_level _ _). discriminate. }
      destruct (ch =? 123). { destruct (get s2). destruct (push_level _ _). discriminate. }
      discriminate.
  - intros [[it tr] s3] E3. apply bind_not_loop; [|discriminate]. destruct (_ && _); [|discriminate].
    assert (Eff it s2 s3) as F3 by (destruct (expect_property s2); [eapply property_eff|eapply value_eff]; eassumption).
    assert (P3 : Z.of_nat fuel > phi s3).
    { destruct F3 as (_ & G3 & (d & D) & _). unfold phi in *. rewrite D, zlen_app in H. pose proof (zlen_nonneg _ d).
      destruct (is_good s3); [rewrite (proj1 (G3 eq_refl)) in H; lia|]. destruct (is_good s2); lia. }
    unfold trailing. apply bind_not_loop; [apply skip_spaces_not_loop; assumption|]. intros s4 _. destruct (peek_char s4) as [c s5].
    destruct (c =? 44); [discriminate|]. destruct (expect_property s5); discriminate.
Qed.

(** Divergence: once the stream is not good, the string loop never ends. *)
Lemma bad_loop : forall fuel size g s, is_good s = false -> mem s = None -> string_loop fuel size g s = Loop.
Proof.
  induction fuel as [|fuel IH]; intros size g s H M; [reflexivity|]. cbn [string_loop]. unfold string_content. rewrite M.
  destruct fuel as [|fuel]; [reflexivity|]. cbn [skip_chars]. rewrite H. rewrite bad_peek by assumption. cbn [Z.eqb Pos.eqb].
  apply IH; [apply set_fail_bad|assumption].
Qed.
Lemma bad_loop_mem : forall fuel size g s, is_good s = false -> string_loop fuel size g s = Loop \/ string_loop fuel size g s = Oob_token.
Proof.
  induction fuel as [|fuel IH]; intros size g s H; [auto|]. cbn [string_loop]. unfold string_content. 
  destruct fuel as [|fuel]; [destruct (mem s); auto|]. destruct (mem s) as [m|] eqn:M.
  - cbn [get_chars]. rewrite H. destruct (store s g ([] ++ [0])) as [s1| | | |] eqn:E; auto; try (unfold store in E; rewrite M in E; destruct (write_at _ _ _); discriminate).
    destruct (store_stepb _ _ _ _ E) as (S1 & _). destruct (st_bad _ _ S1 H) as (G1 & _).
    rewrite bad_peek by assumption. cbn [Z.eqb Pos.eqb]. apply IH. apply set_fail_bad.
  - cbn [skip_chars]. rewrite H. rewrite bad_peek by assumption. cbn [Z.eqb Pos.eqb]. apply IH. apply set_fail_bad.
Qed.

Lemma get_chars_outcome : forall fuel pred lim i s, match get_chars fuel pred lim i s with Ret _ | Loop => True | _ => False end.
Proof.
  induction fuel as [|fuel IH]; intros pred lim i s; [exact I|]. cbn [get_chars]. destruct (is_good s); [|exact I].
  destruct (peek_char s) as [ch s1]. destruct (pred ch); [|exact I]. destruct (i =? lim); [exact I|].
  destruct (get s1) as [c s2]. specialize (IH pred lim (i + 1) s2). destruct (get_chars _ _ _ _ s2) as [[? ?]| | | |]; auto.
Qed.
Lemma skip_chars_outcome : forall fuel pred s, match skip_chars fuel pred s with Ret _ | Loop => True | _ => False end.
Proof.
  induction fuel as [|fuel IH]; intros pred s; [exact I|]. cbn [skip_chars]. destruct (is_good s); [|exact I].
  destruct (peek_char s) as [ch s1]. destruct (pred ch); [|exact I].
  destruct (get s1) as [c s2]. specialize (IH pred s2). destruct (skip_chars _ _ s2) as [[? ?]| | | |]; auto.
Qed.
Lemma loop_unquoted : forall fuel size g s, unquoted (inp s) -> string_loop fuel size g s = Loop \/ string_loop fuel size g s = Oob_token.
Proof.
  induction fuel as [|fuel IH]; intros size g s U; [auto|]. cbn [string_loop].
  assert (US : forall a b, Step a b -> unquoted (inp a) -> unquoted (inp b)).
  { intros a b S Ua. destruct (st_suffix _ _ S) as (d & E). unfold unquoted in *. rewrite E, Forall_app in Ua. tauto. }
  destruct (string_content fuel g (wrap_u64 (size - g)) s) as [[n s1]| | | |] eqn:E.
  - destruct (content_step _ _ _ _ _ _ E) as ((S1 & _) & _). apply US in S1; [|assumption].
    destruct (peek_char s1) as [ch s2] eqn:Ep. pose proof (peek_step _ _ _ Ep) as (S2 & _). apply US in S2; [|assumption].
    assert (ch <> 34 /\ ch <> 92) as (N1 & N2).
    { destruct (peek_value _ _ _ Ep) as [(_ & -> & (r & Er))|(_ & ->)]; [|lia]. unfold unquoted in S1. rewrite Er in S1. inversion S1. assumption. }
    replace (ch =? 34) with false by lia. replace (ch =? 92) with false by lia. apply IH. assumption.
  - auto.
  - exfalso. revert E. unfold string_content. destruct (mem s) as [m|].
    + pose proof (get_chars_outcome fuel json_is_string_content (limit_of (wrap_u64 (size - g))) 0 s) as O.
      destruct (get_chars _ _ _ _ s) as [[l s1]| | | |]; try discriminate; try contradiction. destruct (store s1 g (l ++ [0])) eqn:Es; try discriminate.
      unfold store in Es. destruct (mem s1); [destruct (write_at _ _ _)|]; discriminate.
    + pose proof (skip_chars_outcome fuel json_is_string_content s) as O. destruct (skip_chars _ _ s); try discriminate; contradiction.
  - auto.
  - exfalso. revert E. unfold string_content. destruct (mem s) as [m|].
    + pose proof (get_chars_outcome fuel json_is_string_content (limit_of (wrap_u64 (size - g))) 0 s) as O.
      destruct (get_chars _ _ _ _ s) as [[l s1]| | | |]; try discriminate; try contradiction. destruct (store s1 g (l ++ [0])) eqn:Es; try discriminate.
      unfold store in Es. destruct (mem s1); [destruct (write_at _ _ _)|]; discriminate.
    + pose proof (skip_chars_outcome fuel json_is_string_content s) as O. destruct (skip_chars _ _ s); try discriminate; contradiction.
Qed.

(** The string loop after an escape that left the stream not good. *)
Lemma loop_bad_escape : forall fuel size g s n s1 s2 c s3, string_content fuel g (wrap_u64 (size - g)) s = Ret (n, s1) -> peek_char s1 = (92, s2) ->
  get_escaped_char fuel s2 = Ret (c, s3) -> is_good s3 = false ->
  string_loop (S fuel) size g s = Loop \/ string_loop (S fuel) size g s = Oob_token.
Proof.
  intros fuel size g s n s1 s2 c s3 H1 H2 H3 H4. cbn [string_loop]. rewrite H1, H2. cbn [Z.eqb Pos.eqb]. rewrite H3.
  destruct (mem s3) as [m|] eqn:M; [|apply bad_loop_mem; assumption].
  destruct (store s3 (g + n) [c]) as [s4| | | |] eqn:E; auto; try (unfold store in E; rewrite M in E; destruct (write_at _ _ _); discriminate).
  apply bad_loop_mem. destruct (store_stepb _ _ _ _ E) as (S4 & _). apply (st_bad _ _ S4 H4).
Qed.

(** A token that starts with a quote at top level is the string. *)
Lemma token_quote : forall f L l m n size, 
  get_or_skip_token (S f) size (gst L (34 :: l) [] false m n) =
  (do (r, s) <- (do (r, s) <- (do (g, s) <- get_or_skip_string (S f) (wrap_u64 (size - sizeof_item)) (gst L (34 :: l) [] false m n);
   Ret ((if is_good s then string else none, true), s)); Ret (r, set_expect_property s true));
   let '(it, trail) := r in
   do s <- (if trail && (0 <? levels s) then trailing (S f) s else Ret s);
   Ret (it, s)).
Proof. intros. reflexivity. Qed.
Lemma get_string_quote : forall fuel size L l m n, get_or_skip_string fuel size (gst L (34 :: l) [] false m n) =
  match string_loop fuel size 0 (gst L l [] false m n) with
  | Ret (g, s) => match store s g [0] with
                  | Ret s => Ret (g, s)
                  | Oob_token => Oob_token | Oob_local => Oob_local | Loop => Loop | Throw => Throw
                  end
  | Oob_token => Oob_token | Oob_local => Oob_local | Loop => Loop | Throw => Throw
  end.
Proof. intros. reflexivity. Qed.
Lemma token_diverges : forall fuel L l m, zlen l + 11 <= zlen m -> 16 <= zlen m ->
  (forall f m' n, string_loop f (wrap_u64 (zlen m - sizeof_item)) 0 (gst L l [] false m' n) = Loop
              \/ string_loop f (wrap_u64 (zlen m - sizeof_item)) 0 (gst L l [] false m' n) = Oob_token) ->
  get_token fuel m (reader L (34 :: l)) = Loop.
Proof.
  intros fuel L l m Hm H16 H. unfold get_token. replace (zlen m <? sizeof_token) with false by (unfold sizeof_token; lia).
  change (with_mem (reader L (34 :: l)) (Some m)) with (gst L (34 :: l) [] false (Some m) []).
  assert (NO : get_or_skip_token fuel (zlen m) (gst L (34 :: l) [] false (Some m) []) <> Oob_token).
  { apply token_safe; intros m0 E; injection E as <-; unfold value_offset, phi; cbn [inp gst]; rewrite ?zlen_cons.
    - change (is_good _) with true. cbv iota. lia.
    - lia. }
  destruct fuel as [|f]; [reflexivity|]. rewrite token_quote in *. rewrite get_string_quote in *.
  destruct (H (S f) (Some m) []) as [E|E]; rewrite E in *; cbn [bind] in *; congruence.
Qed.
