(** Proofs for C62: a read that leaves the stream good has taken well-formed text from the input. *)

From Coq Require Import ZArith List Bool Lia ZifyBool.
From Verif Require Import Base ListMem Ascii_Model Http_Model Http_Spec Http_Calls Http_Proofs Http_RoundTrip.
Import ListNotations.
Open Scope Z_scope.

Lemma good_back : forall s s', (is_good s = false -> is_good s' = false) -> is_good s' = true -> is_good s = true.
Proof. intros s s' H G. destruct (is_good s); [reflexivity|]. rewrite H in G by reflexivity. discriminate. Qed.
Lemma forall_iff : forall (p : Z -> bool) (P : Z -> Prop) l, (forall c, p c = true <-> P c) -> Forall (fun c => p c = true) l -> Forall P l.
Proof. intros p P l H F. eapply Forall_impl; [|exact F]. intros c. apply H. Qed.
Lemma digit_iff' : forall c, is_digit c = true <-> digit c.
Proof. unfold is_digit, is_between, digit. lia. Qed.
Lemma good_set : forall s g n, is_good (set_gstate s g n) = is_good s.
Proof. reflexivity. Qed.
Lemma hin_set : forall s g n, hin (set_gstate s g n) = hin s.
Proof. reflexivity. Qed.

Section readers.
Variable m0 : list Z.
Variable s : hrd.
Hypothesis L : 2 <= zlen m0 < 2 ^ 64.

Lemma took_method : forall sd m' s', get_method m0 s = Ret (m', s') -> is_good s' = true -> took sd method m0 m' s s'.
Proof.
  intros sd m' s'. unfold get_method. destruct (pre_init m0) as (x & Hp); [lia|].
  destruct (get_chars_eff http_is_token m0 [] x m0 (zlen m0) s) as (t & m & s1 & R & (Q0 & Q1) & Q2 & Q3 & Q4 & Q5 & Q6); auto; try lia.
  { rewrite zlen_nil; lia. }
  rewrite zlen_nil in R. rewrite R. cbn [bind app] in *. destruct (skip_spaces_eff s1) as (sp & s2 & R2 & I2 & S2 & G2 & F2). rewrite R2. cbn [bind].
  intros E G. injection E as <- <-. rewrite good_set in G. exists t, (t ++ sp). rewrite hin_set.
  split; [exact Q1|]. split; [reflexivity|]. split; [rewrite Q4, I2, app_assoc; reflexivity|].
  split; [eauto using good_back|]. exists sp. eauto using forall_iff, token_iff, blank_iff.
Qed.
Lemma took_status : forall sd m' s', get_status_code m0 s = Ret (m', s') -> is_good s' = true -> took sd status_code m0 m' s s'.
Proof.
  intros sd m' s'. unfold get_status_code. destruct (pre_init m0) as (x & Hp); [lia|].
  destruct (get_chars_eff is_digit m0 [] x m0 (zlen m0) s) as (t & m & s1 & R & (Q0 & Q1) & Q2 & Q3 & Q4 & Q5 & Q6); auto; try lia.
  { rewrite zlen_nil; lia. }
  rewrite zlen_nil in R. rewrite R. cbn [bind app] in *. destruct (skip_spaces_eff s1) as (sp & s2 & R2 & I2 & S2 & G2 & F2). rewrite R2. cbn [bind].
  intros E G. injection E as <- <-. rewrite good_set in G. exists t, (t ++ sp). rewrite hin_set.
  split; [exact Q1|]. split; [reflexivity|]. split; [rewrite Q4, I2, app_assoc; reflexivity|].
  split; [eauto using good_back|]. exists sp. eauto using forall_iff, digit_iff', blank_iff.
Qed.
Lemma took_reason : forall sd m' s', get_reason_phrase m0 s = Ret (m', s') -> is_good s' = true -> took sd reason_phrase m0 m' s s'.
Proof.
  intros sd m' s'. unfold get_reason_phrase. destruct (pre_init m0) as (x & Hp); [lia|].
  destruct (get_chars_eff is_abcprint_or_space m0 [] x m0 (zlen m0) s) as (t & m & s1 & R & (Q0 & Q1) & Q2 & Q3 & Q4 & Q5 & Q6); auto; try lia.
  { rewrite zlen_nil; lia. }
  rewrite zlen_nil in R. rewrite R. cbn [bind app] in *. destruct (skip_spaces_eff s1) as (sp & s2 & R2 & I2 & S2 & G2 & F2). rewrite R2. cbn [bind].
  intros E G. injection E as <- <-. rewrite good_set in G. destruct (skip_crlf_eff s2) as (S3 & _ & G3). destruct (G3 G) as (Gs2 & I3).
  exists t, (t ++ sp ++ CRLF). rewrite hin_set.
  split; [exact Q1|]. split; [reflexivity|]. split; [rewrite Q4, I2, I3, <- !app_assoc; reflexivity|].
  split; [eauto using good_back|]. exists sp. split; [reflexivity|]. split; [|eauto using forall_iff, blank_iff].
  eapply forall_iff; [|exact Q3]. intro c. unfold is_abcprint_or_space. rewrite orb_true_iff, printable_iff, blank_iff. reflexivity.
Qed.
Lemma took_resource : forall sd m' s', get_resource m0 s = Ret (m', s') -> is_good s' = true -> took sd resource m0 m' s s'.
Proof.
  intros sd m' s'. unfold get_resource. destruct (pre_init m0) as (x & Hp); [lia|]. rewrite wrap_small by lia.
  destruct (get_chars_eff is_abcprint m0 [] x m0 (zlen m0 - 1) s) as (t & m & s1 & R & Q1 & Q2 & Q3 & Q4 & Q5 & Q6); auto; try lia.
  { rewrite zlen_nil; lia. }
  rewrite zlen_nil in R. rewrite R. cbn [bind app] in *. pose proof (zlen_nonneg _ t).
  destruct Q1 as (Lt & ->). destruct (drop_step m0 (zlen t + 1)) as (y & E); [lia|lia|].
  assert (St : store (t ++ 0 :: drop (zlen t + 1) m0) (zlen t + 1) 0 = Ret (t ++ [0; 0] ++ drop (zlen t + 2) m0)).
  { unfold store. rewrite E. replace (t ++ 0 :: y :: drop (zlen t + 1 + 1) m0) with ((t ++ [0]) ++ [y] ++ drop (zlen t + 2) m0)
      by (rewrite <- app_assoc; cbn [app]; do 3 f_equal; f_equal; lia).
    replace (zlen t + 1) with (zlen (t ++ [0])) by (rewrite zlen_app; reflexivity).
    rewrite write_at_app by reflexivity. rewrite <- app_assoc. reflexivity. }
  rewrite St. cbn [bind]. destruct (skip_spaces_eff s1) as (sp & s2 & R2 & I2 & S2 & G2 & F2). rewrite R2. cbn [bind].
  intros E' G. injection E' as <- <-. rewrite good_set in G. exists t, (t ++ sp). rewrite hin_set.
  split; [reflexivity|]. split; [reflexivity|]. split; [rewrite Q4, I2, app_assoc; reflexivity|].
  split; [eauto using good_back|]. exists sp. eauto using forall_iff, printable_iff, blank_iff.
Qed.
Lemma took_name : forall sd m' s', get_header_name m0 s = Ret (m', s') -> is_good s' = true -> took sd header_name m0 m' s s'.
Proof.
  intros sd m' s'. unfold get_header_name. destruct (pre_init m0) as (x & Hp); [lia|].
  destruct (get_chars_eff http_is_token m0 [] x m0 (zlen m0) s) as (t & m & s1 & R & (Q0 & Q1) & Q2 & Q3 & Q4 & Q5 & Q6); auto; try lia.
  { rewrite zlen_nil; lia. }
  rewrite zlen_nil in R. rewrite R. cbn [bind app] in *. destruct (skip_spaces_eff s1) as (sp & s2 & R2 & I2 & S2 & G2 & F2). rewrite R2. cbn [bind].
  destruct (zlen t =? 0) eqn:Z0.
  - intros E G. injection E as <- <-. rewrite good_set in G. destruct (skip_crlf_eff s2) as (S3 & _ & G3). destruct (G3 G) as (Gs2 & I3).
    assert (t = []) as -> by (destruct t; [reflexivity|rewrite zlen_cons in Z0; pose proof (zlen_nonneg _ t); lia]).
    exists [], (sp ++ CRLF). rewrite hin_set. split; [exact Q1|]. split; [reflexivity|].
    split; [rewrite Q4, I2, I3, <- !app_assoc; reflexivity|]. split; [eauto using good_back|].
    right. exists sp. eauto using forall_iff, blank_iff.
  - destruct (is_good s2) eqn:Gs2.
    + destruct (get_char s2) as [c s3] eqn:Gc. apply get_char_eff in Gc. destruct Gc as (S3 & Hc).
      destruct (c =? 58) eqn:Ec; cbn [negb].
      * apply Z.eqb_eq in Ec. subst c. destruct Hc as [(A & B & C)|(A & B & C)]; [|discriminate].
        destruct (skip_spaces_eff s3) as (sp' & s4 & R4 & I4 & S4 & G4 & F4). rewrite R4. cbn [bind].
        intros E G. injection E as <- <-. rewrite good_set in G.
        exists t, (t ++ sp ++ [58] ++ sp'). rewrite hin_set. split; [exact Q1|]. split; [reflexivity|].
        split; [rewrite Q4, I2, C, I4, <- !app_assoc; reflexivity|]. split; [eauto using good_back|].
        left. exists sp, sp'. split; [intros ->; discriminate|]. split; [reflexivity|]. split; [|split]; eauto using forall_iff, token_iff, blank_iff.
      * destruct (skip_spaces_eff (set_bad s3)) as (sp' & s4 & R4 & I4 & S4 & G4 & F4). rewrite R4. cbn [bind].
        intros E G. injection E as <- <-. rewrite good_set in G. rewrite G4 in G by reflexivity. discriminate.
    + destruct (skip_spaces_eff s2) as (sp' & s4 & R4 & I4 & S4 & G4 & F4). rewrite R4. cbn [bind].
      intros E G. injection E as <- <-. rewrite good_set in G. rewrite G4 in G by exact Gs2. discriminate.
Qed.

(** the protocol *)
Lemma part_took : forall sep t m s1, sep <> 0 -> pre m0 t 0 m ->
  exists t' m' s', protocol_part sep m (zlen m0) (zlen t) s1 = Ret (zlen t', m', s') /\ pre m0 t' 0 m' /\
    (is_good s' = true -> is_good s1 = true /\ exists d, t' = t ++ [sep] ++ d /\ Forall digit d /\ hin s1 = sep :: d ++ hin s').
Proof.
  intros sep t m s1 Ts Hp. unfold protocol_part. rewrite wrap_small by lia.
  destruct (zlen t =? zlen m0 - 1) eqn:Full.
  { rewrite set_fail_good. cbn [bind]. rewrite set_fail_good. exists t, m, (set_fail s1). rewrite set_fail_good.
    split; [reflexivity|]. split; [exact Hp|discriminate]. }
  destruct (is_good s1) eqn:G1; cbn [bind].
  - assert (Hlt : zlen t + 2 <= zlen m0) by (destruct Hp as (Lp & _); lia).
    destruct (get_char s1) as [c s3] eqn:Gc. apply get_char_eff in Gc. destruct Gc as (S3 & Hc).
    destruct (c =? sep) eqn:Ec; cbn [bind].
    + destruct (pre_store m0 t 0 m sep Hp Hlt) as (y & m' & Es & Hp'). rewrite Es. cbn [bind].
      apply Z.eqb_eq in Ec. subst c. destruct Hc as [(A & B & C)|(A & B & C)]; [|congruence].
      rewrite A. replace (zlen t + 1) with (zlen (t ++ [sep])) by (rewrite zlen_app; reflexivity).
      pose proof (zlen_nonneg _ t). rewrite wrap_small by (rewrite zlen_app; change (zlen [sep]) with 1; lia).
      destruct (get_chars_eff is_digit m0 (t ++ [sep]) y m' (zlen m0 - zlen (t ++ [sep])) s3) as (t' & m'' & s4 & R & Q1 & Q2 & Q3 & Q4 & Q5 & Q6); auto; try lia.
      { rewrite zlen_app. change (zlen [sep]) with 1. lia. }
      rewrite R. cbn [bind]. rewrite <- zlen_app. exists ((t ++ [sep]) ++ t'), m'', s4.
      split; [reflexivity|]. split; [exact Q1|]. intro G4. split; [reflexivity|]. exists t'. rewrite <- app_assoc.
      split; [reflexivity|]. split; [eauto using forall_iff, digit_iff'|]. rewrite C, Q4. reflexivity.
    + replace (is_good (set_bad s3)) with false by reflexivity. exists t, m, (set_bad s3).
      split; [reflexivity|]. split; [exact Hp|discriminate].
  - rewrite G1. exists t, m, s1. split; [reflexivity|]. split; [exact Hp|congruence].
Qed.
Lemma letter_equal : forall d c, 65 <= d <= 90 -> is_alpha c = true -> to_lower d = to_lower c -> c = d \/ c = d + 32.
Proof. intros d c. unfold to_lower, is_alpha, is_upperalpha, is_loweralpha, is_between. intros. repeat match goal with H : context[if ?b then _ else _] |- _ => destruct b eqn:? end; lia. Qed.
Lemma http_letters_equal : forall t k, length t = 4%nat -> Forall (fun c => is_alpha c = true) t ->
  are_equal_i_n (Some (lit_http ++ [0])) (Some (t ++ k)) 4 = Some true -> http_letters t.
Proof.
  intros [|a [|b [|c [|d [|]]]]] k Ln F E; try discriminate. clear Ln.
  assert (Fa : is_alpha a = true /\ is_alpha b = true /\ is_alpha c = true /\ is_alpha d = true).
  { repeat match goal with H : Forall _ (_ :: _) |- _ => inversion H; clear H; subst end. auto. }
  clear F. destruct Fa as (A & B & C & D).
  unfold are_equal_i_n, are_equal4, lit_http in E. cbn [app are_equal_loop char_at nth_error] in E. cbv zeta in E.
  unfold char_at in E. cbn [nth_error app] in E.
  destruct (to_lower 72 =? to_lower a) eqn:Ea; cbn [negb] in E; [|discriminate]. change (72 =? 0) with false in E. cbn [andb] in E.
  destruct (to_lower 84 =? to_lower b) eqn:Eb; cbn [negb] in E; [|discriminate]. change (84 =? 0) with false in E. cbn [andb] in E.
  destruct (to_lower 84 =? to_lower c) eqn:Ec; cbn [negb] in E; [|discriminate]. cbn [andb] in E.
  destruct (to_lower 80 =? to_lower d) eqn:Ed; cbn [negb] in E; [|discriminate].
  apply Z.eqb_eq in Ea, Eb, Ec, Ed.
  unfold http_letters. repeat (apply Forall2_cons; [apply letter_equal; auto; lia|]). constructor.
Qed.
Lemma took_protocol : forall sd m' s', get_protocol_of sd m0 s = Ret (m', s') -> is_good s' = true -> took sd protocol m0 m' s s'.
Proof.
  intros sd m' s'. unfold get_protocol_of, get_protocol, protocol_name. destruct (pre_init m0) as (x & Hp); [lia|].
  destruct (get_chars_eff is_alpha m0 [] x m0 (zlen m0) s) as (t & m & s1 & R & Q1 & Q2 & Q3 & Q4 & Q5 & Q6); auto; try lia.
  { rewrite zlen_nil; lia. }
  rewrite zlen_nil in R. rewrite R. cbn [bind app] in *.
  (* what the rest does with a state [s2] after the letters *)
  assert (K : forall s2, exists t2 m2 s5, (do (g, m1, s3) <- protocol_part 47 m (zlen m0) (zlen t) s2;
     do (g0, m2, s4) <- protocol_part 46 m1 (zlen m0) g s3; do (_, s5) <- skip_spaces s4; Ret (g0, m2, s5)) = Ret (zlen t2, m2, s5) /\ pre m0 t2 0 m2 /\
     (is_good s5 = true -> is_good s2 = true /\ exists a b sp, t2 = t ++ [47] ++ a ++ [46] ++ b /\ Forall digit a /\ Forall digit b /\ Forall blank sp /\
        hin s2 = [47] ++ a ++ [46] ++ b ++ sp ++ hin s5)).
  { intro s2. destruct (part_took 47 t m s2) as (t1 & m1 & s3 & R1 & P1 & K1); [lia|exact Q1|]. rewrite R1. cbn [bind].
    destruct (part_took 46 t1 m1 s3) as (t2 & m2 & s4 & R2 & P2 & K2); [lia|exact P1|]. rewrite R2. cbn [bind].
    destruct (skip_spaces_eff s4) as (sp & s5 & R3 & I3 & S3 & G3 & F3). rewrite R3. cbn [bind].
    exists t2, m2, s5. split; [reflexivity|]. split; [exact P2|]. intro G.
    destruct (K2 (good_back _ _ G3 G)) as (G4 & b & -> & Fb & I4). destruct (K1 G4) as (G5 & a & -> & Fa & I5).
    split; [exact G5|]. exists a, b, sp. rewrite <- ?app_assoc. split; [reflexivity|]. split; [exact Fa|]. split; [exact Fb|].
    split; [eauto using forall_iff, blank_iff|]. rewrite I5, I4, I3. cbn [app]. rewrite <- ?app_assoc. reflexivity. }
  assert (Bad : forall s2, is_good s2 = false -> (do (g, m, s) <- (do (g, m1, s3) <- protocol_part 47 m (zlen m0) (zlen t) s2;
     do (g0, m2, s4) <- protocol_part 46 m1 (zlen m0) g s3; do (_, s5) <- skip_spaces s4; Ret (g0, m2, s5));
     match sd with request => Ret (m, set_gstate (skip_crlf s) g header_name) | response => Ret (m, set_gstate s g status_code) end) = Ret (m', s') -> is_good s' = true -> took sd protocol m0 m' s s').
  { intros s2 B2. destruct (K s2) as (t2 & m2 & s5 & R5 & P5 & K5). rewrite R5. cbn [bind].
    assert (B5 : is_good s5 = true -> False) by (intro G; destruct (K5 G) as (G' & _); congruence).
    destruct sd; intros E G; injection E as <- <-; rewrite good_set in G.
    - destruct (skip_crlf_eff s5) as (_ & _ & G3). destruct (G3 G) as (Gs & _). contradiction.
    - contradiction. }
  destruct (zlen t =? 4) eqn:E4; cbn [negb bind]; [|apply Bad; reflexivity].
  destruct (are_equal_i_n (Some (lit_http ++ [0])) (Some m) 4) as [[]|] eqn:Eq; cbn [bind]; [|apply Bad; reflexivity|discriminate].
  clear Bad. destruct (K s1) as (t2 & m2 & s5 & R5 & (_ & P5) & K5). rewrite R5. cbn [bind].
  assert (HL : http_letters t).
  { destruct Q1 as (_ & ->). eapply http_letters_equal; [|exact Q3|exact Eq]. unfold zlen in E4. lia. }
  destruct sd; intros E G; injection E as <- <-; rewrite good_set in G.
  - destruct (skip_crlf_eff s5) as (_ & _ & G3). destruct (G3 G) as (Gs & I6). destruct (K5 Gs) as (Gs1 & a & b & sp & -> & Fa & Fb & Fs & I5).
    eexists _, _. rewrite hin_set. split; [exact P5|]. split; [reflexivity|].
    split; [|split; [eauto using good_back|exists t, a, b, sp; do 4 (split; [eassumption || reflexivity|]); split; [exact Fs|reflexivity]]].
    rewrite Q4, I5, I6. unfold CRLF. rewrite <- ?app_assoc. cbn [app]. rewrite <- ?app_assoc. cbn [app]. rewrite <- ?app_assoc. reflexivity.
  - destruct (K5 G) as (Gs1 & a & b & sp & -> & Fa & Fb & Fs & I5).
    eexists _, _. rewrite hin_set. split; [exact P5|]. split; [reflexivity|].
    split; [|split; [eauto using good_back|exists t, a, b, sp; do 4 (split; [eassumption || reflexivity|]); split; [exact Fs|reflexivity]]].
    rewrite Q4, I5. rewrite app_nil_r. rewrite <- ?app_assoc. cbn [app]. rewrite <- ?app_assoc. cbn [app]. rewrite <- ?app_assoc. reflexivity.
Qed.
End readers.

(** the header value *)
Lemma gap_blanks : forall sp, Forall blank sp -> gap sp.
Proof. induction 1; constructor; assumption. Qed.
Lemma squeezed_word : forall w v t, squeezed v t -> Forall printable w -> t = [] \/ ends_with printable v -> squeezed (v ++ w) (t ++ w).
Proof.
  induction w as [|c w IH]; intros v t S F H; [rewrite !app_nil_r; exact S|].
  inversion F; subst. replace (v ++ c :: w) with ((v ++ [c]) ++ w) by (rewrite <- app_assoc; reflexivity).
  replace (t ++ c :: w) with ((t ++ [c]) ++ w) by (rewrite <- app_assoc; reflexivity).
  apply IH; [|assumption|right; exists v, c; auto]. apply squeezed_char; assumption.
Qed.
Lemma last_split : forall (l : list Z), l <> [] -> exists l0 c, l = l0 ++ [c].
Proof. intros l H. destruct (exists_last H) as (l0 & c & ->). eauto. Qed.
Lemma ends_app : forall P v w, w <> [] -> Forall P w -> ends_with P (v ++ w).
Proof.
  intros P v w N F. destruct (last_split w N) as (w0 & c & ->). exists (v ++ w0), c. split; [apply app_assoc|].
  apply Forall_app in F. destruct F as (_ & F). inversion F; assumption.
Qed.
Definition starts_with (P : Z -> Prop) (l : list Z) : Prop := exists c k, l = c :: k /\ P c.

(** Between two words: [v] taken and [t] stored so far, and [p] the line break just taken, if any. *)
Definition between (v p t : list Z) (s : hrd) : Prop :=
  squeezed v t /\ ((p = [] /\ (t = [] \/ ends_with printable v)) \/ (p = CRLF /\ starts_with blank (hin s))).
Lemma skip_blank : forall s sp s', skip_spaces s = Ret (zlen sp, s') -> hin s = sp ++ hin s' -> is_good s' = true -> starts_with blank (hin s) -> sp <> [].
Proof.
  intros s sp s' R I G (c & k & E & B) ->. unfold skip_spaces, skip_chars in R. rewrite zlen_nil in R.
  remember (S (length (hin s))) as n eqn:En. cbn [skip_chars_loop] in R.
  destruct (is_good s) eqn:Gs; [|injection R as <-; congruence].
  destruct (peek_char s) as [c' s1] eqn:Pk. pose proof (peek_char_eff _ _ _ Pk) as (I1 & _ & G1 & B1).
  destruct (is_space c') eqn:Sp.
  - destruct (is_good s1) eqn:Gs1; [|rewrite B1 in Sp by reflexivity; discriminate].
    destruct (G1 eq_refl) as (-> & A & l & El).
    destruct (skip_loop_eff is_space n (0 + 1) (snd (get s))) as (sp' & s'' & R' & _); [reflexivity| |].
    { pose proof (f_equal (@length Z) El) as HL. cbn [length] in HL. unfold get. rewrite Gs, El. cbn [snd hin upd]. lia. }
    rewrite R' in R. assert (0 + 1 + zlen sp' = 0) by congruence. pose proof (zlen_nonneg _ sp'). lia.
  - injection R as <-. destruct (G1 G) as (-> & A & l & El). rewrite El in E. injection E as <- <-. apply blank_iff in B. congruence.
Qed.
Lemma words_took : forall m0, 2 <= zlen m0 < 2 ^ 64 -> forall fuel t x m s v p,
  (length (hin s) < fuel)%nat -> pre m0 t x m -> (t <> [] -> x = 0) -> between v p t s ->
  exists ret t' m' s', value_words fuel (zlen m0) m (zlen t) s = Ret (ret, zlen t', m', s') /\ pre m0 t' 0 m' /\
    (exists u, hin s = u ++ hin s' /\ (is_good s' = true -> is_good s = true /\
       (squeezed (v ++ p ++ u) t' \/ starts_with printable (hin s')))) /\ (ret = true -> is_good s' = false).
Proof.
  intros m0 L. induction fuel as [|fuel IH]; intros t x m s v p F Hp Hx (Sq & Bt); [lia|]. cbn [value_words].
  destruct (skip_spaces_eff s) as (sp & s1 & R1 & I1 & S1 & G1 & F1). rewrite R1. cbn [bind].
  assert (Sp : Forall blank sp) by eauto using forall_iff, blank_iff.
  assert (Gp : is_good s1 = true -> gap (p ++ sp) /\ (p = CRLF -> sp <> [])).
  { intro G. destruct Bt as [(-> & _)|(-> & Bs)]; [split; [apply gap_blanks, Sp|discriminate]|].
    assert (N : sp <> []) by (eapply skip_blank; eauto). split; [|auto]. destruct sp as [|c sp]; [congruence|].
    inversion Sp; subst. apply gap_fold; [assumption|apply gap_blanks; assumption]. }
  set (q := if (0 <? zlen t) && (0 <? zlen sp) then let '(ch, s2) := peek_char s1 in (is_abcprint ch, s2) else (false, s1)).
  assert (Hq : hin (snd q) = hin s1 /\ (is_good s1 = false -> is_good (snd q) = false) /\ (fst q = true -> t <> [] /\ sp <> [] /\ starts_with printable (hin s1)) /\
     (fst q = false -> is_good (snd q) = true -> t = [] \/ sp = [] \/ ~ starts_with printable (hin s1))).
  { unfold q. destruct ((0 <? zlen t) && (0 <? zlen sp)) eqn:E.
    - destruct (peek_char s1) as [c s2] eqn:Pk. pose proof (peek_char_eff _ _ _ Pk) as (I & Sm & Gd & Bd). cbn [fst snd]. split; [exact I|]. split; [|split].
      + intro B. destruct (is_good s2) eqn:G2; auto. destruct (Gd eq_refl) as (-> & _). congruence.
      + intro H. split; [intros ->; discriminate E|]. split; [intros ->; rewrite zlen_nil, andb_false_r in E; discriminate E|].
        destruct (is_good s2) eqn:G2; [|rewrite Bd in H by reflexivity; discriminate].
        destruct (Gd eq_refl) as (-> & A & l & El). exists c, l. split; [exact El|]. apply printable_iff, H.
      + intros H G2. destruct (Gd G2) as (-> & A & l & El). right; right. intros (c' & k & Ec & Pc). rewrite El in Ec. injection Ec as <- <-.
        apply printable_iff in Pc. congruence.
    - cbn [fst snd]. split; [reflexivity|]. split; [auto|]. split; [discriminate|]. intros _ _.
      destruct t; [auto|]. destruct sp; [auto|]. rewrite !zlen_cons in E. pose proof (zlen_nonneg _ t). pose proof (zlen_nonneg _ sp). lia. }
  destruct q as [more s2]. cbn [fst snd] in Hq. destruct Hq as (I2 & G2 & Ht & Hf).
  rewrite wrap_small by lia.
  assert (Hlast : more = true -> pre m0 t 0 m) by (intro M; rewrite Hx in Hp by (apply Ht; exact M); exact Hp).
  destruct (more && (zlen t =? zlen m0 - 1)) eqn:Full.
  - exists true, t, m, (set_fail s2). split; [reflexivity|]. split; [apply Hlast; destruct more; [reflexivity|discriminate]|].
    split; [|intros _; apply set_fail_good]. exists sp. split; [cbn; congruence|]. rewrite set_fail_good. discriminate.
  - assert (B : exists t1 y m1, (if more then do m1 <- store m (zlen t) 32; Ret (zlen t + 1, m1) else Ret (zlen t, m)) = Ret (zlen t1, m1) /\ pre m0 t1 y m1 /\ t1 = t ++ (if more then [32] else [])).
    { destruct more.
      - destruct (pre_store m0 t x m 32 Hp) as (y & m1 & Es & Hp1); [destruct Hp as (Lp & _); lia|].
        exists (t ++ [32]), y, m1. rewrite Es. cbn [bind]. rewrite zlen_app. auto.
      - exists t, x, m. rewrite app_nil_r. auto. }
    destruct B as (t1 & y & m1 & -> & Hp1 & Et1). cbn [bind]. pose proof (zlen_nonneg _ t1).
    assert (Hp1' := Hp1). destruct Hp1' as (L1 & _). rewrite wrap_small by lia.
    destruct (get_chars_eff is_abcprint m0 t1 y m1 (zlen m0 - zlen t1) s2) as (t2 & m2 & s3 & R & Q1 & Q2 & Q3 & Q4 & Q5 & Q6); auto; try lia.
    rewrite R. cbn [bind]. rewrite <- zlen_app.
    assert (I3 : hin s = (sp ++ t2) ++ hin s3) by (rewrite I1, <- I2, Q4, app_assoc; reflexivity).
    assert (P3 : Forall printable t2) by eauto using forall_iff, printable_iff.
    (* the text after this word *)
    assert (W : is_good s3 = true -> t2 <> [] -> squeezed (v ++ p ++ sp ++ t2) (t1 ++ t2) /\ ends_with printable (v ++ p ++ sp ++ t2)).
    { intros G3 N2. split; [|rewrite !app_assoc; apply ends_app; assumption].
      assert (Gs2 := good_back _ _ Q6 G3). assert (Gs1 := good_back _ _ G2 Gs2). destruct (Gp Gs1) as (Gg & Gn).
      assert (S2 : squeezed (v ++ p ++ sp) t) by (apply squeezed_white; [exact Sq|exact Gg]).
      replace (v ++ p ++ sp ++ t2) with ((v ++ p ++ sp) ++ t2) by (rewrite <- !app_assoc; reflexivity).
      destruct more.
      - destruct (Ht eq_refl) as (Nt & Nsp & _). destruct t2 as [|c t2]; [congruence|]. inversion P3; subst.
        rewrite <- (app_assoc t). cbn [app]. replace ((v ++ p ++ sp) ++ c :: t2) with (((v ++ p ++ sp) ++ [c]) ++ t2) by (rewrite <- app_assoc; reflexivity).
        replace (t ++ 32 :: c :: t2) with ((t ++ [32; c]) ++ t2) by (rewrite <- app_assoc; reflexivity).
        apply squeezed_word; [|assumption|right; exists (v ++ p ++ sp), c; auto].
        apply squeezed_next; auto. rewrite app_assoc. apply ends_app; assumption.
      - rewrite app_nil_r in Et1. subst t1. apply squeezed_word; [exact S2|exact P3|].
        destruct (Hf eq_refl Gs2) as [Z|[Z|Z]]; [auto| |].
        + subst sp. destruct Bt as [(-> & [Bt|Bt])|(-> & Bt)]; [auto|cbn [app]; rewrite app_nil_r; auto|]. exfalso. apply Gn; reflexivity.
        + exfalso. apply Z. destruct t2 as [|c t2]; [congruence|]. inversion P3; subst. exists c, (t2 ++ hin s3). rewrite <- I2, Q4. auto. }
    destruct (is_good s3 && (0 <? zlen t2)) eqn:Go.
    + assert (G3 : is_good s3 = true) by (destruct (is_good s3); [reflexivity|discriminate]).
      assert (N2 : t2 <> []) by (intros ->; rewrite andb_comm in Go; discriminate Go).
      destruct (W G3 N2) as (W1 & W2).
      destruct (IH (t1 ++ t2) 0 m2 s3 (v ++ p ++ sp ++ t2) []) as (ret & t' & m' & s' & R' & P' & (u & U' & K') & E'); auto.
      { rewrite I3, !app_length in F. destruct t2; [congruence|]. cbn [length] in F. lia. }
      { split; [exact W1|auto]. }
      exists ret, t', m', s'. split; [exact R'|]. split; [exact P'|]. split; [|exact E'].
      exists ((sp ++ t2) ++ u). split; [rewrite I3, U'; rewrite !app_assoc; reflexivity|]. intro G. destruct (K' G) as (_ & K).
      split; [apply (good_back _ _ G1), (good_back _ _ G2), (good_back _ _ Q6), G3|].
      destruct K as [K|K]; [left|right; exact K]. cbn [app] in K. rewrite <- !app_assoc in *. exact K.
    + exists false, (t1 ++ t2), m2, s3. split; [reflexivity|]. split; [exact Q1|]. split; [|discriminate].
      exists (sp ++ t2). split; [exact I3|]. intro G3. rewrite G3 in Go. cbn [andb] in Go.
      assert (Gs1 := good_back _ _ G2 (good_back _ _ Q6 G3)). destruct (Gp Gs1) as (Gg & Gn).
      split; [apply (good_back _ _ G1), Gs1|].
      assert (t2 = []) as -> by (destruct t2; [reflexivity|rewrite zlen_cons in Go; pose proof (zlen_nonneg _ t2); lia]).
      destruct more.
      * right. destruct (Ht eq_refl) as (_ & _ & Pr). cbn [app] in Q4. rewrite <- Q4, I2. exact Pr.
      * left. rewrite app_nil_r in Et1. subst t1. rewrite !app_nil_r. apply squeezed_white; assumption.
Qed.
Lemma lines_took : forall m0, 2 <= zlen m0 < 2 ^ 64 -> forall fuel fuel' t x m s v p,
  (length (hin s) < fuel)%nat -> (length (hin s) < fuel')%nat -> pre m0 t x m -> (t <> [] -> x = 0) -> between v p t s ->
  exists ret t' m' s', value_lines fuel fuel' (zlen m0) m (zlen t) s = Ret (ret, zlen t', m', s') /\ pre m0 t' 0 m' /\
    (is_good s' = true -> is_good s = true /\ exists u, hin s = u ++ CRLF ++ hin s' /\ squeezed (v ++ p ++ u) t' /\ ~ starts_with blank (hin s')) /\ (ret = true -> is_good s' = false).
Proof.
  intros m0 L. induction fuel as [|fuel IH]; intros fuel' t x m s v p F F' Hp Hx Bt; [lia|]. cbn [value_lines].
  destruct (words_took m0 L fuel' t x m s v p F' Hp Hx Bt) as (ret & t1 & m1 & s1 & R & P1 & (u & U1 & K1) & E1). rewrite R. cbn [bind].
  destruct ret; [exists true, t1, m1, s1; rewrite E1 by reflexivity; split; [reflexivity|split; [exact P1|split; [discriminate|reflexivity]]]|].
  destruct (skip_crlf_eff s1) as (S2 & _ & G2).
  destruct (is_good (skip_crlf s1)) eqn:G.
  - destruct (G2 eq_refl) as (Gs1 & I2). destruct (K1 Gs1) as (Gs & Kq).
    assert (Sq : squeezed (v ++ p ++ u) t1).
    { destruct Kq as [Kq|(c & k & E & P)]; [exact Kq|]. rewrite I2 in E. injection E as <- _. unfold printable in P. lia. }
    destruct (peek_char (skip_crlf s1)) as [c s3] eqn:Pk. pose proof (peek_char_eff _ _ _ Pk) as (I & Sm & Gd & Bd).
    destruct (is_space c) eqn:Sc.
    + destruct (is_good s3) eqn:Gs3; [|rewrite Bd in Sc by reflexivity; discriminate].
      destruct (Gd eq_refl) as (-> & A & l & El).
      destruct (IH fuel' t1 0 m1 (skip_crlf s1) (v ++ p ++ u) CRLF) as (ret & t' & m' & s' & R' & P' & K' & E'); auto.
      { rewrite U1, I2, app_length in F. cbn [length] in F. lia. }
      { rewrite U1, I2, app_length in F'. cbn [length] in F'. lia. }
      { split; [exact Sq|]. right. split; [reflexivity|]. exists c, l. split; [exact El|apply blank_iff, Sc]. }
      exists ret, t', m', s'. split; [exact R'|]. split; [exact P'|]. split; [|exact E'].
      intro G'. destruct (K' G') as (_ & u2 & U2 & Sq2 & N2). split; [exact Gs|].
      exists (u ++ CRLF ++ u2). split; [rewrite U1, I2, U2; unfold CRLF; rewrite <- ?app_assoc; reflexivity|].
      split; [|exact N2]. rewrite <- ?app_assoc in Sq2. exact Sq2.
    + exists false, t1, m1, s3. split; [reflexivity|]. split; [assumption|]. split; [|discriminate].
      intro G3. split; [exact Gs|]. exists u. destruct (Gd G3) as (-> & A & l & El).
      split; [rewrite U1, I2; reflexivity|]. split; [exact Sq|]. intros (c' & k & E & B). rewrite El in E. injection E as <- <-. apply blank_iff in B. congruence.
  - exists false, t1, m1, (skip_crlf s1). split; [reflexivity|]. split; [assumption|]. split; [congruence|discriminate].
Qed.
Lemma took_value : forall m0 s sd m' s', 2 <= zlen m0 < 2 ^ 64 -> get_header_value m0 s = Ret (m', s') -> is_good s' = true -> took sd header_value m0 m' s s'.
Proof.
  intros m0 s sd m' s' L. unfold get_header_value. destruct (pre_init m0) as (x & Hp); [lia|].
  destruct (lines_took m0 L (S (S (length (hin s)))) (S (S (length (hin s)))) [] x m0 s [] []) as (ret & t & m & s1 & R & (P0 & P1) & K & E1); auto; try lia.
  { congruence. } { split; [constructor|auto]. }
  rewrite zlen_nil in R. rewrite R. cbn [bind]. destruct ret.
  - intros E G. injection E as <- <-. rewrite good_set, E1 in G by reflexivity. discriminate.
  - destruct (skip_spaces_eff s1) as (sp & s2 & R2 & I2 & S2 & G2 & F2). rewrite R2. cbn [bind].
    intros E G. injection E as <- <-. rewrite good_set in G. destruct (K (good_back _ _ G2 G)) as (Gs & u & U & Sq & N).
    assert (sp = []) as ->.
    { destruct sp as [|c sp]; [reflexivity|]. exfalso. apply N. exists c, (sp ++ hin s2). split; [exact I2|]. inversion F2; subst. apply blank_iff; assumption. }
    exists t, (u ++ CRLF). rewrite hin_set. split; [exact P1|]. split; [reflexivity|].
    split; [rewrite U, I2, <- app_assoc; reflexivity|]. split; [exact Gs|]. exists u. auto.
Qed.

Lemma readers_took : forall sd it m s m' s', it <> body -> 2 <= zlen m < 2 ^ 64 -> read_call sd it m s = Ret (m', s') -> is_good s' = true -> took sd it m m' s s'.
Proof.
  intros sd it m s m' s' Hb L. unfold read_call. destruct (item_eqb (hnext s) it); [|discriminate].
  destruct it; cbn [get_item]; eauto using took_method, took_resource, took_protocol, took_status, took_reason, took_name, took_value; congruence.
Qed.

(** ** The writer of the protocol *)
Lemma put_chars_took : forall pred l w n w', put_chars pred w l = (n, w') -> wbad w' = false ->
  wbad w = false /\ exists a r, l = a ++ r /\ n = zlen a /\ Forall (fun c => pred c = true) a /\ wout w' = wout w ++ a /\ wltr w' = wltr w /\
    match r with c :: _ => pred c = false | [] => True end.
Proof.
  intros pred l. induction l as [|c l IH]; intros w n w' E B; cbn [put_chars] in E.
  - injection E as <- <-. split; [exact B|]. exists [], []. rewrite (app_nil_r (wout w)). repeat (split; [reflexivity || constructor|]). exact I.
  - destruct (wbad w) eqn:Bw; [injection E as <- <-; congruence|]. split; [reflexivity|].
    destruct (pred c) eqn:P.
    + destruct (put_chars pred (put1 w c) l) as [k w1] eqn:E1. injection E as <- <-.
      destruct (IH _ _ _ E1 B) as (B1 & a & r & -> & -> & Fa & O & Lt & N). exists (c :: a), r.
      unfold put1 in O, B1, Lt. destruct (wroom w) as [[|k]|]; [cbn in B1; discriminate| |]; cbn in O, Lt.
      all: rewrite zlen_cons; split; [reflexivity|]; split; [lia|]; split; [constructor; assumption|]; split; [rewrite O, <- app_assoc; reflexivity|auto].
    + injection E as <- <-. exists [], (c :: l). rewrite (app_nil_r (wout w)). repeat (split; [reflexivity || constructor|]). exact P.
Qed.
Lemma put_char_took : forall w c, wbad (put_char w c) = false -> wbad w = false /\ wout (put_char w c) = wout w ++ [c] /\ wltr (put_char w c) = wltr w.
Proof.
  intros w c. unfold put_char, put1. destruct (wbad w) eqn:B; [congruence|]. destruct (wroom w) as [[|k]|]; cbn; auto; discriminate.
Qed.
Lemma digits_took : forall w l w' r, put_protocol_digits w l = (w', r) -> wbad w' = false ->
  wbad w = false /\ wltr w' = wltr w /\ exists a, l = a ++ r /\ Forall digit a /\ wout w' = wout w ++ a /\ (l <> [] -> a <> []).
Proof.
  unfold put_protocol_digits. intros w l w' r E B. destruct (negb (wbad w) && (0 <? zlen l)) eqn:C.
  - destruct (put_chars is_digit w l) as [n w1] eqn:P. destruct (n =? 0) eqn:Z0; [injection E as <- <-; discriminate B|].
    injection E as <- <-. destruct (put_chars_took _ _ _ _ _ P B) as (Bw & a & r & -> & -> & Fa & O & Lt & _).
    split; [exact Bw|]. split; [exact Lt|]. exists a. rewrite drop_app_exact. split; [reflexivity|]. split; [eauto using forall_iff, digit_iff'|].
    split; [exact O|]. intros _ ->. discriminate Z0.
  - injection E as <- <-. split; [exact B|]. split; [reflexivity|]. exists []. rewrite app_nil_r. split; [reflexivity|]. split; [constructor|].
    split; [reflexivity|]. intros N. exfalso. rewrite B in C. destruct l; [congruence|]. rewrite zlen_cons in C. pose proof (zlen_nonneg _ l). cbn in C. lia.
Qed.
Lemma lower_same : forall c d, to_lower c = to_lower d -> 65 <= d <= 90 -> c = d \/ c = d + 32.
Proof. intros c d. unfold to_lower, is_upperalpha, is_between. destruct ((65 <=? c) && (c <=? 90)) eqn:?; destruct ((65 <=? d) && (d <=? 90)) eqn:?; lia. Qed.
Lemma lower_slash : forall c, to_lower c = to_lower 47 -> c = 47.
Proof. intros c. change (to_lower 47) with 47. unfold to_lower, is_upperalpha, is_between. destruct ((65 <=? c) && (c <=? 90)) eqn:?; lia. Qed.
Lemma put_protocol_took : forall w buf, wbad (put_protocol w buf) = false ->
  wbad w = false /\ wltr (put_protocol w buf) = wltr w /\
  exists h r, buf = h ++ [47] ++ r /\ http_letters h /\ version_begin r /\ wout (put_protocol w buf) = wout w ++ [72; 84; 84; 80; 47] ++ r.
Proof.
  intros w buf. unfold put_protocol.
  destruct ((zlen buf <? 5) || negb (match are_equal_i_n (Some buf) (Some (lit_http_slash ++ [0])) 5 with Some b => b | None => false end)) eqn:C.
  { unfold put_protocol_digits, put_protocol_dot. cbn. discriminate. }
  apply orb_false_iff in C. destruct C as (C1 & C2). apply negb_false_iff in C2.
  destruct (are_equal_i_n (Some buf) (Some (lit_http_slash ++ [0])) 5) as [[]|] eqn:Eq; try discriminate. clear C2.
  destruct (put_bytes w lit_http_slash) as [n w1] eqn:P. unfold put_bytes in P.
  destruct (put_protocol_digits w1 (drop n buf)) as [w2 l2] eqn:D2.
  destruct (put_protocol_dot w2 l2) as [w3 l3] eqn:D3.
  destruct (put_protocol_digits w3 l3) as [w4 l4] eqn:D4.
  destruct (negb (wbad w4) && (0 <? zlen l4)) eqn:C4; [discriminate|]. intro B4.
  assert (l4 = []) as -> by (rewrite B4 in C4; destruct l4; [reflexivity|rewrite zlen_cons in C4; pose proof (zlen_nonneg _ l4); cbn in C4; lia]).
  destruct (digits_took _ _ _ _ D4 B4) as (B3 & L4 & b & -> & Fb & O4 & N4). rewrite app_nil_r in *.
  assert (H3 : wbad w2 = false /\ wltr w3 = wltr w2 /\ ((l2 = [] /\ b = [] /\ wout w3 = wout w2) \/ (l2 = 46 :: b /\ wout w3 = wout w2 ++ [46]))).
  { unfold put_protocol_dot in D3. destruct (wbad w2) eqn:B2; [injection D3 as <- <-; congruence|]. split; [reflexivity|].
    destruct l2 as [|c l2]; [injection D3 as <- <-; split; [reflexivity|auto]|].
    destruct (c =? 46) eqn:Ec; cbn [negb] in D3; [|injection D3 as <- <-; discriminate B3].
    apply Z.eqb_eq in Ec. subst c. injection D3 as <- <-. unfold put1 in *. destruct (wroom w2) as [[|k]|]; [discriminate B3| |]; cbn; auto. }
  destruct H3 as (B2 & L3 & H3).
  destruct (digits_took _ _ _ _ D2 B2) as (B1 & L2 & a & Ea & Fa & O2 & N2).
  destruct (put_chars_took _ _ _ _ _ P B1) as (Bw & p & r & Ep & -> & _ & O1 & L1 & Nr).
  assert (r = []) as -> by (destruct r; [reflexivity|discriminate Nr]). rewrite app_nil_r in Ep. subst p.
  change (zlen lit_http_slash) with 5 in *.
  destruct buf as [|h1 [|h2 [|h3 [|h4 [|h5 r]]]]]; try (cbv in C1; discriminate C1).
  change (drop 5 (h1 :: h2 :: h3 :: h4 :: h5 :: r)) with r in *. subst r.
  split; [exact Bw|]. split; [congruence|].
  exists [h1; h2; h3; h4], (a ++ l2). 
  unfold are_equal_i_n, are_equal4, lit_http_slash in Eq. cbn [app are_equal_loop] in Eq. cbv zeta in Eq. unfold char_at in Eq. cbn [nth_error app] in Eq.
  destruct (to_lower h1 =? to_lower 72) eqn:E1; cbn [negb] in Eq; [|discriminate]. change (72 =? 0) with false in Eq. rewrite andb_false_r in Eq.
  destruct (to_lower h2 =? to_lower 84) eqn:E2; cbn [negb] in Eq; [|discriminate]. change (84 =? 0) with false in Eq. rewrite andb_false_r in Eq.
  destruct (to_lower h3 =? to_lower 84) eqn:E3; cbn [negb] in Eq; [|discriminate]. rewrite andb_false_r in Eq.
  destruct (to_lower h4 =? to_lower 80) eqn:E4; cbn [negb] in Eq; [|discriminate]. change (80 =? 0) with false in Eq. rewrite andb_false_r in Eq.
  destruct (to_lower h5 =? to_lower 47) eqn:E5; cbn [negb] in Eq; [|discriminate]. clear Eq.
  apply Z.eqb_eq in E1, E2, E3, E4, E5. apply lower_same in E1, E2, E3, E4; try lia. apply lower_slash in E5. subst h5.
  split; [reflexivity|]. split.
  { unfold http_letters. repeat (apply Forall2_cons; [assumption|]). constructor. }
  split.
  - destruct H3 as [(-> & -> & _)|(-> & _)].
    + rewrite app_nil_r in *. destruct a as [|x a]; [left; reflexivity|right]. exists (x :: a). split; [discriminate|]. auto.
    + right. exists a. split; [apply N2; intro H; apply app_eq_nil in H; destruct H; discriminate|]. split; [exact Fa|]. right. exists b. auto.
  - rewrite O4. destruct H3 as [(-> & -> & ->)|(-> & ->)]; rewrite O2, O1; rewrite <- !app_assoc; reflexivity.
Qed.
Lemma writer_took : forall sd buf w w', write_call sd (Put protocol) buf w = Ret w' -> wbad w' = false ->
  wbad w = false /\ exists h r, buf = h ++ [47] ++ r /\ http_letters h /\ version_begin r /\
    wout w' = wout w ++ [72; 84; 84; 80; 47] ++ r ++ match sd with request => eol w | response => [32] end.
Proof.
  intros sd buf w w'. unfold write_call. destruct (item_eqb (wnext w) (wcall_item (Put protocol))); [|discriminate]. cbn [put_call]. unfold put_protocol_of.
  intro E. injection E as <-. destruct sd; cbn [set_pstate wbad wout]; intro B.
  - unfold put_crlf in *. unfold eol. destruct (wltr (put_protocol w buf)) eqn:Lt; apply put_char_took in B; destruct B as (B & O & _); apply put_char_took in B; destruct B as (B & O' & _);
      apply put_protocol_took in B; destruct B as (B & Lt' & h & r & E & Hh & V & O2); (split; [exact B|]); exists h, r; (split; [exact E|]); (split; [exact Hh|]); (split; [exact V|]);
      rewrite O, O', O2, <- !app_assoc; rewrite <- Lt', Lt; reflexivity.
  - unfold put_space in *. apply put_char_took in B. destruct B as (B & O & _). apply put_protocol_took in B. destruct B as (B & Lt' & h & r & E & Hh & V & O2).
    split; [exact B|]. exists h, r. rewrite O, O2, <- !app_assoc. auto.
Qed.
