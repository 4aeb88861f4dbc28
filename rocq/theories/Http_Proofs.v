(** Lemmas about the HTTP readers and the query string. *)

From Coq Require Import ZArith List Bool Lia ZifyBool.
From Verif Require Import Base ListMem Ascii_Model Http_Model Http_Spec Http_Calls.
Import ListNotations.
Open Scope Z_scope.

Lemma item_eqb_eq : forall a b, item_eqb a b = true <-> a = b.
Proof. destruct a, b; cbn; split; congruence. Qed.

(** ** The stream *)
(** The two states agree except for the input and the bits. *)
Definition same (s s' : hrd) : Prop := hnext s' = hnext s /\ hgc s' = hgc s.
Lemma same_refl : forall s, same s s.
Proof. split; reflexivity. Qed.
Lemma same_trans : forall a b c, same a b -> same b c -> same a c.
Proof. unfold same. intros; intuition congruence. Qed.

Lemma peek_char_eff : forall s c s', peek_char s = (c, s') ->
  hin s' = hin s /\ same s s' /\
  (is_good s' = true -> s' = s /\ is_ascii c = true /\ exists l, hin s = c :: l) /\
  (is_good s' = false -> c = 0).
Proof.
  unfold peek_char, peek. intros s c s' H.
  destruct (is_good s) eqn:G; cbn [andb] in H.
  - destruct (hin s) as [|x l] eqn:E.
    + cbn in H. injection H as <- <-. cbn. repeat split; try discriminate.
    + destruct (is_ascii x) eqn:A; cbn [negb] in H; injection H as <- <-.
      * repeat split; try reflexivity; intros; try congruence. eauto.
      * cbn. try rewrite E. repeat split; discriminate.
  - cbn in H. injection H as <- <-. cbn. repeat split; discriminate.
Qed.
Lemma get_eff : forall s c s', get s = (c, s') -> same s s' /\
  (forall x l, is_good s = true -> hin s = x :: l -> c = x /\ hin s' = l /\ is_good s' = true) /\
  (is_good s = false \/ hin s = [] -> hin s' = hin s /\ is_good s' = false).
Proof.
  unfold get. intros s c s' H. destruct (is_good s) eqn:G.
  - destruct (hin s) as [|x l] eqn:E; injection H as <- <-.
    + cbn. repeat split; intros; try discriminate; try reflexivity.
    + cbn. split; [split; reflexivity|]. split.
      * intros x0 l0 _ E0. injection E0 as <- <-. repeat split. unfold is_good in *. exact G.
      * intros [F|F]; discriminate.
  - injection H as <- <-. cbn. split; [split; reflexivity|]. split; [intros; discriminate|].
    intros _. split; [reflexivity|]. unfold is_good, set_fail. cbn. now rewrite andb_false_r.
Qed.
Lemma get_char_eff : forall s c s', get_char s = (c, s') -> same s s' /\
  ((is_good s' = true /\ is_good s = true /\ hin s = c :: hin s') \/ (is_good s' = false /\ c = 0 /\ hin s' = hin s)).
Proof.
  unfold get_char. intros s c s' H. destruct (peek_char s) as [x s1] eqn:P. apply peek_char_eff in P. destruct P as (I & S & G & B).
  destruct (is_good s1) eqn:Gs.
  - destruct (G eq_refl) as (-> & A & l & El). injection H as <- <-. destruct (get s) as [y s2] eqn:Gt. cbn [snd].
    apply get_eff in Gt. destruct Gt as (S2 & G2 & _). destruct (G2 _ _ Gs El) as (-> & Hl & Hg).
    split; [exact S2|]. left. rewrite Hl. auto.
  - injection H as <- <-. split; [exact S|]. right. rewrite I. auto.
Qed.
Lemma set_fail_good : forall s, is_good (set_fail s) = false.
Proof. intro s. unfold is_good, set_fail. cbn. now rewrite andb_false_r. Qed.
Lemma skip_crlf_eff : forall s, same s (skip_crlf s) /\ (exists u, hin s = u ++ hin (skip_crlf s)) /\
  (is_good (skip_crlf s) = true -> is_good s = true /\ hin s = 13 :: 10 :: hin (skip_crlf s)).
Proof.
  intro s. unfold skip_crlf. destruct (get_char s) as [c s1] eqn:G1. apply get_char_eff in G1. destruct G1 as (S1 & H1).
  destruct (c =? 13) eqn:E; cbn [negb].
  - apply Z.eqb_eq in E. subst c. destruct (get_char s1) as [c2 s2] eqn:G2. apply get_char_eff in G2. destruct G2 as (S2 & H2).
    destruct H1 as [(A1 & B1 & C1)|(A1 & B1 & C1)]; [|discriminate].
    assert (exists u, hin s = u ++ hin s2) as HU
      by (destruct H2 as [(A2 & B2 & C2)|(A2 & B2 & C2)]; [exists [13; c2]; cbn; congruence|exists [13]; cbn; congruence]).
    destruct (c2 =? 10) eqn:E2; cbn [negb].
    + apply Z.eqb_eq in E2. subst c2. split; [eapply same_trans; eassumption|]. split; [exact HU|].
      destruct H2 as [(A2 & B2 & C2)|(A2 & B2 & C2)]; [|discriminate]. intros _. rewrite C1, C2. auto.
    + split; [eapply same_trans; eassumption|]. split; [exact HU|]. rewrite set_fail_good. discriminate.
  - split; [exact S1|]. split; [|rewrite set_fail_good; discriminate].
    destruct H1 as [(A1 & B1 & C1)|(A1 & B1 & C1)]; [exists [c]|exists []]; cbn; congruence.
Qed.

Lemma skip_loop_eff : forall pred fuel g s, pred 0 = false -> (length (hin s) < fuel)%nat ->
  exists sp s', skip_chars_loop fuel pred g s = Ret (g + zlen sp, s') /\ hin s = sp ++ hin s' /\ same s s' /\
    (is_good s = false -> is_good s' = false) /\ Forall (fun c => pred c = true) sp.
Proof.
  intros pred fuel. induction fuel as [|fuel IH]; intros g s P F; [lia|]. cbn [skip_chars_loop].
  destruct (is_good s) eqn:G.
  - destruct (peek_char s) as [c s1] eqn:Pk. pose proof (peek_char_eff _ _ _ Pk) as (I & Sm & Gd & Bd).
    destruct (pred c) eqn:Pc.
    + destruct (is_good s1) eqn:G1; [|rewrite Bd in Pc by reflexivity; congruence].
      destruct (Gd eq_refl) as (-> & A & l & E). destruct (get s) as [c2 s2] eqn:Gt. cbn [snd].
      apply get_eff in Gt. destruct Gt as (S2 & G2 & _). destruct (G2 _ _ G E) as (-> & Hl & Hg).
      destruct (IH (g + 1) s2 P) as (sp & s' & R & Hs & Ss & _ & Fa); [rewrite Hl; rewrite E in F; cbn [length] in F; lia|].
      exists (c :: sp), s'. rewrite R, zlen_cons. split; [f_equal; f_equal; lia|]. rewrite E. split; [cbn; congruence|].
      split; [eapply same_trans; eassumption|]. split; [discriminate|]. constructor; assumption.
    + exists [], s1. rewrite zlen_nil, Z.add_0_r, I. repeat split; try apply Sm; try discriminate; constructor.
  - exists [], s. rewrite zlen_nil, Z.add_0_r. repeat split; auto.
Qed.
Lemma skip_spaces_eff : forall s, exists sp s', skip_spaces s = Ret (zlen sp, s') /\ hin s = sp ++ hin s' /\ same s s' /\
  (is_good s = false -> is_good s' = false) /\ Forall (fun c => is_space c = true) sp.
Proof.
  intro s. unfold skip_spaces, skip_chars. destruct (skip_loop_eff is_space (S (S (length (hin s)))) 0 s) as (sp & s' & R & H); [reflexivity|lia|].
  exists sp, s'. rewrite R. exact (conj eq_refl H).
Qed.

(** ** The caller's buffer: the text stored so far, one byte that will be overwritten, and the rest
    as it was. *)
Definition pre (m0 t : list Z) (x : Z) (m : list Z) : Prop :=
  zlen t + 1 <= zlen m0 /\ m = t ++ x :: drop (zlen t + 1) m0.

Lemma drop_step : forall (l : list Z) n, 0 <= n -> n < zlen l -> exists y, drop n l = y :: drop (n + 1) l.
Proof.
  intros l n H0 H1. destruct (drop n l) as [|y k] eqn:E.
  - pose proof (zlen_drop _ n l). rewrite E, zlen_nil in H. lia.
  - exists y. f_equal. rewrite Z.add_comm, <- drop_drop by lia. rewrite E. reflexivity.
Qed.
Lemma pre_init : forall m0, 1 <= zlen m0 -> exists x, pre m0 [] x m0.
Proof.
  intros m0 H. destruct (drop_step m0 0) as (x & E); [lia|lia|]. rewrite drop_0 in E.
  exists x. split; [rewrite zlen_nil; lia|]. cbn [app]. rewrite E at 1. reflexivity.
Qed.
Lemma pre_len : forall m0 t x m, pre m0 t x m -> zlen m = zlen m0.
Proof. intros m0 t x m (L & ->). pose proof (zlen_nonneg _ t). rewrite zlen_app, zlen_cons, zlen_drop; lia. Qed.
Lemma pre_store : forall m0 t x m c, pre m0 t x m -> zlen t + 2 <= zlen m0 ->
  exists y m', store m (zlen t) c = Ret m' /\ pre m0 (t ++ [c]) y m'.
Proof.
  intros m0 t x m c (L & ->) H. pose proof (zlen_nonneg _ t).
  destruct (drop_step m0 (zlen t + 1)) as (y & E); [lia|lia|].
  exists y, (t ++ c :: drop (zlen t + 1) m0). split.
  - unfold store. change (t ++ x :: drop (zlen t + 1) m0) with (t ++ [x] ++ drop (zlen t + 1) m0).
    rewrite write_at_app by reflexivity. reflexivity.
  - split; [rewrite zlen_app; change (zlen [c]) with 1; lia|]. rewrite <- app_assoc. cbn [app]. rewrite zlen_app. change (zlen [c]) with 1.
    rewrite E. repeat f_equal. all: lia.
Qed.
Lemma pre_nul : forall m0 t x m c, pre m0 t x m -> exists m', store m (zlen t) c = Ret m' /\ pre m0 t c m'.
Proof.
  intros m0 t x m c (L & ->). exists (t ++ c :: drop (zlen t + 1) m0). split; [|split; [assumption|reflexivity]].
  unfold store. change (t ++ x :: drop (zlen t + 1) m0) with (t ++ [x] ++ drop (zlen t + 1) m0).
  rewrite write_at_app by reflexivity. reflexivity.
Qed.

Lemma get_loop_eff : forall pred fuel limit m0 t0 t x m s, pred 0 = false -> (length (hin s) < fuel)%nat ->
  pre m0 (t0 ++ t) x m -> zlen t <= limit -> zlen t0 + limit + 1 <= zlen m0 ->
  exists t' y m' s', get_chars_loop fuel pred limit m (zlen t0) (zlen t) s = Ret (zlen (t ++ t'), m', s') /\
    pre m0 (t0 ++ t ++ t') y m' /\ zlen (t ++ t') <= limit /\ Forall (fun c => pred c = true) t' /\
    hin s = t' ++ hin s' /\ same s s' /\ (is_good s = false -> is_good s' = false).
Proof.
  intros pred fuel. induction fuel as [|fuel IH]; intros limit m0 t0 t x m s P F Hp Ht Hl; [lia|]. cbn [get_chars_loop].
  assert (D : forall s', hin s' = hin s -> same s s' -> (is_good s = false -> is_good s' = false) ->
    exists t' y m' s'', Ret (zlen t, m, s') = Ret (zlen (t ++ t'), m', s'') /\
    pre m0 (t0 ++ t ++ t') y m' /\ zlen (t ++ t') <= limit /\ Forall (fun c => pred c = true) t' /\
    hin s = t' ++ hin s'' /\ same s s'' /\ (is_good s = false -> is_good s'' = false)).
  { intros s' I Sm Gs. exists [], x, m, s'. rewrite app_nil_r. repeat split; auto; apply Sm || apply Hp. }
  destruct (is_good s) eqn:G; [|apply D; auto using same_refl].
  destruct (peek_char s) as [c s1] eqn:Pk. pose proof (peek_char_eff _ _ _ Pk) as (I & Sm & Gd & Bd).
  destruct (pred c) eqn:Pc; [|apply D; auto; discriminate].
  destruct (zlen t =? limit) eqn:El; [apply D; [exact I|exact Sm|discriminate]|].
  destruct (is_good s1) eqn:G1; [|rewrite Bd in Pc by reflexivity; congruence].
  destruct (Gd eq_refl) as (-> & A & l & E). destruct (get s) as [c2 s2] eqn:Gt.
  apply get_eff in Gt. destruct Gt as (S2 & G2 & _). destruct (G2 _ _ G E) as (-> & Hll & Hg).
  rewrite <- zlen_app. destruct (pre_store m0 (t0 ++ t) x m c) as (y & m' & Es & Hp'); [assumption|rewrite zlen_app; lia|].
  rewrite Es. cbn [bind]. rewrite <- app_assoc in Hp'.
  destruct (IH limit m0 t0 (t ++ [c]) y m' s2) as (t' & y' & m'' & s' & R & Q1 & Q2 & Q3 & Q4 & Q5 & Q6); auto.
  { rewrite Hll. rewrite E in F. cbn [length] in F. lia. }
  { rewrite zlen_app. change (zlen [c]) with 1. lia. }
  rewrite zlen_app in R. change (zlen [c]) with 1 in R. rewrite R.
  exists (c :: t'), y', m'', s'. rewrite <- !app_assoc in *. cbn [app] in *. rewrite E, <- Hll in *.
  split; [reflexivity|]. split; [assumption|]. split; [assumption|]. split; [constructor; assumption|].
  split; [congruence|]. split; [eapply same_trans; eassumption|]. discriminate.
Qed.

Lemma wrap_small : forall x, 0 <= x < 2 ^ 64 -> wrap_u64 x = x.
Proof. intros. unfold wrap_u64. apply Z.mod_small. assumption. Qed.

Lemma get_chars_eff : forall pred m0 t x m size s, pred 0 = false -> pre m0 t x m -> zlen m0 < 2 ^ 64 ->
  1 <= size -> zlen t + size <= zlen m0 ->
  exists t' m' s', get_chars pred m (zlen t) size s = Ret (zlen t', m', s') /\ pre m0 (t ++ t') 0 m' /\
    zlen t' <= size - 1 /\ Forall (fun c => pred c = true) t' /\ hin s = t' ++ hin s' /\ same s s' /\
    (is_good s = false -> is_good s' = false).
Proof.
  intros pred m0 t x m size s P Hp L H1 H2. pose proof (zlen_nonneg _ t). unfold get_chars. rewrite wrap_small by lia.
  destruct (get_loop_eff pred (S (S (length (hin s)))) (size - 1) m0 t [] x m s) as (t' & y & m' & s' & R & Q1 & Q2 & Q3); auto.
  { rewrite app_nil_r. exact Hp. } { rewrite zlen_nil. lia. } { lia. }
  rewrite zlen_nil in R. rewrite R. cbn [bind app]. cbn [app] in *. rewrite <- zlen_app.
  destruct (pre_nul m0 (t ++ t') y m' 0) as (m'' & E & Q); [assumption|]. rewrite E. cbn [bind].
  exists t', m'', s'. auto.
Qed.

(** ** C12: the readers *)
Lemma class_text : forall pred t, (forall c, pred c = true -> text_char c) -> Forall (fun c => pred c = true) t -> Forall text_char t.
Proof. intros pred t H F. eapply Forall_impl; [|exact F]. exact H. Qed.
Lemma abcprint_text : forall c, is_abcprint c = true -> text_char c.
Proof. unfold is_abcprint, is_between, text_char. lia. Qed.
Lemma token_text : forall c, http_is_token c = true -> text_char c.
Proof. unfold http_is_token, is_abcprint, is_between, text_char. intros; lia. Qed.
Lemma digit_text : forall c, is_digit c = true -> text_char c.
Proof. unfold is_digit, is_between, text_char. lia. Qed.
Lemma alpha_text : forall c, is_alpha c = true -> text_char c.
Proof. unfold is_alpha, is_upperalpha, is_loweralpha, is_between, text_char. lia. Qed.
Lemma print_space_text : forall c, is_abcprint_or_space c = true -> text_char c.
Proof. unfold is_abcprint_or_space, is_abcprint, is_space, is_between, text_char. lia. Qed.

Lemma fits_from_pre : forall it m0 t m s g n, item_eqb it resource = false -> pre m0 t 0 m -> Forall text_char t -> g = zlen t ->
  fits_in it m0 (Ret (m, set_gstate s g n)).
Proof.
  intros it m0 t m s g n E (L & ->) F ->. exists t, (set_gstate s (zlen t) n). rewrite E. cbn [app]. auto.
Qed.

Section readers.
Variables (m0 : list Z) (s : hrd).
Hypothesis size : 2 <= zlen m0 < 2 ^ 64.

Lemma simple_fits : forall it pred n, item_eqb it resource = false -> pred 0 = false -> (forall c, pred c = true -> text_char c) ->
  fits_in it m0 (do (g, m, s) <- get_chars pred m0 0 (zlen m0) s; do (_, s) <- skip_spaces s; Ret (m, set_gstate s g n)).
Proof.
  intros it pred n E P T. destruct (pre_init m0) as (x & Hp); [lia|].
  destruct (get_chars_eff pred m0 [] x m0 (zlen m0) s) as (t & m & s1 & R & Q1 & Q2 & Q3 & _); auto; try lia.
  { rewrite zlen_nil; lia. }
  rewrite zlen_nil in R. rewrite R. cbn [bind]. destruct (skip_spaces_eff s1) as (sp & s2 & R2 & _). rewrite R2. cbn [bind].
  eapply fits_from_pre; eauto using class_text.
Qed.

Lemma fits_method : fits_in method m0 (get_method m0 s).
Proof. apply simple_fits; [reflexivity|reflexivity|exact token_text]. Qed.
Lemma fits_status : fits_in status_code m0 (get_status_code m0 s).
Proof. apply simple_fits; [reflexivity|reflexivity|exact digit_text]. Qed.
Lemma fits_reason : fits_in reason_phrase m0 (get_reason_phrase m0 s).
Proof.
  unfold get_reason_phrase. destruct (pre_init m0) as (x & Hp); [lia|].
  destruct (get_chars_eff is_abcprint_or_space m0 [] x m0 (zlen m0) s) as (t & m & s1 & R & Q1 & Q2 & Q3 & _); auto; try lia.
  { rewrite zlen_nil; lia. }
  rewrite zlen_nil in R. rewrite R. cbn [bind]. destruct (skip_spaces_eff s1) as (sp & s2 & R2 & _). rewrite R2. cbn [bind].
  eapply fits_from_pre; eauto using class_text, print_space_text.
Qed.
Lemma fits_resource : fits_in resource m0 (get_resource m0 s).
Proof.
  unfold get_resource. destruct (pre_init m0) as (x & Hp); [lia|]. rewrite wrap_small by lia.
  destruct (get_chars_eff is_abcprint m0 [] x m0 (zlen m0 - 1) s) as (t & m & s1 & R & Q1 & Q2 & Q3 & _); auto; try lia.
  { rewrite zlen_nil; lia. }
  rewrite zlen_nil in R. rewrite R. cbn [bind app] in *. pose proof (zlen_nonneg _ t). destruct Q1 as (L & ->).
  destruct (drop_step m0 (zlen t + 1)) as (y & E); [lia|lia|]. rewrite E.
  change (t ++ 0 :: y :: drop (zlen t + 1 + 1) m0) with (t ++ [0] ++ y :: drop (zlen t + 1 + 1) m0).
  rewrite app_assoc. change (y :: drop (zlen t + 1 + 1) m0) with ([y] ++ drop (zlen t + 1 + 1) m0).
  unfold store. replace (zlen t + 1) with (zlen (t ++ [0])) by (rewrite zlen_app; reflexivity). rewrite write_at_app by reflexivity. cbn [bind].
  destruct (skip_spaces_eff s1) as (sp & s2 & R2 & _). rewrite R2. cbn [bind].
  exists t, (set_gstate s2 (zlen t) protocol). cbn [item_eqb]. rewrite <- app_assoc. cbn [app]. rewrite zlen_app. change (zlen [0]) with 1.
  replace (zlen t + 1 + 1) with (zlen t + 2) by lia. split; [reflexivity|]. cbn [hgc set_gstate]. split; [reflexivity|]. split; [lia|]. eauto using class_text, abcprint_text.
Qed.
Lemma fits_name : fits_in header_name m0 (get_header_name m0 s).
Proof.
  unfold get_header_name. destruct (pre_init m0) as (x & Hp); [lia|].
  destruct (get_chars_eff http_is_token m0 [] x m0 (zlen m0) s) as (t & m & s1 & R & Q1 & Q2 & Q3 & _); auto; try lia.
  { rewrite zlen_nil; lia. }
  rewrite zlen_nil in R. rewrite R. cbn [bind app] in *. destruct (skip_spaces_eff s1) as (sp & s2 & R2 & _). rewrite R2. cbn [bind].
  destruct (zlen t =? 0) eqn:Z0.
  - eapply fits_from_pre; eauto using class_text, token_text.
  - match goal with |- context[skip_spaces ?x] => destruct (skip_spaces_eff x) as (sp3 & s3 & R3 & _) end. rewrite R3. cbn [bind].
    eapply fits_from_pre; eauto using class_text, token_text.
Qed.

(** the protocol *)
Lemma part_eff : forall sep t m s1, text_char sep -> pre m0 t 0 m -> Forall text_char t ->
  exists t' m' s', protocol_part sep m (zlen m0) (zlen t) s1 = Ret (zlen t', m', s') /\ pre m0 t' 0 m' /\ Forall text_char t' /\ same s1 s' .
Proof.
  intros sep t m s1 Ts Hp Ft. unfold protocol_part. rewrite wrap_small by lia.
  set (s2 := if zlen t =? zlen m0 - 1 then set_fail s1 else s1).
  assert (S2 : same s1 s2) by (unfold s2; destruct (zlen t =? zlen m0 - 1); [split; reflexivity|apply same_refl]).
  assert (D : forall s', same s1 s' -> exists t' m' s'', Ret (zlen t, m, s') = Ret (zlen t', m', s'') /\ pre m0 t' 0 m' /\ Forall text_char t' /\ same s1 s'')
    by (intros s' Ss; exists t, m, s'; auto).
  destruct (is_good s2) eqn:G2; cbn [bind]; [|rewrite G2; apply D; exact S2].
  assert (Hlt : zlen t + 2 <= zlen m0).
  { destruct Hp as (L & _). unfold s2 in G2. destruct (zlen t =? zlen m0 - 1) eqn:E; [rewrite set_fail_good in G2; discriminate|]. lia. }
  destruct (get_char s2) as [c s3] eqn:Gc. apply get_char_eff in Gc. destruct Gc as (S3 & Hc).
  destruct (c =? sep) eqn:Ec; cbn [bind].
  - destruct (pre_store m0 t 0 m sep Hp Hlt) as (y & m' & Es & Hp'). rewrite Es. cbn [bind].
    apply Z.eqb_eq in Ec. subst c. destruct Hc as [(A & B & C)|(A & B & C)]; [|subst sep; unfold text_char in Ts; lia].
    rewrite A. replace (zlen t + 1) with (zlen (t ++ [sep])) by (rewrite zlen_app; reflexivity).
    pose proof (zlen_nonneg _ t). rewrite wrap_small by (rewrite zlen_app; change (zlen [sep]) with 1; lia).
    destruct (get_chars_eff is_digit m0 (t ++ [sep]) y m' (zlen m0 - zlen (t ++ [sep])) s3) as (t' & m'' & s4 & R & Q1 & Q2 & Q3 & Q4 & Q5 & _); auto; try lia.
    { rewrite zlen_app. change (zlen [sep]) with 1. lia. }
    rewrite R. cbn [bind]. rewrite <- zlen_app. exists ((t ++ [sep]) ++ t'), m'', s4.
    split; [reflexivity|]. split; [exact Q1|]. split; [apply Forall_app; split; [apply Forall_app; split; [exact Ft|constructor; [exact Ts|constructor]]|eauto using class_text, digit_text]|].
    eauto using same_trans.
  - replace (is_good (set_bad s3)) with false by reflexivity. apply D. eapply same_trans; [exact S2|]. eapply same_trans; [exact S3|]. split; reflexivity.
Qed.
Lemma equal_http_loop : forall a m i n, (i + n <= length a)%nat -> (i + n <= length m)%nat -> are_equal_loop false a m i n <> None.
Proof.
  intros a m i n; revert i; induction n; intros i H1 H2; cbn [are_equal_loop]; [discriminate|].
  unfold char_at. destruct (nth_error a i) eqn:E1; [|apply nth_error_None in E1; lia].
  destruct (nth_error m i) eqn:E2; [|apply nth_error_None in E2; lia].
  destruct (negb _); [discriminate|]. destruct (_ && _); [discriminate|]. apply IHn; lia.
Qed.
Lemma protocol_eff : exists t m' s', get_protocol m0 s = Ret (zlen t, m', s') /\ pre m0 t 0 m' /\ Forall text_char t /\ same s s'.
Proof.
  unfold get_protocol, protocol_name. destruct (pre_init m0) as (x & Hp); [lia|].
  destruct (get_chars_eff is_alpha m0 [] x m0 (zlen m0) s) as (t & m & s1 & R & Q1 & Q2 & Q3 & Q4 & Q5 & _); auto; try lia.
  { rewrite zlen_nil; lia. }
  rewrite zlen_nil in R. rewrite R. cbn [bind app] in *.
  assert (Ft : Forall text_char t) by eauto using class_text, alpha_text.
  assert (K : forall s', same s s' -> exists tt m'' s'', (do (g, m1, s2) <- protocol_part 47 m (zlen m0) (zlen t) s';
     do (g0, m2, s3) <- protocol_part 46 m1 (zlen m0) g s2; do (_, s4) <- skip_spaces s3; Ret (g0, m2, s4)) = Ret (zlen tt, m'', s'') /\ pre m0 tt 0 m'' /\ Forall text_char tt /\ same s s'').
  { intros s' Ss. destruct (part_eff 47 t m s') as (t1 & m1 & s2 & R1 & P1 & F1 & S1); [unfold text_char; lia|assumption..|].
    rewrite R1. cbn [bind]. destruct (part_eff 46 t1 m1 s2) as (t2 & m2 & s3 & R2 & P2 & F2 & S2); [unfold text_char; lia|assumption..|].
    rewrite R2. cbn [bind]. destruct (skip_spaces_eff s3) as (sp & s4 & R3 & _ & S3 & _). rewrite R3. cbn [bind].
    exists t2, m2, s4. split; [reflexivity|]. split; [exact P2|]. split; [exact F2|]. eapply same_trans; [exact Ss|]. eapply same_trans; [exact S1|]. eapply same_trans; [exact S2|exact S3]. }
  destruct (zlen t =? 4) eqn:E4; cbn [negb]; [|apply K; eapply same_trans; [exact Q5|split; reflexivity]].
  unfold are_equal_i_n, are_equal4.
  destruct (are_equal_loop false (lit_http ++ [0]) m 0 4) as [[]|] eqn:Eq; cbn [bind]; [apply K; exact Q5|apply K; eapply same_trans; [exact Q5|split; reflexivity]|].
  exfalso. revert Eq. apply equal_http_loop; [cbn; lia|]. pose proof (pre_len _ _ _ _ Q1) as PL. destruct Q1 as (L & _). unfold zlen in *. lia.
Qed.
Lemma fits_protocol : forall sd, fits_in protocol m0 (get_protocol_of sd m0 s).
Proof.
  intro sd. unfold get_protocol_of. destruct protocol_eff as (t & m & s1 & R & P & F & _). rewrite R. cbn [bind].
  destruct sd; eapply fits_from_pre; eauto; reflexivity.
Qed.
End readers.

(** the header value *)
Lemma words_eff : forall m0, 2 <= zlen m0 < 2 ^ 64 -> forall fuel t x m s,
  (length (hin s) < fuel)%nat -> pre m0 t x m -> (t <> [] -> x = 0) -> Forall text_char t ->
  exists ret t' m' s', value_words fuel (zlen m0) m (zlen t) s = Ret (ret, zlen t', m', s') /\ pre m0 t' 0 m' /\ Forall text_char t' /\
    same s s' /\ (exists u, hin s = u ++ hin s') /\ (ret = true -> is_good s' = false).
Proof.
  intros m0 L. induction fuel as [|fuel IH]; intros t x m s F Hp Hx Ft; [lia|]. cbn [value_words].
  destruct (skip_spaces_eff s) as (sp & s1 & R1 & I1 & S1 & G1 & _). rewrite R1. cbn [bind].
  set (q := if (0 <? zlen t) && (0 <? zlen sp) then let '(ch, s2) := peek_char s1 in (is_abcprint ch, s2) else (false, s1)).
  assert (Hq : hin (snd q) = hin s1 /\ same s1 (snd q) /\ (is_good s1 = false -> is_good (snd q) = false) /\ (fst q = true -> t <> [])).
  { unfold q. destruct ((0 <? zlen t) && (0 <? zlen sp)) eqn:E; [|cbn; auto using same_refl; repeat split; auto; discriminate].
    destruct (peek_char s1) as [c s2] eqn:Pk. pose proof (peek_char_eff _ _ _ Pk) as (I & Sm & Gd & Bd). cbn [fst snd]. repeat split; try apply Sm; auto.
    - intro B. destruct (is_good s2) eqn:G2; auto. destruct (Gd eq_refl) as (-> & _). congruence.
    - intros _ ->. cbn in E. discriminate. }
  destruct q as [more s2]. cbn [fst snd] in Hq. destruct Hq as (I2 & S2 & G2 & Ht).
  rewrite wrap_small by lia.
  assert (Hlast : more = true -> pre m0 t 0 m) by (intro M; rewrite Hx in Hp by auto; exact Hp).
  destruct (more && (zlen t =? zlen m0 - 1)) eqn:Full.
  - exists true, t, m, (set_fail s2). split; [reflexivity|]. split; [apply Hlast; destruct more; [reflexivity|discriminate]|]. split; [exact Ft|].
    split; [eapply same_trans; [exact S1|eapply same_trans; [exact S2|split; reflexivity]]|]. split; [exists sp; cbn; congruence|]. intros _; apply set_fail_good.
  - assert (B : exists t1 y m1, (if more then do m1 <- store m (zlen t) 32; Ret (zlen t + 1, m1) else Ret (zlen t, m)) = Ret (zlen t1, m1) /\ pre m0 t1 y m1 /\ Forall text_char t1).
    { destruct more.
      - destruct (pre_store m0 t x m 32 Hp) as (y & m1 & Es & Hp1); [destruct Hp as (Lp & _); lia|].
        exists (t ++ [32]), y, m1. rewrite Es. cbn [bind]. rewrite zlen_app. split; [reflexivity|]. split; [exact Hp1|].
        apply Forall_app. split; [exact Ft|]. constructor; [unfold text_char; lia|constructor].
      - exists t, x, m. auto. }
    destruct B as (t1 & y & m1 & -> & Hp1 & Ft1). cbn [bind]. pose proof (zlen_nonneg _ t1).
    assert (Hp1' := Hp1). destruct Hp1' as (L1 & _). rewrite wrap_small by lia.
    destruct (get_chars_eff is_abcprint m0 t1 y m1 (zlen m0 - zlen t1) s2) as (t2 & m2 & s3 & R & Q1 & Q2 & Q3 & Q4 & Q5 & Q6); auto; try lia.
    rewrite R. cbn [bind]. rewrite <- zlen_app.
    assert (S3 : same s s3) by eauto using same_trans.
    assert (F3 : Forall text_char (t1 ++ t2)) by (apply Forall_app; split; [exact Ft1|eauto using class_text, abcprint_text]).
    assert (I3 : hin s = (sp ++ t2) ++ hin s3) by (rewrite I1, <- I2, Q4, app_assoc; reflexivity).
    destruct (is_good s3 && (0 <? zlen t2)) eqn:Go.
    + destruct (IH (t1 ++ t2) 0 m2 s3) as (ret & t' & m' & s' & R' & P' & F' & S' & (u & U') & E'); auto.
      { rewrite I3, !app_length in F. unfold zlen in Go. lia. }
      exists ret, t', m', s'. split; [exact R'|]. split; [exact P'|]. split; [exact F'|]. split; [eauto using same_trans|].
      split; [|exact E']. exists ((sp ++ t2) ++ u). rewrite I3, U'. rewrite !app_assoc. reflexivity.
    + exists false, (t1 ++ t2), m2, s3. split; [reflexivity|]. split; [exact Q1|]. split; [exact F3|]. split; [exact S3|].
      split; [eauto|discriminate].
Qed.
Lemma lines_eff : forall m0, 2 <= zlen m0 < 2 ^ 64 -> forall fuel fuel' t x m s,
  (length (hin s) < fuel)%nat -> (length (hin s) < fuel')%nat -> pre m0 t x m -> (t <> [] -> x = 0) -> Forall text_char t ->
  exists ret t' m' s', value_lines fuel fuel' (zlen m0) m (zlen t) s = Ret (ret, zlen t', m', s') /\ pre m0 t' 0 m' /\ Forall text_char t' /\ same s s' /\
   (ret = true -> is_good s' = false).
Proof.
  intros m0 L. induction fuel as [|fuel IH]; intros fuel' t x m s F F' Hp Hx Ft; [lia|]. cbn [value_lines].
  destruct (words_eff m0 L fuel' t x m s F' Hp Hx Ft) as (ret & t1 & m1 & s1 & R & P1 & F1 & S1 & (u & U1) & E1). rewrite R. cbn [bind].
  destruct ret; [exists true, t1, m1, s1; auto 6|].
  destruct (skip_crlf_eff s1) as (S2 & (u2 & U2) & G2).
  destruct (is_good (skip_crlf s1)) eqn:G.
  - destruct (G2 eq_refl) as (_ & I2). destruct (peek_char (skip_crlf s1)) as [c s3] eqn:Pk. pose proof (peek_char_eff _ _ _ Pk) as (I & Sm & _ & _).
    destruct (is_space c).
    + destruct (IH fuel' t1 0 m1 s3) as (ret & t' & m' & s' & R' & P' & F'' & S' & E'); auto.
      { rewrite I. rewrite U1, I2, app_length in F. cbn [length] in F. lia. }
      { rewrite I. rewrite U1, I2, app_length in F'. cbn [length] in F'. lia. }
      exists ret, t', m', s'. eauto 10 using same_trans.
    + exists false, t1, m1, s3. split; [reflexivity|]. split; [assumption|]. split; [assumption|]. split; [eauto using same_trans|discriminate].
  - exists false, t1, m1, (skip_crlf s1). split; [reflexivity|]. split; [assumption|]. split; [assumption|]. split; [eauto using same_trans|discriminate].
Qed.
Lemma value_eff : forall m0 s, 2 <= zlen m0 < 2 ^ 64 -> exists t m' s', get_header_value m0 s = Ret (m', s') /\ pre m0 t 0 m' /\ Forall text_char t /\
  hgc s' = zlen t /\ ((hnext s' = header_value /\ is_good s' = false) \/ hnext s' = header_name).
Proof.
  intros m0 s L. unfold get_header_value. destruct (pre_init m0) as (x & Hp); [lia|].
  destruct (lines_eff m0 L (S (S (length (hin s)))) (S (S (length (hin s)))) [] x m0 s) as (ret & t & m & s1 & R & P & F & S1 & E1); auto; try lia.
  { congruence. }
  rewrite zlen_nil in R. rewrite R. cbn [bind]. destruct ret.
  - exists t, m, (set_gstate s1 (zlen t) header_value). split; [reflexivity|]. split; [exact P|]. split; [exact F|]. split; [reflexivity|]. left. split; [reflexivity|]. exact (E1 eq_refl).
  - destruct (skip_spaces_eff s1) as (sp & s2 & R2 & _). rewrite R2. cbn [bind].
    exists t, m, (set_gstate s2 (zlen t) header_name). repeat split; auto; apply P.
Qed.
Lemma fits_value : forall m0 s, 2 <= zlen m0 < 2 ^ 64 -> fits_in header_value m0 (get_header_value m0 s).
Proof.
  intros m0 s L. destruct (value_eff m0 s L) as (t & m' & s' & R & (Lp & ->) & F & G & _). rewrite R.
  exists t, s'. cbn [item_eqb]. auto.
Qed.

Lemma readers_fit : forall sd it m s, it <> body -> hnext s = it -> 2 <= zlen m < 2 ^ 64 -> fits_in it m (read_call sd it m s).
Proof.
  intros sd it m s Hb Hn L. unfold read_call. rewrite (proj2 (item_eqb_eq _ _) Hn).
  destruct it; cbn [get_item]; auto using fits_method, fits_resource, fits_protocol, fits_status, fits_reason, fits_name, fits_value; congruence.
Qed.

(** ** C14: the body *)
Lemma good_eta : forall s, is_good s = true -> s = upd s (hin s) false false false.
Proof. intros [l e f b n g] G. unfold is_good in G. cbn in *. destruct e, f, b; try discriminate. reflexivity. Qed.
Lemma upd_good : forall s l, is_good (upd s l false false false) = true.
Proof. reflexivity. Qed.
Lemma get_bytes_exact : forall d a b l s, is_good s = true -> hin s = d ++ l -> length b = length d ->
  get_bytes (a ++ b) (zlen a) (length d) s = Ret (zlen a + zlen d, a ++ d, upd s l false false false).
Proof.
  induction d as [|c d IH]; intros a b l s G I Lb; cbn [length get_bytes].
  - destruct b; [|discriminate]. rewrite zlen_nil, Z.add_0_r. cbn [app] in I. rewrite <- I, <- good_eta by exact G. reflexivity.
  - rewrite G. unfold get. rewrite G, I. cbn [app]. destruct b as [|y b]; [discriminate|]. unfold store.
    change (a ++ y :: b) with (a ++ [y] ++ b). rewrite write_at_app by reflexivity. cbn [bind]. rewrite app_assoc.
    replace (zlen a + 1) with (zlen (a ++ [c])) by (rewrite zlen_app; reflexivity).
    rewrite IH with (l := l); [|exact G|reflexivity|cbn [length] in Lb; lia].
    rewrite zlen_app, (zlen_cons _ c d). change (zlen [c]) with 1. rewrite <- app_assoc. cbn [app]. replace (zlen a + (zlen d + 1)) with (zlen a + 1 + zlen d) by lia. reflexivity.
Qed.
Lemma body_exact : forall sd m s d l, is_good s = true -> hnext s = body -> hin s = d ++ l -> length m = length d ->
  read_call sd body m s = Ret (d, set_gstate (upd s l false false false) (zlen d) body).
Proof.
  intros sd m s d l G N I L. unfold read_call. rewrite N. cbn [item_eqb get_item]. unfold get_body.
  rewrite L. rewrite (get_bytes_exact d [] m l s G I L : get_bytes m 0 (length d) s = _). reflexivity.
Qed.

(** ** get_body at the end of the stream and in any state *)
Lemma get_bytes_fit : forall room a c s, length c = room -> exists d s', get_bytes (a ++ c) (zlen a) room s = Ret (zlen a + zlen d, a ++ d ++ drop (zlen d) c, s') /\ zlen d <= zlen c.
Proof.
  induction room as [|room IH]; intros a c s L.
  - destruct c; [|discriminate]. exists [], s. cbn [get_bytes]. rewrite zlen_nil, drop_0, Z.add_0_r. split; [reflexivity|lia].
  - destruct c as [|x c]; [discriminate|]. injection L as L. cbn [get_bytes]. destruct (is_good s).
    + destruct (get s) as (y & s1). unfold store. pose proof (write_at_app a [x] c [y] eq_refl) as W. cbn [app] in W. rewrite W. cbn [bind].
      destruct (IH (a ++ [y]) c s1 L) as (d & s' & E & Q). exists (y :: d), s'. rewrite zlen_app in E. change (zlen [y]) with 1 in E.
      replace (a ++ y :: c) with ((a ++ [y]) ++ c) by (rewrite <- app_assoc; reflexivity). rewrite E. rewrite !zlen_cons. split; [|lia].
      rewrite <- app_assoc. cbn [app]. pose proof (zlen_nonneg _ d). replace (drop (zlen d + 1) (x :: c)) with (drop (zlen d) c).
      * match goal with |- Ret (?x, _, _) = Ret (?y, _, _) => replace x with y by lia end; reflexivity.
      * unfold drop. replace (Z.to_nat (zlen d + 1)) with (S (Z.to_nat (zlen d))) by lia. reflexivity.
    + exists [], s. rewrite zlen_nil, drop_0, Z.add_0_r, zlen_cons. split; [reflexivity|]. pose proof (zlen_nonneg _ c). lia.
Qed.
Lemma body_fits : forall sd m s, hnext s = body -> exists d s', read_call sd body m s = Ret (d ++ drop (zlen d) m, s') /\ hgc s' = zlen d /\ zlen d <= zlen m.
Proof.
  intros sd m s N. unfold read_call. rewrite N. cbn [item_eqb get_item]. unfold get_body.
  destruct (get_bytes_fit (length m) [] m s eq_refl) as (d & s' & E & Q). cbn [app] in E. change (zlen []) with 0 in E. rewrite E. cbn [bind].
  exists d. eexists. split; [reflexivity|]. split; [reflexivity|exact Q].
Qed.
Lemma get_bytes_end : forall d a c s, is_good s = true -> hin s = d -> (length d < length c)%nat ->
  get_bytes (a ++ c) (zlen a) (length c) s = Ret (zlen a + zlen d + 1, a ++ d ++ [255] ++ drop (zlen d + 1) c, upd s [] true true false).
Proof.
  induction d as [|y d IH]; intros a c s G I L; (destruct c as [|x c]; [cbn in L; lia|]); cbn [length get_bytes]; rewrite G; unfold get; rewrite G, I.
  - unfold store. pose proof (write_at_app a [x] c [255] eq_refl) as W. cbn [app] in W. rewrite W. cbn [bind].
    replace (hbad s) with false by (unfold is_good in G; destruct (hbad s); [rewrite !andb_false_r in G; discriminate|reflexivity]).
    change (drop (zlen [] + 1) (x :: c)) with c.
    destruct (length c); cbn [get_bytes is_good upd heof hfail hbad negb andb]; rewrite zlen_nil, Z.add_0_r; reflexivity.
  - unfold store. pose proof (write_at_app a [x] c [y] eq_refl) as W. cbn [app] in W. rewrite W. cbn [bind].
    replace (a ++ y :: c) with ((a ++ [y]) ++ c) by (rewrite <- app_assoc; reflexivity).
    replace (zlen a + 1) with (zlen (a ++ [y])) by (rewrite zlen_app; reflexivity).
    rewrite IH; [|exact G|reflexivity|cbn in L; lia].
    rewrite <- app_assoc, zlen_app, !zlen_cons, zlen_nil. cbn [app]. pose proof (zlen_nonneg _ d).
    replace (drop (zlen d + 1 + 1) (x :: c)) with (drop (zlen d + 1) c) by (unfold drop; replace (Z.to_nat (zlen d + 1 + 1)) with (S (Z.to_nat (zlen d + 1))) by lia; reflexivity).
    match goal with |- Ret (?x, _, _) = Ret (?y, _, _) => replace x with y by lia end; reflexivity.
Qed.
Lemma body_end : forall sd m s d, is_good s = true -> hnext s = body -> hin s = d -> (length d < length m)%nat ->
  exists s', read_call sd body m s = Ret (d ++ [255] ++ drop (zlen d + 1) m, s') /\ hgc s' = zlen d + 1 /\ hin s' = [] /\ is_good s' = false.
Proof.
  intros sd m s d G N I L. unfold read_call. rewrite N. cbn [item_eqb get_item]. unfold get_body.
  pose proof (get_bytes_end d [] m s G I L) as E. cbn [app] in E. change (zlen []) with 0 in E. rewrite E. cbn [bind].
  eexists. split; [reflexivity|]. auto.
Qed.
