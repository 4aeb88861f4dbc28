(** The HTTP round trip: what is written is read back. *)

From Coq Require Import ZArith List Bool Lia ZifyBool.
From Verif Require Import Base ListMem Ascii_Model Http_Model Http_Spec Http_Calls Http_Proofs Http_Writer.
Import ListNotations.
Open Scope Z_scope.

(** ** Character classes *)
Lemma printable_iff : forall c, is_abcprint c = true <-> printable c.
Proof. unfold is_abcprint, is_between, printable. lia. Qed.
Lemma blank_iff : forall c, is_space c = true <-> blank c.
Proof. unfold is_space, blank. lia. Qed.
Lemma digit_iff : forall c, is_digit c = true <-> digit c.
Proof. unfold is_digit, is_between, digit. lia. Qed.
Lemma token_iff : forall c, http_is_token c = true <-> token_char c.
Proof.
  intro c. unfold http_is_token, http_is_separator, token_char, separators. rewrite <- printable_iff.
  unfold is_abcprint, is_between, is_space. cbn [In]. lia.
Qed.
Lemma all_iff : forall (f : Z -> bool) P l, (forall c, f c = true <-> P c) -> Forall P l -> Forall (fun c => f c = true) l.
Proof. intros f P l H F. eapply Forall_impl; [|exact F]. intro; apply H. Qed.

(** ** Writing to a sink that accepts everything *)
Definition W (w : hwr) (t : list Z) (n : item) : hwr :=
  {| wout := wout w ++ t; wroom := None; wbad := false; wnext := n; wltr := wltr w |}.
Definition open_sink (w : hwr) : Prop := wroom w = None /\ wbad w = false.
Lemma W_open : forall w t n, open_sink (W w t n).
Proof. split; reflexivity. Qed.
Lemma W_W : forall w t u n k, W (W w t n) u k = W w (t ++ u) k.
Proof. intros. unfold W. cbn. now rewrite app_assoc. Qed.
Lemma W_nil : forall w, open_sink w -> W w [] (wnext w) = w.
Proof. intros [o r b n l] (R & B). cbn in *. subst. unfold W. cbn. now rewrite app_nil_r. Qed.
Lemma put1_W : forall w c, open_sink w -> put1 w c = W w [c] (wnext w).
Proof. intros [o r b n l] c (R & B). cbn in *. subst. reflexivity. Qed.
Lemma put_char_W : forall w c, open_sink w -> put_char w c = W w [c] (wnext w).
Proof. intros w c H. unfold put_char. destruct H as (R & B). rewrite B. apply put1_W. split; assumption. Qed.
Lemma put_crlf_W : forall w, open_sink w -> wltr w = true -> put_crlf w = W w [13; 10] (wnext w).
Proof.
  intros w H L. unfold put_crlf. rewrite L, (put_char_W w 13 H), put_char_W by apply W_open. rewrite W_W. reflexivity.
Qed.
Lemma put_chars_W : forall pred t rest w, open_sink w -> Forall (fun c => pred c = true) t ->
  match rest with c :: _ => pred c = false | [] => True end ->
  put_chars pred w (t ++ rest) = (zlen t, W w t (wnext w)).
Proof.
  intros pred t; induction t as [|c t IH]; intros rest w H F R; cbn [app].
  - destruct H as (Rm & B). destruct rest as [|c rest]; cbn [put_chars]; [|rewrite B, R]; rewrite W_nil by (split; assumption); reflexivity.
  - cbn [put_chars]. inversion F; subst. pose proof H as (Rm & B). rewrite B, H2. rewrite put1_W by assumption.
    rewrite IH by (assumption || apply W_open). rewrite W_W, zlen_cons. reflexivity.
Qed.
Lemma put_all_W : forall pred t w, open_sink w -> Forall (fun c => pred c = true) t -> put_chars pred w t = (zlen t, W w t (wnext w)).
Proof. intros. rewrite <- (app_nil_r t) at 1. apply put_chars_W; auto. Qed.
Lemma set_pstate_W : forall w t n k, set_pstate (W w t n) k = W w t k.
Proof. reflexivity. Qed.

Lemma nonempty_len : forall (l : list Z), l <> [] -> 0 < zlen l.
Proof. intros [|c l] H; [congruence|]. rewrite zlen_cons. pose proof (zlen_nonneg _ l). lia. Qed.
Lemma digits_W : forall w a rest, open_sink w -> Forall digit a -> a <> [] -> match rest with c :: _ => is_digit c = false | [] => True end ->
  put_protocol_digits w (a ++ rest) = (W w a (wnext w), rest).
Proof.
  intros w a rest O F N R. unfold put_protocol_digits. destruct O as (Rm & B). rewrite B. pose proof (nonempty_len a N). pose proof (zlen_nonneg _ rest).
  replace (0 <? zlen (a ++ rest)) with true by (rewrite zlen_app; lia). cbn [negb andb].
  rewrite put_chars_W by (first [split; assumption | eapply all_iff; [apply digit_iff|exact F] | exact R]).
  replace (zlen a =? 0) with false by lia. rewrite drop_app_exact. reflexivity.
Qed.
Lemma dot_W : forall w rest, open_sink w -> put_protocol_dot w (46 :: rest) = (W w [46] (wnext w), rest).
Proof.
  intros w rest O. unfold put_protocol_dot. pose proof O as (Rm & B). rewrite B. cbn [Z.eqb Pos.eqb negb]. rewrite put1_W by exact O. reflexivity.
Qed.
Lemma put_protocol_W : forall w p, open_sink w -> protocol_text p -> put_protocol w p = W w p (wnext w).
Proof.
  intros w p H (a & b & -> & Fa & Fb & Na & Nb). unfold put_protocol.
  replace (zlen ([72; 84; 84; 80; 47] ++ a ++ [46] ++ b) <? 5) with false
    by (rewrite zlen_app; change (zlen [72; 84; 84; 80; 47]) with 5; pose proof (zlen_nonneg _ (a ++ [46] ++ b)); lia).
  change (are_equal_i_n (Some ([72; 84; 84; 80; 47] ++ a ++ [46] ++ b)) (Some (lit_http_slash ++ [0])) 5) with (Some true).
  cbn [orb negb]. unfold put_bytes. rewrite put_all_W by first [assumption | repeat constructor].
  change (zlen lit_http_slash) with (zlen [72; 84; 84; 80; 47]). rewrite drop_app_exact.
  rewrite digits_W by (first [apply W_open | assumption | reflexivity]). cbn [app]. rewrite dot_W by apply W_open.
  rewrite <- (app_nil_r b) at 1. rewrite digits_W by (first [apply W_open | assumption | exact I]).
  rewrite zlen_nil. change (0 <? 0) with false. rewrite andb_false_r, !W_W. cbn [wnext W]. reflexivity.
Qed.

Lemma skip_gap : forall g, gap g -> forall c l, printable c -> skip_spaces_in_header_value (g ++ c :: l) = zlen g.
Proof.
  induction 1; intros x l P.
  - cbn [app]. rewrite zlen_nil. cbn [skip_spaces_in_header_value].
    replace (is_space x) with false by (unfold is_space, printable in *; lia).
    replace (x =? 13) with false by (unfold printable in *; lia).
    destruct l as [|a [|b [|d l]]]; reflexivity.
  - cbn [app skip_spaces_in_header_value]. apply blank_iff in H. rewrite H, IHgap by assumption. rewrite zlen_cons. lia.
  - change ((13 :: 10 :: c :: g) ++ x :: l) with (13 :: 10 :: c :: g ++ x :: l).
    assert (E : exists y k, g ++ x :: l = y :: k) by (destruct g; cbn; eauto). destruct E as (y & k & E).
    cbn [skip_spaces_in_header_value]. rewrite E. change (is_space 13) with false. cbv iota.
    apply blank_iff in H. rewrite H. cbn [Z.eqb Pos.eqb andb]. rewrite <- E, IHgap by assumption. rewrite !zlen_cons. lia.
Qed.
Lemma skip_blanks : forall t, Forall blank t -> skip_spaces_in_header_value t = zlen t.
Proof.
  induction 1; [reflexivity|]. cbn [skip_spaces_in_header_value]. apply blank_iff in H. rewrite H, IHForall, zlen_cons. lia.
Qed.
(** A value after its first word starts with white space or is over. *)
Lemma value_rest : forall v words, value_text false v words -> match v with c :: _ => is_abcprint c = false | [] => True end.
Proof.
  intros v words H. inversion H; subst.
  - destruct v as [|c v]; [exact I|]. inversion H0; subst. unfold blank, is_abcprint, is_between in *. lia.
  - destruct H0 as [|c g B G|c g B G]; [exfalso; match goal with H : false = false -> _ |- _ => apply H; reflexivity end| |reflexivity]. cbn. unfold blank, is_abcprint, is_between in *. lia.
Qed.
Lemma value_rest_nil : forall words, value_text false [] words -> words = [].
Proof. intros words H. inversion H; subst; [reflexivity|]. destruct g; [cbn in *; destruct w; [congruence|discriminate]|discriminate]. Qed.

(** What is written for the words after the first. *)
Definition more (words : list (list Z)) : list Z := flat_map (fun w => 32 :: w) words.
Lemma join_more : forall w words, join (w :: words) = w ++ more words.
Proof.
  intros w words; revert w; induction words as [|x words IH]; intro w; [cbn; now rewrite app_nil_r|].
  change (join (w :: x :: words)) with (w ++ [32] ++ join (x :: words)). rewrite IH. reflexivity.
Qed.
Definition written (first : bool) (words : list (list Z)) : list Z := if first then join words else more words.

Lemma value_loop_W : forall first v words, value_text first v words -> forall fuel w, open_sink w -> (length v < fuel)%nat ->
  put_value_loop fuel (negb first) v w = Ret (W w (written first words) (wnext w)).
Proof.
  induction 1 as [first t B|first g x rest words G Hg Nx Px V IH]; intros fuel w O F; (destruct fuel as [|fuel]; [lia|]); cbn [put_value_loop].
  - rewrite (skip_blanks t B).
    replace (drop (zlen t) t) with (@nil Z) by (rewrite <- (app_nil_r t) at 2; rewrite drop_app_exact; reflexivity).
    rewrite zlen_nil. change (0 <? 0) with false. rewrite !andb_false_r. replace (drop 0 (@nil Z)) with (@nil Z) by reflexivity.
    assert (E : written first [] = []) by (destruct first; reflexivity). rewrite E, W_nil by assumption. reflexivity.
  - destruct x as [|c x]; [congruence|].
    assert (Pc : printable c) by (inversion Px; assumption).
    assert (Es : skip_spaces_in_header_value (g ++ (c :: x) ++ rest) = zlen g) by (cbn [app]; apply skip_gap; assumption).
    rewrite Es, drop_app_exact. clear Es.
    replace (0 <? zlen ((c :: x) ++ rest)) with true by (cbn [app]; rewrite zlen_cons; pose proof (zlen_nonneg _ (x ++ rest)); lia).
    rewrite andb_true_r.
    set (b := negb first && (0 <? zlen g)).
    assert (Eb : b = negb first).
    { unfold b. destruct first; [reflexivity|]. destruct g; [exfalso; apply Hg; reflexivity|]. rewrite zlen_cons. pose proof (zlen_nonneg _ g). cbn [negb andb]. lia. }
    rewrite Eb. clear b Eb. set (w1 := if negb first then put_space w else w).
    assert (E1 : w1 = W w (if first then [] else [32]) (wnext w)).
    { unfold w1. destruct first; cbn [negb]; [symmetry; apply W_nil; exact O|apply put_char_W; exact O]. }
    cbn [app]. rewrite (proj2 (printable_iff c) Pc). change (c :: x ++ rest) with ((c :: x) ++ rest).
    rewrite E1, put_chars_W; [|apply W_open|eapply all_iff; [apply printable_iff|exact Px]|eapply value_rest; exact V].
    rewrite drop_app_exact, W_W. cbn [W wbad negb andb wnext].
    replace (0 <? zlen (c :: x)) with true by (rewrite zlen_cons; pose proof (zlen_nonneg _ x); lia). rewrite !orb_true_r.
    fold (W w ((if first then [] else [32]) ++ c :: x) (wnext w)).
    assert (EW : written first ((c :: x) :: words) = ((if first then [] else [32]) ++ c :: x) ++ more words)
      by (destruct first; [cbn [written]; rewrite join_more; reflexivity|reflexivity]).
    destruct (0 <? zlen rest) eqn:Lr.
    + specialize (IH fuel (W w ((if first then [] else [32]) ++ c :: x) (wnext w)) (W_open _ _ _)). cbn [negb] in IH.
      rewrite IH by (rewrite !app_length in F; cbn [length] in F; lia). rewrite W_W. cbn [wnext W written]. rewrite EW. reflexivity.
    + destruct rest as [|y rest]; [|rewrite zlen_cons in Lr; pose proof (zlen_nonneg _ rest); lia].
      rewrite (value_rest_nil _ V) in *. rewrite EW. cbn [more flat_map]. rewrite app_nil_r. reflexivity.
Qed.
Lemma put_header_value_W : forall w v words, open_sink w -> wltr w = true -> value_text true v words ->
  put_header_value w v = Ret (W w (join words ++ [13; 10]) header_name).
Proof.
  intros w v words O L V. unfold put_header_value.
  pose proof (value_loop_W true v words V (S (length v)) w O (le_n _)) as E. cbn [negb written] in E. rewrite E. cbn [bind].
  rewrite put_crlf_W by (apply W_open || exact L). rewrite W_W. reflexivity.
Qed.

(** ** Reading *)
Definition at_input (s : hrd) (l : list Z) : hrd := upd s l false false false.
Lemma peek_good : forall s c l, is_ascii c = true -> peek_char (at_input s (c :: l)) = (c, at_input s (c :: l)).
Proof. intros s c l A. unfold peek_char, peek. cbn. rewrite A. reflexivity. Qed.
Lemma get_good : forall s c l, get (at_input s (c :: l)) = (c, at_input s l).
Proof. reflexivity. Qed.
Lemma get_char_good : forall s c l, is_ascii c = true -> get_char (at_input s (c :: l)) = (c, at_input s l).
Proof. intros s c l A. unfold get_char. rewrite peek_good by exact A. reflexivity. Qed.
Lemma crlf_good : forall s l, skip_crlf (at_input s (13 :: 10 :: l)) = at_input s l.
Proof. reflexivity. Qed.
Lemma skip_spaces_good : forall sp s c l, Forall (fun c => is_space c = true) sp -> is_ascii c = true -> is_space c = false ->
  skip_spaces (at_input s (sp ++ c :: l)) = Ret (zlen sp, at_input s (c :: l)).
Proof.
  intros sp s c l F A N. unfold skip_spaces, skip_chars.
  assert (K : forall sp fuel g, Forall (fun c => is_space c = true) sp -> (length sp < fuel)%nat ->
    skip_chars_loop fuel is_space g (at_input s (sp ++ c :: l)) = Ret (g + zlen sp, at_input s (c :: l))).
  { clear sp F. induction sp as [|x sp IH]; intros fuel g F L; (destruct fuel as [|fuel]; [cbn [length] in L; lia|]); cbn [skip_chars_loop app].
    - change (is_good (at_input s (c :: l))) with true. cbv iota. rewrite peek_good by exact A. rewrite N, zlen_nil, Z.add_0_r. reflexivity.
    - inversion F; subst. change (is_good (at_input s (x :: sp ++ c :: l))) with true. cbv iota.
      rewrite peek_good by (unfold is_space, is_ascii, is_between in *; lia). rewrite H1, get_good. cbn [snd].
      rewrite IH by (assumption || cbn [length] in L; lia). rewrite zlen_cons. f_equal. f_equal. lia. }
  rewrite K; [reflexivity|exact F|]. cbn [hin at_input upd]. rewrite app_length. lia.
Qed.
(** a run of characters of the class, then one outside *)
Lemma get_chars_good : forall pred t m0 t0 x m size s c l, (forall c, pred c = true -> is_ascii c = true) ->
  Forall (fun c => pred c = true) t -> is_ascii c = true -> pred c = false ->
  pre m0 t0 x m -> zlen m0 < 2 ^ 64 -> zlen t < size -> zlen t0 + size <= zlen m0 ->
  exists m', get_chars pred m (zlen t0) size (at_input s (t ++ c :: l)) = Ret (zlen t, m', at_input s (c :: l)) /\ pre m0 (t0 ++ t) 0 m'.
Proof.
  intros pred t m0 t0 x m size s c l PA F A N Hp L Hs Hm. pose proof (zlen_nonneg _ t0). pose proof (zlen_nonneg _ t).
  unfold get_chars. rewrite wrap_small by lia.
  assert (K : forall t fuel t1 y m, Forall (fun c => pred c = true) t -> pre m0 (t0 ++ t1) y m -> zlen t1 + zlen t < size -> (length t < fuel)%nat ->
    exists z m', get_chars_loop fuel pred (size - 1) m (zlen t0) (zlen t1) (at_input s (t ++ c :: l)) = Ret (zlen (t1 ++ t), m', at_input s (c :: l)) /\ pre m0 (t0 ++ t1 ++ t) z m').
  { clear t F Hs H0 m x Hp. induction t as [|x t IH]; intros fuel t1 y m F Hp Hs Lf; (destruct fuel as [|fuel]; [cbn [length] in Lf; lia|]); cbn [get_chars_loop app].
    - change (is_good (at_input s (c :: l))) with true. cbv iota. rewrite peek_good by exact A. rewrite N. exists y, m. rewrite app_nil_r. auto.
    - inversion F; subst. change (is_good (at_input s (x :: t ++ c :: l))) with true. cbv iota. rewrite peek_good by auto. rewrite H2.
      rewrite zlen_cons in Hs. pose proof (zlen_nonneg _ t). replace (zlen t1 =? size - 1) with false by lia. rewrite get_good. rewrite <- zlen_app.
      destruct (pre_store m0 (t0 ++ t1) y m x Hp) as (z & m1 & E & Hp1); [rewrite zlen_app; lia|]. rewrite E. cbn [bind]. rewrite <- app_assoc in Hp1.
      destruct (IH fuel (t1 ++ [x]) z m1 H3 Hp1) as (z' & m' & R & Q); [rewrite zlen_app; change (zlen [x]) with 1; lia|cbn [length] in Lf; lia|].
      rewrite zlen_app in R. change (zlen [x]) with 1 in R. rewrite R. exists z', m'. rewrite <- !app_assoc in *. auto. }
  destruct (K t (S (S (length (hin (at_input s (t ++ c :: l)))))) [] x m) as (z & m' & R & Q); auto.
  { rewrite app_nil_r. exact Hp. } { cbn [hin at_input upd]. rewrite app_length. lia. }
  rewrite zlen_nil in R. rewrite R. cbn [bind app] in *. rewrite <- zlen_app.
  destruct (pre_nul m0 (t0 ++ t) z m' 0 Q) as (m'' & E & Q2). rewrite E. cbn [bind]. exists m''. auto.
Qed.
Lemma print_ascii : forall c, is_abcprint c = true -> is_ascii c = true.
Proof. unfold is_abcprint, is_ascii, is_between. lia. Qed.
Lemma token_ascii : forall c, http_is_token c = true -> is_ascii c = true.
Proof. unfold http_is_token, is_abcprint, is_ascii, is_between. intros; lia. Qed.
Lemma digit_ascii : forall c, is_digit c = true -> is_ascii c = true.
Proof. unfold is_digit, is_ascii, is_between. lia. Qed.
Lemma alpha_ascii : forall c, is_alpha c = true -> is_ascii c = true.
Proof. unfold is_alpha, is_upperalpha, is_loweralpha, is_ascii, is_between. lia. Qed.
Lemma print_space_ascii : forall c, is_abcprint_or_space c = true -> is_ascii c = true.
Proof. unfold is_abcprint_or_space, is_abcprint, is_space, is_ascii, is_between. lia. Qed.

(** the result of a call: the text at the start of the buffer and the state after it *)
Definition gives (r : hres (list Z * hrd)) (t : list Z) (s' : hrd) : Prop :=
  exists m', r = Ret (m', s') /\ take (hgc s') m' = t.
Lemma gives_pre : forall m0 t x m s n, pre m0 t x m -> gives (Ret (m, set_gstate s (zlen t) n)) t (set_gstate s (zlen t) n).
Proof. intros m0 t x m s n (L & ->). eexists. split; [reflexivity|]. cbn [hgc set_gstate]. apply take_app_exact. Qed.

Lemma get_chars_good0 : forall pred t m size s c l, (forall c, pred c = true -> is_ascii c = true) ->
  Forall (fun c => pred c = true) t -> is_ascii c = true -> pred c = false -> zlen m < 2 ^ 64 -> zlen t < size <= zlen m ->
  exists m', get_chars pred m 0 size (at_input s (t ++ c :: l)) = Ret (zlen t, m', at_input s (c :: l)) /\ pre m t 0 m'.
Proof.
  intros pred t m size s c l PA F A N L S. pose proof (zlen_nonneg _ t). destruct (pre_init m) as (x & Hp); [lia|].
  exact (get_chars_good pred t m [] x m size s c l PA F A N Hp L ltac:(lia) ltac:(rewrite zlen_nil; lia)).
Qed.
Lemma skip1_good : forall s c l, is_ascii c = true -> is_space c = false -> skip_spaces (at_input s (32 :: c :: l)) = Ret (1, at_input s (c :: l)).
Proof. intros s c l A N. apply (skip_spaces_good [32] s c l); auto. Qed.
Lemma skip0_good : forall s c l, is_ascii c = true -> is_space c = false -> skip_spaces (at_input s (c :: l)) = Ret (0, at_input s (c :: l)).
Proof. intros s c l A N. apply (skip_spaces_good [] s c l); auto. Qed.

Section calls.
Variables (m : list Z) (s : hrd).
Hypothesis Lm : zlen m < 2 ^ 64.

Lemma method_good : forall t c l, zlen t < zlen m -> Forall token_char t -> is_ascii c = true -> is_space c = false ->
  gives (get_method m (at_input s (t ++ 32 :: c :: l))) t (set_gstate (at_input s (c :: l)) (zlen t) resource).
Proof.
  intros t c l L F A N. unfold get_method.
  destruct (get_chars_good0 http_is_token t m (zlen m) s 32 (c :: l)) as (m' & R & Q);
    [exact token_ascii|eapply all_iff; [apply token_iff|exact F]|reflexivity|reflexivity|exact Lm|lia|].
  rewrite R. cbn [bind]. rewrite skip1_good by assumption. cbn [bind]. eapply gives_pre; exact Q.
Qed.
Lemma status_good : forall t c l, zlen t < zlen m -> Forall digit t -> is_ascii c = true -> is_space c = false ->
  gives (get_status_code m (at_input s (t ++ 32 :: c :: l))) t (set_gstate (at_input s (c :: l)) (zlen t) reason_phrase).
Proof.
  intros t c l L F A N. unfold get_status_code.
  destruct (get_chars_good0 is_digit t m (zlen m) s 32 (c :: l)) as (m' & R & Q);
    [exact digit_ascii|eapply all_iff; [apply digit_iff|exact F]|reflexivity|reflexivity|exact Lm|lia|].
  rewrite R. cbn [bind]. rewrite skip1_good by assumption. cbn [bind]. eapply gives_pre; exact Q.
Qed.
Lemma resource_good : forall t c l, zlen t + 1 < zlen m -> Forall printable t -> is_ascii c = true -> is_space c = false ->
  gives (get_resource m (at_input s (t ++ 32 :: c :: l))) t (set_gstate (at_input s (c :: l)) (zlen t) protocol).
Proof.
  intros t c l L F A N. unfold get_resource. pose proof (zlen_nonneg _ t). rewrite wrap_small by lia.
  destruct (get_chars_good0 is_abcprint t m (zlen m - 1) s 32 (c :: l)) as (m' & R & Q);
    [exact print_ascii|eapply all_iff; [apply printable_iff|exact F]|reflexivity|reflexivity|exact Lm|lia|].
  rewrite R. cbn [bind]. destruct Q as (L1 & ->).
  destruct (drop_step m (zlen t + 1)) as (y & E); [lia|lia|]. rewrite E.
  change (t ++ 0 :: y :: drop (zlen t + 1 + 1) m) with (t ++ [0] ++ [y] ++ drop (zlen t + 1 + 1) m).
  rewrite app_assoc. unfold store. replace (zlen t + 1) with (zlen (t ++ [0])) by (rewrite zlen_app; reflexivity).
  rewrite write_at_app by reflexivity. cbn [bind]. rewrite skip1_good by assumption. cbn [bind].
  eexists. split; [reflexivity|]. cbn [hgc set_gstate]. rewrite <- app_assoc. apply take_app_exact.
Qed.
Lemma reason_good : forall t l, zlen t < zlen m -> Forall (fun c => printable c \/ blank c) t ->
  gives (get_reason_phrase m (at_input s (t ++ 13 :: 10 :: l))) t (set_gstate (at_input s l) (zlen t) header_name).
Proof.
  intros t l L F. unfold get_reason_phrase.
  destruct (get_chars_good0 is_abcprint_or_space t m (zlen m) s 13 (10 :: l)) as (m' & R & Q);
    [exact print_space_ascii|eapply all_iff; [|exact F]|reflexivity|reflexivity|exact Lm|lia|].
  { intro c. unfold is_abcprint_or_space. rewrite orb_true_iff, printable_iff, blank_iff. reflexivity. }
  rewrite R. cbn [bind]. rewrite skip0_good by reflexivity. cbn [bind]. rewrite crlf_good. eapply gives_pre; exact Q.
Qed.
Lemma name_good : forall t c l, zlen t < zlen m -> header_name_text t -> is_ascii c = true -> is_space c = false ->
  gives (get_header_name m (at_input s (t ++ 58 :: 32 :: c :: l))) t (set_gstate (at_input s (c :: l)) (zlen t) header_value).
Proof.
  intros t c l L (Ne & F) A N. unfold get_header_name.
  destruct (get_chars_good0 http_is_token t m (zlen m) s 58 (32 :: c :: l)) as (m' & R & Q);
    [exact token_ascii|eapply all_iff; [apply token_iff|exact F]|reflexivity|reflexivity|exact Lm|lia|].
  rewrite R. cbn [bind]. rewrite skip0_good by reflexivity. cbn [bind].
  replace (zlen t =? 0) with false by (pose proof (nonempty_len t Ne); lia).
  change (is_good (at_input s (58 :: 32 :: c :: l))) with true. cbv iota. rewrite get_char_good by reflexivity.
  change (negb (58 =? 58)) with false. cbv iota. rewrite skip1_good by assumption. cbn [bind]. eapply gives_pre; exact Q.
Qed.
Lemma no_name_good : forall l, 0 < zlen m ->
  gives (get_header_name m (at_input s (13 :: 10 :: l))) [] (set_gstate (at_input s l) 0 body).
Proof.
  intros l L. unfold get_header_name.
  destruct (get_chars_good0 http_is_token [] m (zlen m) s 13 (10 :: l)) as (m' & R & Q);
    [exact token_ascii|constructor|reflexivity|reflexivity|exact Lm|cbn; lia|].
  cbn [app] in R. rewrite R. cbn [bind]. rewrite skip0_good by reflexivity. cbn [bind]. change (zlen (@nil Z) =? 0) with true. cbv iota.
  rewrite crlf_good. eapply (gives_pre m []); exact Q.
Qed.

Lemma part_good : forall sep t d m1 c l, is_ascii sep = true -> Forall digit d -> is_ascii c = true -> is_digit c = false ->
  pre m t 0 m1 -> zlen t + 1 + zlen d < zlen m ->
  exists m2, protocol_part sep m1 (zlen m) (zlen t) (at_input s (sep :: d ++ c :: l)) = Ret (zlen (t ++ sep :: d), m2, at_input s (c :: l)) /\
     pre m (t ++ sep :: d) 0 m2.
Proof.
  intros sep t d m1 c l As Fd A N Hp L. pose proof (zlen_nonneg _ t). pose proof (zlen_nonneg _ d). unfold protocol_part.
  rewrite wrap_small by lia. replace (zlen t =? zlen m - 1) with false by lia.
  change (is_good (at_input s (sep :: d ++ c :: l))) with true. cbv iota. rewrite get_char_good by exact As.
  rewrite Z.eqb_refl. destruct (pre_store m t 0 m1 sep Hp) as (y & m2 & E & Hp2); [lia|]. rewrite E. cbn [bind].
  change (is_good (at_input s (d ++ c :: l))) with true. cbv iota.
  replace (zlen t + 1) with (zlen (t ++ [sep])) in * by (rewrite zlen_app; reflexivity).
  pose proof (zlen_nonneg _ (t ++ [sep])). rewrite wrap_small by lia.
  destruct (get_chars_good is_digit d m (t ++ [sep]) y m2 (zlen m - zlen (t ++ [sep])) s c l) as (m3 & R & Q);
    [exact digit_ascii|eapply all_iff; [apply digit_iff|exact Fd]|exact A|exact N|exact Hp2|exact Lm|lia|lia|].
  rewrite R. cbn [bind]. rewrite <- zlen_app. rewrite <- app_assoc in *. exists m3. auto.
Qed.
Lemma protocol_good : forall t sp c l, zlen t < zlen m -> protocol_text t -> Forall (fun c => is_space c = true) sp ->
  is_ascii c = true -> is_space c = false -> (sp = [] -> is_digit c = false) ->
  exists m', get_protocol m (at_input s (t ++ sp ++ c :: l)) = Ret (zlen t, m', at_input s (c :: l)) /\ pre m t 0 m'.
Proof.
  intros t sp c l L (a & b & -> & Fa & Fb & Na & Nb) Fs A N Hd. unfold get_protocol, protocol_name.
  assert (X : exists x k, sp ++ c :: l = x :: k /\ is_ascii x = true /\ is_digit x = false).
  { destruct sp as [|x sp]; [exists c, l; auto|]. exists x, (sp ++ c :: l). inversion Fs; subst. split; [reflexivity|].
    unfold is_space, is_ascii, is_digit, is_between in *. lia. }
  destruct X as (x & k & Ex & Ax & Nx).
  replace (([72; 84; 84; 80; 47] ++ a ++ [46] ++ b) ++ sp ++ c :: l) with (lit_http ++ 47 :: a ++ 46 :: b ++ x :: k)
    by (rewrite <- Ex; cbn [app lit_http]; rewrite <- !app_assoc; reflexivity).
  rewrite !zlen_app in L. change (zlen [72; 84; 84; 80; 47]) with 5 in L. change (zlen [46]) with 1 in L.
  pose proof (zlen_nonneg _ a). pose proof (zlen_nonneg _ b).
  destruct (get_chars_good0 is_alpha lit_http m (zlen m) s 47 (a ++ 46 :: b ++ x :: k)) as (m1 & R & Q);
    [exact alpha_ascii|repeat constructor|reflexivity|reflexivity|exact Lm|change (zlen lit_http) with 4; lia|].
  rewrite R. cbn [bind]. change (negb (zlen lit_http =? 4)) with false. cbv iota.
  assert (E : are_equal_i_n (Some (lit_http ++ [0])) (Some m1) 4 = Some true) by (destruct Q as (_ & ->); reflexivity).
  rewrite E. cbn [bind].
  destruct (part_good 47 lit_http a m1 46 (b ++ x :: k)) as (m2 & R2 & Q2);
    [reflexivity|exact Fa|reflexivity|reflexivity|exact Q|change (zlen lit_http) with 4; lia|].
  rewrite R2. cbn [bind].
  destruct (part_good 46 (lit_http ++ 47 :: a) b m2 x k) as (m3 & R3 & Q3);
    [reflexivity|exact Fb|exact Ax|exact Nx|exact Q2|rewrite zlen_app, zlen_cons; change (zlen lit_http) with 4; lia|].
  rewrite R3. cbn [bind]. rewrite <- Ex. rewrite skip_spaces_good by assumption. cbn [bind].
  replace ((lit_http ++ 47 :: a) ++ 46 :: b) with ([72; 84; 84; 80; 47] ++ a ++ [46] ++ b) in * by reflexivity.
  exists m3. auto.
Qed.

(** the words after the first *)
Lemma words_good : forall words t m1 l fuel, (0 < zlen t) -> Forall (fun w => w <> [] /\ Forall printable w) words ->
  pre m t 0 m1 -> zlen t + zlen (more words) < zlen m -> (length words < fuel)%nat ->
  exists m2, value_words fuel (zlen m) m1 (zlen t) (at_input s (more words ++ 13 :: l)) = Ret (false, zlen (t ++ more words), m2, at_input s (13 :: l)) /\
    pre m (t ++ more words) 0 m2.
Proof.
  induction words as [|w words IH]; intros t m1 l fuel Ht F Hp L Lf; (destruct fuel as [|fuel]; [cbn [length] in Lf; lia|]); cbn [value_words].
  - cbn [more flat_map app]. rewrite skip0_good by reflexivity. cbn [bind]. change (0 <? 0) with false. rewrite andb_false_r. cbn [andb bind].
    cbn [more flat_map] in L. rewrite zlen_nil in L. rewrite wrap_small by lia.
    destruct (get_chars_good is_abcprint [] m t 0 m1 (zlen m - zlen t) s 13 l) as (m2 & R & Q);
      [exact print_ascii|constructor|reflexivity|reflexivity|exact Hp|exact Lm|rewrite zlen_nil; lia|lia|].
    cbn [app] in R. rewrite R. cbn [bind]. rewrite zlen_nil. change (0 <? 0) with false. rewrite andb_false_r.
    rewrite app_nil_r in *. rewrite Z.add_0_r. exists m2. auto.
  - inversion F as [|? ? (Nw & Pw) F']; subst. destruct w as [|c w]; [congruence|]. inversion Pw as [|? ? Pc Pw']; subst.
    change (more ((c :: w) :: words)) with ((32 :: c :: w) ++ more words) in *. rewrite <- app_assoc. cbn [app].
    assert (Ac : is_ascii c = true) by (apply print_ascii, printable_iff, Pc).
    assert (Nc : is_space c = false) by (unfold is_space, printable in *; lia).
    rewrite skip1_good by assumption. cbn [bind]. replace (0 <? zlen t) with true by lia. change (0 <? 1) with true. cbn [andb].
    rewrite peek_good by exact Ac. rewrite (proj2 (printable_iff c) Pc). cbn [andb].
    rewrite zlen_app, !zlen_cons in L. pose proof (zlen_nonneg _ (more words)). pose proof (zlen_nonneg _ w).
    rewrite wrap_small by lia. replace (zlen t =? zlen m - 1) with false by lia.
    destruct (pre_store m t 0 m1 32 Hp) as (y & m2 & E & Hp2); [lia|]. rewrite E. cbn [bind].
    replace (zlen t + 1) with (zlen (t ++ [32])) in * by (rewrite zlen_app; reflexivity).
    assert (L32 : zlen (t ++ [32]) = zlen t + 1) by (rewrite zlen_app; reflexivity).
    rewrite wrap_small by lia.
    assert (X : exists x k, more words ++ 13 :: l = x :: k /\ is_ascii x = true /\ is_abcprint x = false).
    { destruct words as [|w2 words]; [exists 13, l; auto|]. exists 32, ((w2 ++ more words) ++ 13 :: l). auto. }
    destruct X as (x & k & Ex & Ax & Nx). rewrite Ex. change (c :: w ++ x :: k) with ((c :: w) ++ x :: k).
    destruct (get_chars_good is_abcprint (c :: w) m (t ++ [32]) y m2 (zlen m - zlen (t ++ [32])) s x k) as (m3 & R & Q);
      [exact print_ascii|eapply all_iff; [apply printable_iff|exact Pw]|exact Ax|exact Nx|exact Hp2|exact Lm|rewrite zlen_cons; lia|lia|].
    rewrite R. cbn [bind]. change (is_good (at_input s (x :: k))) with true. replace (0 <? zlen (c :: w)) with true by (rewrite zlen_cons; lia). cbn [andb].
    rewrite <- zlen_app, <- Ex.
    destruct (IH ((t ++ [32]) ++ c :: w) m3 l fuel) as (m4 & R4 & Q4); auto.
    { rewrite zlen_app, zlen_cons. lia. } { rewrite zlen_app, zlen_cons. lia. } { cbn [length] in Lf. lia. }
    rewrite R4. exists m4. rewrite <- !app_assoc in *. cbn [app] in *. auto.
Qed.
Lemma value_good : forall words c l, Forall (fun w => w <> [] /\ Forall printable w) words -> zlen (join words) < zlen m ->
  is_ascii c = true -> is_space c = false ->
  gives (get_header_value m (at_input s (join words ++ 13 :: 10 :: c :: l))) (join words)
        (set_gstate (at_input s (c :: l)) (zlen (join words)) header_name).
Proof.
  intros words c l F L A N. unfold get_header_value. set (fuel := S (length (hin (at_input s (join words ++ 13 :: 10 :: c :: l))))).
  cbn [value_lines].
  assert (Hw : exists m2, value_words (S fuel) (zlen m) m 0 (at_input s (join words ++ 13 :: 10 :: c :: l)) =
     Ret (false, zlen (join words), m2, at_input s (13 :: 10 :: c :: l)) /\ pre m (join words) 0 m2).
  { destruct words as [|w words].
    - cbn [join app value_words]. rewrite skip0_good by reflexivity. cbn [bind]. change (0 <? 0) with false. cbn [andb bind].
      cbn [join] in L. rewrite zlen_nil in L. rewrite wrap_small by lia.
      destruct (get_chars_good0 is_abcprint [] m (zlen m - 0) s 13 (10 :: c :: l)) as (m2 & R & Q);
        [exact print_ascii|constructor|reflexivity|reflexivity|exact Lm|rewrite zlen_nil; lia|].
      cbn [app] in R. rewrite R. cbn [bind]. change (0 <? zlen (@nil Z)) with false. rewrite andb_false_r. exists m2. auto.
    - rewrite join_more in *. inversion F as [|? ? (Nw & Pw) F']; subst. destruct w as [|x w]; [congruence|]. inversion Pw as [|? ? Px Pw']; subst.
      rewrite <- app_assoc. cbn [app value_words].
      rewrite skip0_good by (try apply print_ascii, printable_iff, Px; unfold is_space, printable in *; lia).
      cbn [bind]. change (0 <? 0) with false. cbn [andb bind]. rewrite zlen_app, zlen_cons in L.
      pose proof (zlen_nonneg _ w). pose proof (zlen_nonneg _ (more words)). rewrite wrap_small by lia.
      assert (X : exists y k, more words ++ 13 :: 10 :: c :: l = y :: k /\ is_ascii y = true /\ is_abcprint y = false).
      { destruct words as [|w2 words]; [exists 13, (10 :: c :: l); auto|]. exists 32, ((w2 ++ more words) ++ 13 :: 10 :: c :: l). auto. }
      destruct X as (y & k & Ey & Ay & Ny). rewrite Ey. change (x :: w ++ y :: k) with ((x :: w) ++ y :: k).
      destruct (get_chars_good0 is_abcprint (x :: w) m (zlen m - 0) s y k) as (m2 & R & Q);
        [exact print_ascii|eapply all_iff; [apply printable_iff|exact Pw]|exact Ay|exact Ny|exact Lm|rewrite zlen_cons; lia|].
      rewrite R. cbn [bind]. change (is_good (at_input s (y :: k))) with true. replace (0 <? zlen (x :: w)) with true by (rewrite zlen_cons; lia). cbn [andb].
      rewrite <- Ey. rewrite Z.add_0_l.
      destruct (words_good words (x :: w) m2 (10 :: c :: l) fuel) as (m3 & R3 & Q3); auto.
      { rewrite zlen_cons. lia. } { rewrite zlen_cons. lia. }
      { unfold fuel. cbn [hin at_input upd]. cbn [app length]. rewrite join_more, !app_length.
        assert (length words <= length (more words))%nat; [|lia]. clear. induction words as [|w2 words IH]; [auto|].
        change (more (w2 :: words)) with ((32 :: w2) ++ more words). rewrite app_length. cbn [length]. lia. }
      rewrite R3. exists m3. auto. }
  destruct Hw as (m2 & R & Q). rewrite R. cbn [bind]. rewrite crlf_good. change (is_good (at_input s (c :: l))) with true. cbv iota.
  rewrite peek_good by exact A. rewrite N. cbn [bind]. rewrite skip0_good by assumption. cbn [bind]. eapply gives_pre; exact Q.
Qed.
End calls.

(** ** Whole messages *)
(** the text of a message *)
Definition start_line_text (sd : side) (a b c : list Z) : list Z := a ++ [32] ++ b ++ [32] ++ c ++ [13; 10].
Definition header_text (h : header) : list Z := h_name h ++ [58; 32] ++ join (h_words h) ++ [13; 10].

Lemma write_step : forall sd c buf cs w w', item_eqb (wnext w) (wcall_item c) = true -> put_call sd c buf w = Ret w' ->
  write_calls sd ((c, buf) :: cs) w = write_calls sd cs w'.
Proof. intros sd c buf cs w w' E P. cbn [write_calls]. unfold write_call. rewrite E, P. reflexivity. Qed.

Lemma write_headers : forall sd hs cs w, open_sink w -> wltr w = true -> wnext w = header_name -> Forall header_ok hs ->
  write_calls sd (flat_map (fun h => [(Put header_name, h_name h); (Put header_value, h_value h)]) hs ++ cs) w =
  write_calls sd cs (W w (flat_map header_text hs) header_name).
Proof.
  intros sd hs; induction hs as [|h hs IH]; intros cs w O L N F.
  - cbn [flat_map app]. rewrite <- N. rewrite W_nil by exact O. reflexivity.
  - inversion F as [|? ? ((Nn & Ft) & V) F']; subst. cbn [flat_map app].
    rewrite (write_step sd (Put header_name) (h_name h) _ w (W w (h_name h ++ [58; 32]) header_value)).
    2:{ rewrite N. reflexivity. }
    2:{ cbn [put_call]. unfold put_header_name. rewrite put_all_W by (first [exact O | eapply all_iff; [apply token_iff|exact Ft]]).
        rewrite Z.ltb_irrefl, andb_false_r. change (wbad (W w (h_name h) (wnext w))) with false. cbn [negb].
        rewrite put1_W by apply W_open. unfold put_space. rewrite put_char_W by apply W_open. rewrite !W_W, set_pstate_W. rewrite <- ?app_assoc; reflexivity. }
    rewrite (write_step sd (Put header_value) (h_value h) _ _ (W w (header_text h) header_name)).
    2:{ reflexivity. }
    2:{ cbn [put_call]. rewrite (put_header_value_W _ _ (h_words h)) by (first [apply W_open | exact L | exact V]). rewrite W_W.
        unfold header_text. rewrite <- ?app_assoc; reflexivity. }
    rewrite IH by (first [apply W_open | exact L | reflexivity | exact F']). rewrite W_W. reflexivity.
Qed.
Lemma write_bodies : forall sd bs w, open_sink w -> wnext w = body ->
  write_calls sd (map (fun b => (Put body, b)) bs) w = Ret (W w (concat bs) body).
Proof.
  intros sd bs; induction bs as [|b bs IH]; intros w O N.
  - cbn [map write_calls concat]. rewrite <- N, W_nil by exact O. reflexivity.
  - cbn [map concat]. rewrite (write_step sd (Put body) b _ w (W w b body)).
    + rewrite IH by (first [apply W_open | reflexivity]). rewrite W_W. reflexivity.
    + rewrite N. reflexivity.
    + cbn [put_call]. unfold put_body, put_bytes. rewrite put_all_W by (first [exact O | apply Forall_forall; reflexivity]). reflexivity.
Qed.
Lemma write_start : forall sd a b c cs w, open_sink w -> wltr w = true -> wnext w = first_item sd -> start_line_ok sd a b c ->
  write_calls sd (start_line_puts sd a b c ++ cs) w = write_calls sd cs (W w (start_line_text sd a b c) header_name).
Proof.
  intros sd a b c cs w O L N H. destruct sd; cbn [start_line_ok start_line_puts app first_item] in *.
  - destruct H as (Fa & (Nb & Fb) & Pc).
    rewrite (write_step request (Put method) a _ w (W w (a ++ [32]) resource)); [|rewrite N; reflexivity|].
    2:{ cbn [put_call]. unfold put_method. rewrite put_all_W by (first [exact O | eapply all_iff; [apply token_iff|exact Fa]]). cbn [snd].
        unfold put_space. rewrite put_char_W by apply W_open. rewrite W_W. reflexivity. }
    rewrite (write_step request (Put resource) b _ _ (W w (a ++ [32] ++ b ++ [32]) protocol)); [|reflexivity|].
    2:{ cbn [put_call]. unfold put_resource. rewrite put_all_W by (first [apply W_open | eapply all_iff; [apply printable_iff|exact Fb]]). cbn [snd].
        unfold put_space. rewrite put_char_W by apply W_open. rewrite !W_W. rewrite <- ?app_assoc; reflexivity. }
    rewrite (write_step request (Put protocol) c _ _ (W w (start_line_text request a b c) header_name)); [reflexivity|reflexivity|].
    cbn [put_call]. unfold put_protocol_of. rewrite put_protocol_W by (first [apply W_open | exact Pc]).
    rewrite put_crlf_W by (first [apply W_open | exact L]). rewrite !W_W. unfold start_line_text. rewrite <- ?app_assoc; reflexivity.
  - destruct H as (Pa & (Nb & Fb) & (Fc & _)).
    rewrite (write_step response (Put protocol) a _ w (W w (a ++ [32]) status_code)); [|rewrite N; reflexivity|].
    2:{ cbn [put_call]. unfold put_protocol_of. rewrite put_protocol_W by (first [exact O | exact Pa]).
        unfold put_space. rewrite put_char_W by apply W_open. rewrite !W_W. reflexivity. }
    rewrite (write_step response (Put status_code) b _ _ (W w (a ++ [32] ++ b ++ [32]) reason_phrase)); [|reflexivity|].
    2:{ cbn [put_call]. unfold put_status_code. rewrite put_all_W by (first [apply W_open | eapply all_iff; [apply digit_iff|exact Fb]]). cbn [snd].
        unfold put_space. rewrite put_char_W by apply W_open. rewrite !W_W. rewrite <- ?app_assoc; reflexivity. }
    rewrite (write_step response (Put reason_phrase) c _ _ (W w (start_line_text response a b c) header_name)); [reflexivity|reflexivity|].
    cbn [put_call]. unfold put_reason_phrase.
    rewrite put_all_W.
    2:{ apply W_open. }
    2:{ eapply all_iff; [|exact Fc]. intro x. unfold is_abcprint_or_space. rewrite orb_true_iff, printable_iff, blank_iff. reflexivity. }
    cbn [snd]. rewrite put_crlf_W by (first [apply W_open | exact L]). rewrite !W_W. unfold start_line_text. rewrite <- ?app_assoc; reflexivity.
Qed.
Definition message_text (sd : side) (a b c : list Z) (hs : list header) (bs : list (list Z)) : list Z :=
  start_line_text sd a b c ++ flat_map header_text hs ++ [13; 10] ++ concat bs.
Lemma write_message : forall sd a b c hs bs, start_line_ok sd a b c -> Forall header_ok hs ->
  exists w, write_calls sd (message_puts sd a b c hs bs) (http_writer sd None true) = Ret w /\ wbad w = false /\ wout w = message_text sd a b c hs bs.
Proof.
  intros sd a b c hs bs H F. unfold message_puts.
  rewrite write_start by (first [split; reflexivity | reflexivity | exact H]).
  rewrite write_headers by (first [apply W_open | reflexivity | exact F]).
  cbn [app]. rewrite (write_step sd End_headers [] _ _ (W (http_writer sd None true) (start_line_text sd a b c ++ flat_map header_text hs ++ [13; 10]) body)).
  2:{ reflexivity. }
  2:{ cbn [put_call]. unfold end_headers. rewrite put_crlf_W by (first [apply W_open | reflexivity]). rewrite !W_W. rewrite <- ?app_assoc; reflexivity. }
  rewrite write_bodies by (first [apply W_open | reflexivity]). rewrite W_W. eexists. split; [reflexivity|]. split; [reflexivity|].
  unfold message_text. cbn [wout W http_writer app]. rewrite <- ?app_assoc; reflexivity.
Qed.

(** *** Reading *)
Definition N (n : item) (g : Z) (l : list Z) : hrd := {| hin := l; heof := false; hfail := false; hbad := false; hnext := n; hgc := g |}.
Lemma read_step : forall sd it m cs g l t s1, gives (get_item sd it m (N it g l)) t s1 ->
  read_calls sd ((it, m) :: cs) (N it g l) = do (r, s2) <- read_calls sd cs s1; Ret (t :: r, s2).
Proof.
  intros sd it m cs g l t s1 (m' & E & T). cbn [read_calls]. unfold read_call. cbn [hnext N].
  rewrite (proj2 (item_eqb_eq it it) eq_refl), E. cbn [bind]. rewrite T. reflexivity.
Qed.
Lemma bind_assoc : forall A B C (x : hres A) (f : A -> hres B) (g : B -> hres C), (do b <- (do a <- x; f a); g b) = do a <- x; do b <- f a; g b.
Proof. intros. destruct x; reflexivity. Qed.
(** the first character of what follows a header *)
Lemma headers_first : forall hs l, Forall header_ok hs -> exists c k, flat_map header_text hs ++ 13 :: l = c :: k /\ is_ascii c = true /\ is_space c = false.
Proof.
  intros [|h hs] l F; [exists 13, l; auto|]. inversion F as [|? ? ((Nn & Ft) & V) F']; subst.
  destruct (h_name h) as [|c n] eqn:E; [congruence|]. inversion Ft as [|? ? Tc]; subst. cbn [flat_map]. unfold header_text at 1. rewrite E.
  exists c. eexists. split; [reflexivity|]. unfold token_char, printable in Tc. unfold is_ascii, is_space, is_between. lia.
Qed.
Lemma value_words_ok : forall first v words, value_text first v words -> Forall (fun w => w <> [] /\ Forall printable w) words.
Proof. induction 1; constructor; auto. Qed.
Lemma join_first : forall words l, Forall (fun w => w <> [] /\ Forall printable w) words ->
  exists c k, join words ++ 13 :: l = c :: k /\ is_ascii c = true /\ is_space c = false.
Proof.
  intros [|w words] l F; [exists 13, l; auto|]. inversion F as [|? ? (Nw & Pw) F']; subst. rewrite join_more.
  destruct w as [|c w]; [congruence|]. inversion Pw as [|? ? Pc]; subst. exists c. eexists. split; [reflexivity|].
  unfold printable in Pc. unfold is_ascii, is_space, is_between. lia.
Qed.
Lemma read_headers : forall sd hs bufs, Forall2 (fun h b => room_for (h_name h) 1 (fst b) /\ room_for (join (h_words h)) 1 (snd b)) hs bufs ->
  Forall header_ok hs -> forall g l cs, exists g',
  read_calls sd (flat_map (fun b => [(header_name, fst b); (header_value, snd b)]) bufs ++ cs) (N header_name g (flat_map header_text hs ++ 13 :: l)) =
  do (r, s) <- read_calls sd cs (N header_name g' (13 :: l)); Ret (flat_map (fun h => [h_name h; join (h_words h)]) hs ++ r, s).
Proof.
  intros sd hs bufs H; induction H as [|h b hs bufs (H1 & H2) H IH]; intros F g l cs.
  - exists g. cbn [flat_map app]. destruct (read_calls sd cs (N header_name g (13 :: l))) as [[r s]| | |]; reflexivity.
  - inversion F as [|? ? (Hn & V) F']; subst. pose proof (value_words_ok _ _ _ V) as Hw.
    cbn [flat_map app]. unfold header_text at 1. rewrite <- !app_assoc. cbn [app].
    destruct (join_first (h_words h) (10 :: flat_map header_text hs ++ 13 :: l) Hw) as (c & k & Ec & Ac & Nc). rewrite Ec.
    unfold room_for in *.
    rewrite (read_step sd header_name (fst b) _ g _ (h_name h) (N header_value (zlen (h_name h)) (c :: k)))
      by (exact (name_good (fst b) (N header_name g []) ltac:(lia) (h_name h) c k ltac:(lia) Hn Ac Nc)).
    rewrite <- Ec. destruct (headers_first hs l F') as (c2 & k2 & E2 & A2 & N2). rewrite E2.
    rewrite (read_step sd header_value (snd b) _ _ _ (join (h_words h)) (N header_name (zlen (join (h_words h))) (c2 :: k2)))
      by (exact (value_good (snd b) (N header_value (zlen (h_name h)) []) ltac:(lia) (h_words h) c2 k2 Hw ltac:(lia) A2 N2)).
    rewrite <- E2. destruct (IH F' (zlen (join (h_words h))) l cs) as (g' & E). exists g'. rewrite E.
    destruct (read_calls sd cs (N header_name g' (13 :: l))) as [[r s]| | |]; reflexivity.
Qed.
Lemma read_bodies : forall sd bufs d l g, length (concat bufs) = length d -> exists chunks g',
  read_calls sd (map (fun b => (body, b)) bufs) (N body g (d ++ l)) = Ret (chunks, N body g' l) /\ concat chunks = d /\ map (@length Z) chunks = map (@length Z) bufs.
Proof.
  intros sd bufs; induction bufs as [|b bufs IH]; intros d l g H.
  - destruct d; [|discriminate]. exists [], g. auto.
  - cbn [concat] in H. rewrite app_length in H. cbn [map].
    rewrite <- (firstn_skipn (length b) d). set (d1 := firstn (length b) d). set (d2 := skipn (length b) d).
    assert (L1 : length d1 = length b) by (unfold d1; rewrite firstn_length; lia).
    assert (L2 : length d2 = length (concat bufs)) by (unfold d2; rewrite skipn_length; lia).
    rewrite <- app_assoc.
    rewrite (read_step sd body b _ g _ d1 (N body (zlen d1) (d2 ++ l))).
    2:{ pose proof (body_exact sd b (N body g (d1 ++ d2 ++ l)) d1 (d2 ++ l) eq_refl eq_refl eq_refl (eq_sym L1)) as E.
        unfold read_call in E. cbn [hnext N item_eqb] in E. exists d1. split; [exact E|]. cbn [hgc N]. apply take_all. lia. }
    destruct (IH d2 l (zlen d1)) as (chunks & g' & E & C & M); [lia|]. rewrite E. cbn [bind].
    exists (d1 :: chunks), g'. split; [reflexivity|]. cbn [concat map]. rewrite C, M, L1. auto.
Qed.
Lemma read_start : forall sd a b c ba bb bc cs l, start_line_ok sd a b c -> start_room sd a b c ba bb bc -> exists g,
  read_calls sd (start_line_gets sd ba bb bc ++ cs) (http_reader sd (start_line_text sd a b c ++ l)) =
  do (r, s) <- read_calls sd cs (N header_name g l); Ret (a :: b :: c :: r, s).
Proof.
  intros sd a b c ba bb bc cs l H (Ra & Rb & Rc). unfold room_for in *. unfold start_line_text. rewrite <- !app_assoc. cbn [app].
  destruct sd; cbn [start_line_ok start_line_gets app] in *.
  - destruct H as (Fa & (Nb & Fb) & Pc). change (http_reader request ?l) with (N method 0 l).
    destruct b as [|x b]; [congruence|]. inversion Fb as [|? ? Px Fb']; subst.
    assert (Ax : is_ascii x = true) by (apply print_ascii, printable_iff, Px).
    assert (Nx : is_space x = false) by (unfold is_space, printable in *; lia).
    change ((x :: b) ++ 32 :: c ++ 13 :: 10 :: l) with (x :: b ++ 32 :: c ++ 13 :: 10 :: l).
    rewrite (read_step request method ba _ 0 _ a (N resource (zlen a) (x :: b ++ 32 :: c ++ 13 :: 10 :: l)))
      by (exact (method_good ba (N method 0 []) ltac:(lia) a x _ ltac:(lia) Fa Ax Nx)).
    assert (Ec : exists k, c ++ 13 :: 10 :: l = 72 :: k) by (destruct Pc as (d & e & -> & _); eexists; reflexivity).
    destruct Ec as (k & Ec). rewrite Ec. change (x :: b ++ 32 :: 72 :: k) with ((x :: b) ++ 32 :: 72 :: k).
    rewrite (read_step request resource bb _ _ _ (x :: b) (N protocol (zlen (x :: b)) (72 :: k)))
      by (exact (resource_good bb (N resource (zlen a) []) ltac:(lia) (x :: b) 72 k ltac:(lia) Fb eq_refl eq_refl)).
    rewrite <- Ec.
    rewrite (read_step request protocol bc _ _ _ c (N header_name (zlen c) l)).
    2:{ cbn [get_item]. unfold get_protocol_of.
        destruct (protocol_good bc (N protocol (zlen (x :: b)) []) ltac:(lia) c [] 13 (10 :: l) ltac:(lia) Pc ltac:(constructor) eq_refl eq_refl ltac:(reflexivity)) as (m' & E & Q).
        cbn [app] in E. unfold at_input, N in *. cbn [upd hin heof hfail hbad hnext hgc] in *. unfold upd in E. cbn [hnext hgc] in E. rewrite E. cbn [bind].
        eapply gives_pre in Q. exact Q. }
    exists (zlen c). destruct (read_calls request cs (N header_name (zlen c) l)) as [[r s]| | |]; reflexivity.
  - destruct H as (Pa & (Nb & Fb) & (Fc & Hc)). change (http_reader response ?l) with (N protocol 0 l).
    destruct b as [|x b]; [congruence|]. inversion Fb as [|? ? Px Fb']; subst.
    assert (Ax : is_ascii x = true) by (apply digit_ascii, digit_iff, Px).
    assert (Nx : is_space x = false) by (unfold is_space, digit in *; lia).
    change ((x :: b) ++ 32 :: c ++ 13 :: 10 :: l) with (x :: b ++ 32 :: c ++ 13 :: 10 :: l).
    rewrite (read_step response protocol ba _ 0 _ a (N status_code (zlen a) (x :: b ++ 32 :: c ++ 13 :: 10 :: l))).
    2:{ cbn [get_item]. unfold get_protocol_of.
        destruct (protocol_good ba (N protocol 0 []) ltac:(lia) a [32] x (b ++ 32 :: c ++ 13 :: 10 :: l) ltac:(lia) Pa ltac:(repeat constructor) Ax Nx ltac:(discriminate)) as (m' & E & Q).
        cbn [app] in E. unfold at_input, N in *. cbn [upd hin heof hfail hbad hnext hgc] in *. unfold upd in E. cbn [hnext hgc] in E. rewrite E. cbn [bind].
        eapply gives_pre in Q. exact Q. }
    assert (Ec : exists y k, c ++ 13 :: 10 :: l = y :: k /\ is_ascii y = true /\ is_space y = false).
    { destruct c as [|y c]; [exists 13, (10 :: l); auto|]. inversion Fc as [|? ? Py]; subst. exists y, (c ++ 13 :: 10 :: l). split; [reflexivity|].
      destruct Py as [Py|Py]; [|contradiction]. unfold printable, is_ascii, is_space, is_between in *. lia. }
    destruct Ec as (y & k & Ec & Ay & Ny). rewrite Ec. change (x :: b ++ 32 :: y :: k) with ((x :: b) ++ 32 :: y :: k).
    rewrite (read_step response status_code bb _ _ _ (x :: b) (N reason_phrase (zlen (x :: b)) (y :: k)))
      by (exact (status_good bb (N status_code (zlen a) []) ltac:(lia) (x :: b) y k ltac:(lia) Fb Ay Ny)).
    rewrite <- Ec.
    rewrite (read_step response reason_phrase bc _ _ _ c (N header_name (zlen c) l))
      by (exact (reason_good bc (N reason_phrase (zlen (x :: b)) []) ltac:(lia) c l ltac:(lia) Fc)).
    exists (zlen c). destruct (read_calls response cs (N header_name (zlen c) l)) as [[r s]| | |]; reflexivity.
Qed.

(** C10 *)
Lemma round_trip : forall sd a b c hs bs ba bb bc hbufs e bbufs rest,
  start_line_ok sd a b c -> Forall header_ok hs ->
  start_room sd a b c ba bb bc ->
  Forall2 (fun h b => room_for (h_name h) 1 (fst b) /\ room_for (join (h_words h)) 1 (snd b)) hs hbufs ->
  room_for [] 1 e -> length (concat bbufs) = length (concat bs) ->
  exists w, write_calls sd (message_puts sd a b c hs bs) (http_writer sd None true) = Ret w /\ wbad w = false /\
  exists chunks s, read_calls sd (message_gets sd ba bb bc hbufs e bbufs) (http_reader sd (wout w ++ rest)) =
      Ret ([a; b; c] ++ flat_map (fun h => [h_name h; join (h_words h)]) hs ++ [[]] ++ chunks, s) /\
    concat chunks = concat bs /\ map (@length Z) chunks = map (@length Z) bbufs /\ is_good s = true /\ hin s = rest.
Proof.
  intros sd a b c hs bs ba bb bc hbufs e bbufs rest H F Rs Rh Re Lb.
  destruct (write_message sd a b c hs bs H F) as (w & Ew & Gw & Ow). exists w. split; [exact Ew|]. split; [exact Gw|].
  rewrite Ow. unfold message_text, message_gets. rewrite <- !app_assoc. cbn [app].
  destruct (read_start sd a b c ba bb bc (flat_map (fun h => [(header_name, fst h); (header_value, snd h)]) hbufs ++ (header_name, e) :: map (fun b => (body, b)) bbufs)
              (flat_map header_text hs ++ 13 :: 10 :: concat bs ++ rest) H Rs) as (g & E1).
  rewrite E1. clear E1.
  destruct (read_headers sd hs hbufs Rh F g (10 :: concat bs ++ rest) ((header_name, e) :: map (fun b => (body, b)) bbufs)) as (g2 & E2).
  rewrite E2. clear E2.
  rewrite (read_step sd header_name e _ g2 _ [] (N body 0 (concat bs ++ rest)))
    by (unfold room_for in Re; rewrite zlen_nil in Re; exact (no_name_good e (N header_name g2 []) ltac:(lia) (concat bs ++ rest) ltac:(lia))).
  destruct (read_bodies sd bbufs (concat bs) rest 0 Lb) as (chunks & g3 & E3 & C & M). rewrite E3. cbn [bind].
  exists chunks, (N body g3 rest). split; [reflexivity|]. auto.
Qed.
