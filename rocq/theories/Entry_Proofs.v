From Coq Require Import ZArith List Bool Lia ZifyBool.
From Verif Require Import Base ListMem Table_Model Table_Spec Table_Proofs Entry_Model Entry_Spec.
Import ListNotations.
Open Scope Z_scope.

Definition hexish (l : list Z) : Prop := Forall (fun c => unhex c <> None) l.
Lemma hexish_notin : forall l c, hexish l -> unhex c = None -> ~ In c l.
Proof. intros l c H U I. unfold hexish in H. rewrite Forall_forall in H. apply (H c I U). Qed.
Lemma hexish_app : forall a b, hexish a -> hexish b -> hexish (a ++ b).
Proof. intros. apply Forall_app. split; assumption. Qed.
Lemma hexish_zeros : forall n, hexish (repeat 48 n).
Proof. induction n; cbn; constructor; auto. vm_compute. discriminate. Qed.
Lemma hexish_digit : forall x, 0 <= x < 16 -> hexish [hexdigit x].
Proof. intros x H. constructor; [|constructor]. rewrite hexdigit_unhex by assumption. discriminate. Qed.

Section Base.
Variable base : Z.
Hypothesis Hb : base = 10 \/ base = 16.

Lemma digits_hexish : forall fuel n, 0 <= n -> hexish (digits base fuel n).
Proof using Hb.
  induction fuel as [|f IH]; intros n Hn; cbn [digits]; [constructor|].
  destruct (n <? base) eqn:E; [apply hexish_digit; lia|].
  apply hexish_app; [apply IH, Z.div_pos; lia|]. pose proof (Z.mod_pos_bound n base ltac:(lia)). apply hexish_digit. lia.
Qed.
Lemma value_app : forall a v b, value base v (a ++ b) = match value base v a with Some w => value base w b | None => None end.
Proof using.
  induction a as [|c a IH]; intros v b; cbn [app value]; [reflexivity|].
  destruct (unhex c) as [d|]; [|reflexivity]. destruct (d <? base); [apply IH|reflexivity].
Qed.
Lemma value_digit : forall v d, 0 <= d < base -> value base v [hexdigit d] = Some (v * base + d).
Proof using Hb. intros v d H. cbn [value]. rewrite hexdigit_unhex by lia. replace (d <? base) with true by lia. reflexivity. Qed.
Lemma value_digits : forall fuel n, 0 <= n < base ^ Z.of_nat fuel -> value base 0 (digits base fuel n) = Some n.
Proof using Hb.
  induction fuel as [|f IH]; intros n Hn; cbn [digits].
  - change (Z.of_nat 0) with 0 in Hn. rewrite Z.pow_0_r in Hn. replace n with 0 by lia. reflexivity.
  - rewrite Nat2Z.inj_succ, Z.pow_succ_r in Hn by lia. destruct (n <? base) eqn:E.
    + rewrite value_digit by lia. f_equal; lia.
    + rewrite value_app, IH.
      * rewrite value_digit by (apply Z.mod_pos_bound; lia). f_equal. pose proof (Z.div_mod n base ltac:(lia)). lia.
      * split; [apply Z.div_pos; lia|]. apply Z.div_lt_upper_bound; lia.
Qed.
Lemma value_zeros : forall n l, value base 0 (repeat 48 n ++ l) = value base 0 l.
Proof using Hb.
  induction n as [|n IH]; intros l; cbn [repeat app value]; [reflexivity|].
  change (unhex 48) with (Some 0). cbv iota beta. replace (0 <? base) with true by lia. apply IH.
Qed.
Lemma digits_nonnil : forall fuel n, digits base (S fuel) n <> [].
Proof using. intros fuel n. cbn [digits]. destruct (n <? base); [discriminate|]. intros E. apply app_eq_nil in E. destruct E; discriminate. Qed.
Lemma number_hexish : forall prec n, 0 <= n -> hexish (number base prec n).
Proof using Hb. intros. unfold number. apply hexish_app; [apply hexish_zeros|apply digits_hexish; assumption]. Qed.
Lemma number_nonnil : forall prec n, number base prec n <> [].
Proof using. intros prec n E. unfold number in E. apply app_eq_nil in E. destruct E as [_ E]. exact (digits_nonnil _ _ E). Qed.
Lemma read_number_number : forall prec n, 0 <= n < 2 ^ 64 -> read_number base (number base prec n) = Some n.
Proof using Hb.
  intros prec n H. unfold read_number. pose proof (number_nonnil prec n). destruct (number base prec n) eqn:E; [congruence|]. rewrite <- E.
  unfold number. rewrite value_zeros. apply value_digits. change (Z.of_nat 20) with 20. destruct Hb; subst; lia.
Qed.
Lemma digits_len : forall fuel n k, 0 <= n < base ^ Z.of_nat (S k) -> (length (digits base fuel n) <= S k)%nat.
Proof using Hb.
  induction fuel as [|f IH]; intros n k H; cbn [digits]; [cbn; lia|]. destruct (n <? base) eqn:E; [cbn; lia|].
  rewrite app_length. cbn [length]. destruct k as [|k].
  - change (Z.of_nat 1) with 1 in H. rewrite Z.pow_1_r in H. lia.
  - rewrite Nat2Z.inj_succ, Z.pow_succ_r in H by lia.
    assert (0 <= n / base < base ^ Z.of_nat (S k)) as K by (split; [apply Z.div_pos; lia|apply Z.div_lt_upper_bound; lia]).
    specialize (IH (n / base) k K). lia.
Qed.
Lemma number_len : forall prec n k, 0 <= n < base ^ Z.of_nat (S k) -> (prec <= S k)%nat -> zlen (number base prec n) <= Z.of_nat (S k).
Proof using Hb.
  intros prec n k H P. unfold number, zlen. rewrite app_length, repeat_length. pose proof (digits_len 20 n k H). lia.
Qed.
End Base.

Lemma cut_app : forall c a b, ~ In c a -> cut c (a ++ c :: b) = Some (a, b).
Proof.
  induction a as [|x a IH]; intros b H; cbn [app cut].
  - rewrite Z.eqb_refl. reflexivity.
  - destruct (x =? c) eqn:E; [exfalso; apply H; left; lia|]. rewrite IH; [reflexivity|]. intros K; apply H; right; exact K.
Qed.
Lemma number_to_ok : forall base c prec n l, base = 10 \/ base = 16 -> unhex c = None -> 0 <= n < 2 ^ 64 ->
  number_to base c (number base prec n ++ c :: l) = Some (n, l).
Proof.
  intros base c prec n l Hb U H. unfold number_to. rewrite cut_app.
  - rewrite read_number_number by assumption. reflexivity.
  - apply hexish_notin; [apply number_hexish; [assumption|lia]|assumption].
Qed.
Lemma skip_blanks_repeat : forall n l, skip_blanks (repeat 32 n ++ l) = skip_blanks l.
Proof. induction n; intros; cbn; auto. Qed.
Lemma skip_blanks_hexish : forall a l, hexish a -> a <> [] -> skip_blanks (a ++ l) = a ++ l.
Proof.
  intros [|c a] l H N; [congruence|]. cbn [app skip_blanks]. inversion H; subst.
  destruct (c =? 32) eqn:E; [|reflexivity]. apply Z.eqb_eq in E; subst. exfalso. apply H2. reflexivity.
Qed.
Lemma expect_app : forall s l, expect s (s ++ l) = Some l.
Proof.
  intros. unfold expect. rewrite firstn_app, Nat.sub_diag, firstn_all, firstn_O, app_nil_r.
  destruct (list_eq_dec Z.eq_dec s s) as [_|N]; [|congruence]. rewrite skipn_app, Nat.sub_diag, skipn_all. reflexivity.
Qed.

Lemma wrap_u32_id : forall x, 0 <= x < 2 ^ 15 -> wrap_u32 x = x.
Proof. intros. unfold wrap_u32. apply Z.mod_small. lia. Qed.

Lemma time_ok : forall sep fin w l, when_ok w -> unhex sep = None -> unhex fin = None ->
  read_time sep fin (time_text sep w ++ fin :: l) = Some (w, l).
Proof.
  intros sep fin w l (H1 & H2 & H3 & H4 & H5 & H6 & H7) Us Uf.
  unfold time_text. rewrite !wrap_u32_id by assumption. rewrite <- !app_assoc. cbn [app]. unfold read_time.
  rewrite !number_to_ok by (auto; try reflexivity; lia). destruct w; reflexivity.
Qed.

Lemma expect_comma : forall l, expect [44] (44 :: l) = Some l.
Proof. intros. apply (expect_app [44]). Qed.
Lemma diag_read : forall size e, entry_ok size e -> read_diag (concat (diag_pieces e)) = Some (fact_of e).
Proof.
  intros size e (W & T1 & T2 & T3 & C & S1 & G & _). unfold diag_pieces. cbn [concat]. rewrite app_nil_r, <- !app_assoc. cbn [app].
  unfold read_diag. rewrite time_ok by (auto; reflexivity).
  rewrite expect_comma. rewrite cut_app by (apply hexish_notin; [exact T3|reflexivity]).
  rewrite !number_to_ok by (auto; try reflexivity; lia). reflexivity.
Qed.
Lemma expect_bar : forall l, expect [124; 32] (124 :: 32 :: l) = Some l.
Proof. intros. apply (expect_app [124; 32]). Qed.
Lemma debug_read : forall size e, entry_ok size e -> read_debug (concat (debug_pieces e)) = Some (fact_of e).
Proof.
  intros size e (W & T1 & T2 & T3 & C & S1 & G & _). unfold debug_pieces, padded. cbn [concat]. rewrite app_nil_r, <- !app_assoc. cbn [app].
  unfold read_debug. rewrite time_ok by (auto; reflexivity).
  rewrite !expect_bar.
  rewrite skip_blanks_repeat, skip_blanks_hexish by assumption.
  rewrite cut_app by (apply hexish_notin; [exact T3|reflexivity]). rewrite expect_bar.
  rewrite number_to_ok by (auto; try reflexivity; lia). rewrite expect_bar.
  rewrite number_to_ok by (auto; try reflexivity; lia). rewrite expect_bar.
  rewrite skip_blanks_repeat, skip_blanks_hexish by (first [apply number_nonnil | apply number_hexish; [auto|lia]]).
  rewrite number_to_ok by (auto; try reflexivity; lia). rewrite expect_bar. reflexivity.
Qed.
Lemma line_read : forall k size e, entry_ok size e -> read_line k (concat (pieces k e)) = Some (fact_of e).
Proof. intros [] size e H; [apply (debug_read size)|apply (diag_read size)]; assumption. Qed.

(** Lengths *)
Lemma dec_len : forall prec n, 0 <= n < 2 ^ 15 -> (prec <= 5)%nat -> zlen (number 10 prec n) <= 5.
Proof. intros. apply (number_len 10 ltac:(auto) prec n 4); [change (Z.of_nat 5) with 5; lia|assumption]. Qed.
Lemma time_len : forall sep w, when_ok w -> zlen (time_text sep w) <= 41.
Proof.
  intros sep w (H1 & H2 & H3 & H4 & H5 & H6 & H7). unfold time_text. rewrite !wrap_u32_id by assumption.
  rewrite !zlen_app. cbn [zlen length Z.of_nat Pos.of_succ_nat Pos.succ].
  pose proof (dec_len 4 _ H1 ltac:(lia)). pose proof (dec_len 2 _ H2 ltac:(lia)). pose proof (dec_len 2 _ H3 ltac:(lia)).
  pose proof (dec_len 2 _ H4 ltac:(lia)). pose proof (dec_len 2 _ H5 ltac:(lia)). pose proof (dec_len 2 _ H6 ltac:(lia)). pose proof (dec_len 3 _ H7 ltac:(lia)).
  repeat change (zlen [_]) with 1. lia.
Qed.
Lemma padded_len : forall n t, zlen t <= Z.of_nat n -> zlen (padded n t) <= Z.of_nat n.
Proof. intros n t H. unfold padded, zlen in *. rewrite app_length, repeat_length. lia. Qed.
Lemma pieces_len : forall k size e, entry_ok size e -> zlen (concat (pieces k e)) <= 100 + zlen (e_text e).
Proof.
  intros k size e (W & T1 & T2 & T3 & C & S1 & G & _).
  pose proof (time_len 32 _ W). pose proof (time_len 84 _ W).
  pose proof (number_len 16 ltac:(auto) 4 (e_category e) 3 ltac:(change (Z.of_nat 4) with 4; lia) ltac:(lia)).
  pose proof (number_len 16 ltac:(auto) 1 (e_severity e) 1 ltac:(change (Z.of_nat 2) with 2; lia) ltac:(lia)).
  assert (zlen (number 16 1 (e_tag e)) <= 16) as Gt by (apply (number_len 16 ltac:(auto) 1 (e_tag e) 15); [change (Z.of_nat 16) with 16; lia|lia]).
  pose proof (padded_len 16 _ Gt). pose proof (padded_len 16 (e_thread e) ltac:(lia)).
  destruct k; unfold pieces, debug_pieces, diag_pieces; cbn [concat]; rewrite app_nil_r, !zlen_app, ?zlen_cons, ?zlen_nil; lia.
Qed.

(** No newline in front of the text *)
Lemma notin_app : forall (x : Z) a b, ~ In x a -> ~ In x b -> ~ In x (a ++ b).
Proof. intros x a b Ha Hb I. apply in_app_or in I. tauto. Qed.
Lemma time_one_line : forall sep w, when_ok w -> sep <> 10 -> ~ In 10 (time_text sep w).
Proof.
  intros sep w (H1 & H2 & H3 & H4 & H5 & H6 & H7) Hs. unfold time_text. rewrite !wrap_u32_id by assumption.
  assert (forall p n, 0 <= n -> ~ In 10 (number 10 p n)) as D by (intros; apply hexish_notin; [apply number_hexish; auto|reflexivity]).
  assert (forall c, c <> 10 -> ~ In 10 [c]) as O by (intros c Hc [I|I]; [congruence|exact I]).
  repeat (apply notin_app; [first [apply D; lia | apply O; lia]|]). apply D; lia.
Qed.
Lemma props_one_line : forall k size e, entry_ok size e -> one_line e -> ~ In 10 (concat (pieces k e)).
Proof.
  intros k size e (W & T1 & T2 & T3 & C & S1 & G & _) O.
  assert (forall p n, 0 <= n -> ~ In 10 (number 16 p n)) as X by (intros; apply hexish_notin; [apply number_hexish; auto|reflexivity]).
  assert (~ In 10 (e_thread e)) as T by (apply hexish_notin; [exact T3|reflexivity]).
  assert (forall n t, ~ In 10 t -> ~ In 10 (padded n t)) as P.
  { intros n t Ht. unfold padded. apply notin_app; [|exact Ht]. intros I. apply repeat_spec in I. discriminate. }
  pose proof (time_one_line 32 _ W ltac:(lia)) as TT1. pose proof (time_one_line 84 _ W ltac:(lia)) as TT2.
  assert (~ In 10 [32; 124]) as L1 by (cbn; lia). assert (~ In 10 [32; 124; 32]) as L2 by (cbn; lia).
  assert (~ In 10 [32]) as L3 by (cbn; lia). assert (~ In 10 [90; 44]) as L4 by (cbn; lia). assert (~ In 10 [44]) as L5 by (cbn; lia).
  destruct k; unfold pieces, debug_pieces, diag_pieces; cbn [concat]; rewrite app_nil_r, <- ?app_assoc;
    repeat (apply notin_app; [first [assumption | apply P; first [assumption | apply X; lia] | apply X; lia]|]); exact O.
Qed.

Lemma read_log_line : forall k a cur l, ~ In 10 a ->
  read_log k cur (a ++ 10 :: l) = match read_line k (cur ++ a), read_log k [] l with Some f, Some fs => Some (f :: fs) | _, _ => None end.
Proof.
  induction a as [|c a IH]; intros cur l H; cbn [app read_log].
  - rewrite Z.eqb_refl, app_nil_r. reflexivity.
  - destruct (c =? 10) eqn:E; [exfalso; apply H; left; lia|]. rewrite IH by (intros K; apply H; right; exact K).
    rewrite <- app_assoc. reflexivity.
Qed.

(** What is written *)
Section Size.
Variable size : Z.
Hypothesis Hsize : 0 <= size < 2 ^ 31.
Lemma put_all_holds : forall ps l p, holds size l p -> zlen p + zlen (concat ps) < size ->
  exists l', put_all l ps = Some l' /\ holds size l' (p ++ concat ps) /\ l_table l' = l_table l.
Proof using Hsize.
  induction ps as [|t ps IH]; intros l p H F; cbn [put_all concat].
  - exists l. rewrite app_nil_r. auto.
  - cbn [concat] in F. rewrite zlen_app in F. pose proof (zlen_nonneg _ (concat ps)).
    destruct (holds_put size Hsize l p t H) as (l1 & -> & H1 & T1); [lia|].
    destruct (IH l1 _ H1) as (l2 & -> & H2 & T2); [rewrite zlen_app; lia|].
    exists l2. rewrite <- app_assoc in H2. split; [reflexivity|]. split; [exact H2|congruence].
Qed.
Lemma put_entry_spec : forall k filter out e, entry_ok size e ->
  put_entry k size filter out e = Some (if enabled filter (e_severity e) then out ++ concat (pieces k e) ++ [10] else out).
Proof using Hsize.
  intros k filter out e H. pose proof (pieces_len k size e H) as L. pose proof H as (_ & _ & T2 & _ & _ & _ & _ & R & F).
  unfold put_entry. destruct (enabled filter (e_severity e)); [|reflexivity].
  replace (zlen (e_thread e) + 1 <=? 16) with true by lia.
  destruct (put_all_holds (pieces k e) _ _ (new_holds size Hsize (e_raw e) (Some out) R)) as (l1 & -> & H1 & T1); [change (zlen (@nil Z)) with 0; lia|].
  destruct (holds_flush size Hsize l1 _ H1) as (l2 & -> & _ & ->). rewrite T1. reflexivity.
Qed.
Lemma enabled_shown : forall filter e, enabled filter (e_severity e) = match filter with None => true | Some m => e_severity e <=? m end.
Proof using. intros [m|] e; reflexivity. Qed.

Lemma put_entries_out : forall k filter es out, Forall (entry_ok size) es ->
  put_entries k size filter out es = Some (out ++ concat (map (fun e => concat (pieces k e) ++ [10]) (shown filter es))).
Proof using Hsize.
  induction es as [|e es IH]; intros out H; cbn [put_entries shown List.filter map concat].
  - rewrite app_nil_r. reflexivity.
  - inversion H; subst. rewrite put_entry_spec by assumption. rewrite IH by assumption. rewrite <- enabled_shown.
    fold (shown filter es). destruct (enabled filter (e_severity e)); cbn [map concat]; [|reflexivity]. rewrite <- !app_assoc. reflexivity.
Qed.
Lemma read_shown : forall k es, Forall (entry_ok size) es -> Forall one_line es ->
  read_log k [] (concat (map (fun e => concat (pieces k e) ++ [10]) es)) = Some (map fact_of es).
Proof using.
  induction es as [|e es IH]; intros H O; cbn [map concat]; [reflexivity|].
  inversion H; subst; inversion O; subst. rewrite <- app_assoc. cbn [app].
  rewrite read_log_line by (apply (props_one_line k size); assumption). cbn [app]. rewrite (line_read k size) by assumption.
  rewrite IH by assumption. reflexivity.
Qed.
End Size.
Lemma shown_Forall : forall (P : entry -> Prop) filter es, Forall P es -> Forall P (shown filter es).
Proof. intros P filter es H. unfold shown. rewrite Forall_forall in *. intros x I. apply filter_In in I. apply H, I. Qed.
