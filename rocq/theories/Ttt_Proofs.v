(** Proofs for C50 and C51: the board. *)

From Coq Require Import ZArith List Bool Lia ZifyBool.
From Verif Require Import Base Ttt_Model Ttt_Spec Ttt_Calls.
Import ListNotations.
Open Scope Z_scope.

(** ** Two-bit fields *)
Definition field (s k : Z) : Z := Z.land (Z.shiftr s (k * 2)) 3.

Lemma bit3 : forall n, 0 <= n -> Z.testbit 3 n = (n <? 2).
Proof. intros n H. change 3 with (Z.ones 2). rewrite Z.testbit_ones_nonneg by lia. reflexivity. Qed.
Lemma small_bits : forall p n, 0 <= p < 4 -> 2 <= n -> Z.testbit p n = false.
Proof.
  intros p n H Hn. destruct (Z.eq_dec p 0) as [->|N]; [apply Z.bits_0|]. apply Z.bits_above_log2; [lia|].
  apply Z.log2_lt_pow2; [lia|]. apply Z.lt_le_trans with (2 ^ 2); [cbn; lia|apply Z.pow_le_mono_r; lia].
Qed.
Lemma field_bit : forall s k n, 0 <= k -> 0 <= n -> Z.testbit (field s k) n = Z.testbit s (n + k * 2) && (n <? 2).
Proof. intros. unfold field. rewrite Z.land_spec, Z.shiftr_spec, bit3 by lia. reflexivity. Qed.
Lemma field_range : forall s k, 0 <= field s k < 4.
Proof. intros. unfold field. change 3 with (Z.ones 2). rewrite Z.land_ones by lia. apply Z.mod_pos_bound. reflexivity. Qed.
Lemma field_set : forall s k p j, 0 <= k -> 0 <= j -> 0 <= p < 4 ->
  field (Z.lor s (Z.shiftl p (k * 2))) j = if j =? k then Z.lor (field s j) p else field s j.
Proof.
  intros s k p j Hk Hj Hp. apply Z.bits_inj'. intros n Hn.
  rewrite field_bit, Z.lor_spec, Z.shiftl_spec by lia.
  destruct (j =? k) eqn:E.
  - rewrite Z.lor_spec, field_bit by lia. replace (n + j * 2 - k * 2) with n by lia.
    destruct (n <? 2) eqn:E2; [rewrite !andb_true_r; reflexivity|]. rewrite !andb_false_r, small_bits by lia. reflexivity.
  - rewrite field_bit by lia. destruct (n <? 2) eqn:E2; [|rewrite !andb_false_r; reflexivity]. rewrite !andb_true_r.
    assert (Z.testbit p (n + j * 2 - k * 2) = false) as ->; [|apply orb_false_r].
    destruct (Z_lt_dec j k); [apply Z.testbit_neg_r; lia|apply small_bits; lia].
Qed.
Lemma mask_bit : forall n, 0 <= n -> Z.testbit (2 ^ 32 - 1) n = (n <? 32).
Proof. intros. change (2 ^ 32 - 1) with (Z.ones 32). apply Z.testbit_ones_nonneg; lia. Qed.
(** Setting a free field and clearing it again. *)
Lemma clear_set : forall s k p, 0 <= k <= 8 -> 0 <= p < 4 -> 0 <= s < 2 ^ 32 -> field s k = 0 ->
  Z.land (Z.lor s (Z.shiftl p (k * 2))) (not_u32 (Z.shiftl 3 (k * 2))) = s.
Proof.
  intros s k p Hk Hp Hs F. apply Z.bits_inj'. intros n Hn. unfold not_u32.
  rewrite Z.land_spec, Z.lor_spec, Z.lxor_spec, !Z.shiftl_spec, mask_bit by lia.
  assert (S32 : 32 <= n -> Z.testbit s n = false).
  { intro H. destruct (Z.eq_dec s 0) as [->|N]; [apply Z.bits_0|]. apply Z.bits_above_log2; [lia|].
    apply Z.lt_le_trans with 32; [apply Z.log2_lt_pow2; lia|lia]. }
  destruct (Z_lt_dec n (k * 2)) as [L|L].
  - rewrite !(Z.testbit_neg_r _ (n - k * 2)) by lia. rewrite orb_false_r. cbn [xorb].
    destruct (n <? 32) eqn:E; [apply andb_true_r|]. rewrite S32 by lia. reflexivity.
  - rewrite bit3 by lia. destruct (n - k * 2 <? 2) eqn:E2.
    + assert (Z.testbit s n = false) as Z0.
      { assert (B := field_bit s k (n - k * 2)). rewrite F, Z.bits_0, E2, andb_true_r in B. replace (n - k * 2 + k * 2) with n in B by lia. symmetry. apply B; lia. }
      rewrite Z0. replace (n <? 32) with true by lia. apply andb_false_r.
    + rewrite (small_bits p) by lia. rewrite orb_false_r. cbn [xorb]. destruct (n <? 32) eqn:E; [apply andb_true_r|]. rewrite S32 by lia. reflexivity.
Qed.
Lemma shift_small : forall k p, 0 <= k <= 8 -> 0 <= p < 4 -> 0 <= Z.shiftl p (k * 2) < 2 ^ 18.
Proof.
  intros k p Hk Hp. rewrite Z.shiftl_mul_pow2 by lia. assert (0 < 2 ^ (k * 2)) by (apply Z.pow_pos_nonneg; lia).
  assert (2 ^ (k * 2) <= 2 ^ 16) by (apply Z.pow_le_mono_r; lia). change (2 ^ 18) with (4 * 2 ^ 16). nia.
Qed.
Lemma mask_field : forall s k, 0 <= k -> Z.land s (Z.shiftl 3 (k * 2)) = Z.shiftl (field s k) (k * 2).
Proof.
  intros s k Hk. apply Z.bits_inj'. intros n Hn. rewrite Z.land_spec, !Z.shiftl_spec by lia.
  destruct (Z_lt_dec n (k * 2)); [rewrite !(Z.testbit_neg_r _ (n - k * 2)) by lia; apply andb_false_r|].
  rewrite field_bit, bit3 by lia. f_equal. f_equal. lia.
Qed.
Lemma shiftl_inj : forall a b k, 0 <= k -> Z.shiftl a k = Z.shiftl b k -> a = b.
Proof. intros a b k Hk H. rewrite !Z.shiftl_mul_pow2 in H by lia. assert (0 < 2 ^ k) by (apply Z.pow_pos_nonneg; lia). nia. Qed.
Lemma lor_range : forall a b, 0 <= a < 2 ^ 32 -> 0 <= b < 2 ^ 32 -> 0 <= Z.lor a b < 2 ^ 32.
Proof.
  intros a b Ha Hb. split; [apply Z.lor_nonneg; lia|].
  destruct (Z.eq_dec (Z.lor a b) 0) as [->|N]; [lia|]. apply Z.log2_lt_cancel. rewrite Z.log2_lor by lia.
  change (Z.log2 (2 ^ 32)) with 32. apply Z.max_lub_lt.
  - destruct (Z.eq_dec a 0) as [->|]; [cbn; lia|apply Z.log2_lt_pow2; lia].
  - destruct (Z.eq_dec b 0) as [->|]; [cbn; lia|apply Z.log2_lt_pow2; lia].
Qed.

Lemma wrap_small : forall n, (n <= 9)%nat -> wrap_s32 (Z.of_nat n) = Z.of_nat n.
Proof. intros n H. unfold wrap_s32. change (2 ^ 31) with 2147483648. change (2 ^ 32) with 4294967296. rewrite Z.mod_small; lia. Qed.

(** ** Cells *)
Lemma valid_iff : forall m, is_valid m = true <-> on_board m.
Proof. intros [r c]. unfold is_valid, on_board, row, col, row_count, col_count. cbn. lia. Qed.
Lemma cell_range : forall m, on_board m -> 0 <= cell m <= 8.
Proof. intros [r c]. unfold cell, on_board, row, col, col_count. cbn. lia. Qed.
Lemma cell_inj : forall a b, on_board a -> on_board b -> (cell a =? cell b) = same_cell a b.
Proof. intros [r c] [r' c']. unfold cell, on_board, same_cell, row, col, col_count. cbn. lia. Qed.
Lemma same_eq : forall a b, same_cell a b = true <-> a = b.
Proof.
  intros [r c] [r' c']. unfold same_cell. cbn [fst snd]. rewrite andb_true_iff, !Z.eqb_eq. split; [intros (-> & ->); reflexivity|intro E; injection E; auto].
Qed.
Lemma shift_up_eq : forall p m, on_board m -> 0 <= p < 4 -> shift_up p m = Z.shiftl p (cell m * 2).
Proof.
  intros p m Hm Hp. unfold shift_up, wrap_u32. apply cell_range in Hm. apply Z.mod_small.
  pose proof (shift_small (cell m) p Hm Hp). assert (2 ^ 18 < 2 ^ 32) by reflexivity. lia.
Qed.
Lemma has_move_eq : forall b p m, on_board m -> 0 <= p < 4 -> has_move b p m = (get_move b m =? p).
Proof.
  intros b p m Hm Hp. unfold has_move, get_move, shift_down. change p_mask with 3. rewrite !shift_up_eq by (auto; lia).
  pose proof (cell_range m Hm). rewrite mask_field by lia. fold (field (state b) (cell m)).
  destruct (field (state b) (cell m) =? p) eqn:E.
  - apply Z.eqb_eq in E. rewrite E. apply Z.eqb_refl.
  - apply Z.eqb_neq. intro H'. apply shiftl_inj in H'; [|lia]. lia.
Qed.
Lemma get_set : forall b m m', on_board m -> on_board m' -> 0 <= current b < 4 -> get_move b m = 0 ->
  get_move (set_move b m) m' = if same_cell m' m then current b else get_move b m'.
Proof.
  intros b m m' Hm Hm' Hp F. unfold get_move, shift_down, set_move. cbn [state current]. change p_mask with 3. rewrite shift_up_eq by auto.
  unfold get_move, shift_down in F. change p_mask with 3 in F. fold (field (state b) (cell m)) in F. fold (field (state b) (cell m')).
  fold (field (Z.lor (state b) (Z.shiftl (current b) (cell m * 2))) (cell m')).
  rewrite field_set by (auto; apply cell_range; auto). rewrite cell_inj by auto.
  destruct (same_cell m' m) eqn:E; [|reflexivity]. apply same_eq in E. subst m'. rewrite F. apply Z.lor_0_l.
Qed.

(** ** The rules *)
Lemma turn_cases : forall n, turn n = X \/ turn n = O.
Proof. induction n as [|n IH]; [left; reflexivity|]. cbn [turn]. destruct IH as [->| ->]; [right|left]; reflexivity. Qed.
Lemma opponent_other : forall p, p = X \/ p = O -> opponent p = other p.
Proof. intros p [->| ->]; reflexivity. Qed.
Lemma other_ne : forall p, other p <> p.
Proof. intro p. unfold other, X, O. destruct (p =? 2) eqn:E; lia. Qed.
Lemma other_other : forall p, p = X \/ p = O -> other (other p) = p.
Proof. intros p [->| ->]; reflexivity. Qed.
Lemma owner_free : forall ms m, owner ms m = 0 <-> ~ In m ms.
Proof.
  induction ms as [|m' ms IH]; intro m; cbn [owner In]; [intuition|].
  destruct (same_cell m m') eqn:E.
  - apply same_eq in E. subst m'. split; [intro H; destruct (turn_cases (length ms)) as [T|T]; rewrite T in H; discriminate|intuition].
  - rewrite IH. assert (m' <> m) by (intros ->; rewrite (proj2 (same_eq m m) eq_refl) in E; discriminate). intuition.
Qed.
Definition three_b (ms : list move) (p : Z) : bool := existsb (forallb (fun m => owner ms m =? p)) lines.
Lemma three_iff : forall ms p, three_b ms p = true <-> three ms p.
Proof.
  intros ms p. unfold three_b, three. rewrite existsb_exists, Exists_exists. split; intros (l & I & H); exists l; (split; [exact I|]).
  - rewrite forallb_forall in H. apply Forall_forall. intros x Hx. apply Z.eqb_eq, H, Hx.
  - rewrite Forall_forall in H. apply forallb_forall. intros x Hx. apply Z.eqb_eq, H, Hx.
Qed.
Lemma three_dec : forall ms p, three ms p \/ ~ three ms p.
Proof. intros ms p. rewrite <- three_iff. destruct (three_b ms p); [left|right]; congruence. Qed.
Definition finished_b (ms : list move) : bool := three_b ms X || three_b ms O || (length ms =? 9)%nat.
Lemma finished_iff : forall ms, finished_b ms = true <-> finished ms.
Proof. intro ms. unfold finished_b, finished. rewrite !orb_true_iff, !three_iff, Nat.eqb_eq. tauto. Qed.
Lemma finished_dec : forall ms, finished ms \/ ~ finished ms.
Proof. intro ms. rewrite <- finished_iff. destruct (finished_b ms); [left|right]; congruence. Qed.
(** A move does not give three to the other player. *)
Lemma three_mover : forall ms m, three (m :: ms) (other (turn (length ms))) -> three ms (other (turn (length ms))).
Proof.
  intros ms m. unfold three. rewrite !Exists_exists. intros (l & I & H). exists l. split; [exact I|].
  eapply Forall_impl; [|exact H]. intros m' E. cbn [owner] in E. destruct (same_cell m' m); [exfalso; apply (other_ne (turn (length ms))); congruence|exact E].
Qed.
Lemma three_XO : forall ms p, p = X \/ p = O -> three ms p -> finished ms.
Proof. unfold finished. intros ms p [->| ->]; auto. Qed.
Lemma legal_free : forall ms m, legal ms m -> owner ms m = 0.
Proof. intros ms m (_ & N & _). apply owner_free, N. Qed.
Lemma played_length : forall ms, played ms -> (length ms <= 9)%nat.
Proof. induction 1 as [|m ms P IH (_ & _ & N)]; cbn [length]; [lia|]. unfold finished in N. lia. Qed.
Lemma played_unfinished : forall ms, played ms -> ~ finished ms -> (length ms <= 8)%nat.
Proof. intros ms P N. apply played_length in P. unfold finished in N. lia. Qed.
Lemma played_board : forall ms, played ms -> Forall on_board ms.
Proof. induction 1 as [|m ms P IH (B & _)]; constructor; assumption. Qed.
Lemma reset_shows : shows reset [].
Proof.
  assert (N : forall p, p = X \/ p = O -> ~ three [] p) by (intros p [->| ->] T; apply three_iff in T; discriminate T).
  constructor; try reflexivity.
  - intros m H. unfold get_move, shift_down. cbn [state reset owner]. rewrite Z.shiftr_0_l. reflexivity.
  - split; [discriminate|]. intros [T|[T|T]]; [destruct (N X (or_introl eq_refl) T)|destruct (N O (or_intror eq_refl) T)|discriminate].
  - intros p Hp. cbn. split; [intros <-; destruct Hp; discriminate|intro T; destruct (N p Hp T)].
  - cbn. split; [|reflexivity]. intros _. split; apply N; auto.
Qed.
Lemma other_player : forall p, p = X \/ p = O -> other p = X \/ other p = O.
Proof. intros p [->| ->]; [right|left]; reflexivity. Qed.
Lemma winner_none : forall b ms, shows b ms -> ~ finished ms -> winner b = p_none.
Proof. intros b ms S N. apply (shows_nobody _ _ S). split; intro T; apply N; [left|right; left]; exact T. Qed.

(** The check after a mark was set. *)
Lemma check_eq : forall b ms, (forall m, on_board m -> get_move b m = owner ms m) -> current b = X \/ current b = O ->
  check_winner b = if three_b ms (current b) then {| over := true; winner := current b; current := current b; state := state b; count := count b |}
                   else if count b =? 9 then {| over := true; winner := p_none; current := current b; state := state b; count := count b |}
                   else b.
Proof.
  intros b ms H C. unfold check_winner. cbv zeta.
  assert (Hh : forall r c, 0 <= r <= 2 -> 0 <= c <= 2 -> has_move b (current b) (r, c) = (owner ms (r, c) =? current b)).
  { intros r c Hr Hc. rewrite has_move_eq, H; [reflexivity|split; assumption|split; assumption|]. unfold X, O in C. lia. }
  rewrite !Hh by lia. unfold three_b, lines. cbn [existsb forallb]. rewrite !andb_true_r, orb_false_r, !andb_assoc, !orb_assoc. reflexivity.
Qed.

(** A position of the model: it shows the game, and the state is a 32-bit word. *)
Definition rep (b : board) (ms : list move) : Prop := shows b ms /\ played ms /\ 0 <= state b < 2 ^ 32.
Lemma rep_reset : rep reset [].
Proof. split; [exact reset_shows|]. split; [constructor|]. cbn. lia. Qed.
Lemma over_false : forall b ms, shows b ms -> over b = false <-> ~ finished ms.
Proof. intros b ms S. rewrite <- (shows_over _ _ S). destruct (over b); split; congruence. Qed.
Lemma current_turn : forall b ms, shows b ms -> ~ finished ms -> current b = turn (length ms).
Proof. intros b ms S N. rewrite (shows_current _ _ S). apply (over_false b ms S) in N. rewrite N. reflexivity. Qed.

Lemma accept_legal : forall b ms m, rep b ms -> legal ms m ->
  exists b', accept_move b m = (true, b') /\ rep b' (m :: ms) /\ undo_move b' m = (true, b) /\
    over b' = (three_b (m :: ms) (turn (length ms)) || (length ms =? 8)%nat) /\
    winner b' = if three_b (m :: ms) (turn (length ms)) then turn (length ms) else p_none.
Proof.
  intros b ms m (S & P & W) Lg. assert (Lg' := Lg). destruct Lg' as (B & NI & NF).
  assert (Ov := proj2 (over_false b ms S) NF). assert (Cu := current_turn b ms S NF). assert (Wn := winner_none b ms S NF).
  assert (Fr : get_move b m = 0) by (rewrite (shows_cells _ _ S) by exact B; apply owner_free, NI).
  assert (Len := played_unfinished ms P NF). assert (Ct := shows_count _ _ S).
  assert (CC : current b = X \/ current b = O) by (rewrite Cu; apply turn_cases).
  assert (CR : 0 <= current b < 4) by (unfold X, O in CC; lia).
  set (b1 := set_move b m).
  assert (G1 : forall m', on_board m' -> get_move b1 m' = owner (m :: ms) m').
  { intros m' B'. unfold b1. rewrite get_set by auto. cbn [owner]. rewrite (shows_cells _ _ S) by exact B'. rewrite Cu. reflexivity. }
  assert (C1 : count b1 = Z.of_nat (length ms) + 1).
  { unfold b1, set_move. cbn [count]. rewrite Ct. replace (Z.of_nat (length ms) + 1) with (Z.of_nat (Datatypes.S (length ms))) by lia. rewrite wrap_small by lia. reflexivity. }
  assert (E : accept_move b m = (true, if negb (over (check_winner b1)) then switch (check_winner b1) else check_winner b1)).
  { unfold accept_move. rewrite (proj2 (valid_iff m) B), Ov, Fr. reflexivity. }
  rewrite (check_eq b1 (m :: ms) G1 CC) in E. change (current b1) with (current b) in E.
  assert (NT : ~ three (m :: ms) (other (current b))).
  { rewrite Cu. intro T. apply three_mover in T. apply NF. eapply three_XO; [|exact T]. apply other_player, turn_cases. }
  assert (D9 : (count b1 =? 9) = (length ms =? 8)%nat) by (rewrite C1; lia).
  rewrite D9 in E.
  assert (W1 : 0 <= state b1 < 2 ^ 32).
  { unfold b1, set_move. cbn [state]. rewrite shift_up_eq by auto. apply lor_range; [exact W|].
    pose proof (shift_small (cell m) (current b) (cell_range m B) CR). assert (2 ^ 18 < 2 ^ 32) by reflexivity. lia. }
  assert (P1 : played (m :: ms)) by (constructor; assumption).
  (* undoing gives back the state and the count *)
  assert (U1 : Z.land (state b1) (not_u32 (shift_up p_mask m)) = state b).
  { unfold b1, set_move. cbn [state]. change p_mask with 3. rewrite !shift_up_eq by (auto; lia). apply clear_set; [exact (cell_range m B)|exact CR|exact W|exact Fr]. }
  assert (U2 : wrap_s32 (count b1 - 1) = count b).
  { rewrite C1, Ct, Z.add_simpl_r. apply wrap_small. lia. }
  assert (Dec : forall b', accept_move b m = (true, b') ->
     b' = {| over := over b'; winner := winner b'; current := if over b' then current b else opponent (current b); state := state b1; count := count b1 |} ->
     undo_move b' m = (true, b)).
  { intros b' _ ->. unfold undo_move. rewrite (proj2 (valid_iff m) B). cbn [negb over].
    destruct (over b'); cbn [negb]; unfold clear_move, switch; cbn [state count current over winner]; rewrite U1, U2.
    - destruct b; cbn in *; subst; reflexivity.
    - rewrite (opponent_other (current b)) by exact CC. rewrite opponent_other, other_other by (auto; apply other_player; exact CC).
      destruct b; cbn in *; subst; reflexivity. }
  assert (TX : forall q, q = X \/ q = O -> q = current b \/ q = other (current b)).
  { intros q Hq. destruct CC as [->| ->]; destruct Hq as [->| ->]; auto. }
  rewrite <- Cu in *.
  destruct (three_b (m :: ms) (current b)) eqn:T3.
  - (* three in a row *)
    cbn [over negb] in E. eexists. split; [exact E|]. split; [|split; [apply Dec; [exact E|reflexivity]|split; reflexivity]].
    split; [|split; [exact P1|exact W1]]. apply three_iff in T3.
    constructor; cbn [over winner current count state].
    + exact G1.
    + rewrite C1. cbn [length]. lia.
    + split; [intros _|reflexivity]. exact (three_XO _ _ CC T3).
    + intros q Hq. split; [intros <-; exact T3|]. intro T. destruct (TX q Hq) as [->| ->]; [reflexivity|contradiction].
    + split; [intro H; destruct CC as [C|C]; rewrite C in H; discriminate|]. intros (N1 & N2). destruct CC as [C|C]; rewrite C in T3; contradiction.
    + cbn [length]. rewrite Nat.sub_succ, Nat.sub_0_r. exact Cu.
  - assert (NT' : ~ three (m :: ms) (current b)) by (rewrite <- three_iff; congruence).
    assert (NX : forall q, q = X \/ q = O -> ~ three (m :: ms) q) by (intros q Hq; destruct (TX q Hq) as [->| ->]; assumption).
    destruct (length ms =? 8)%nat eqn:E9.
    + (* draw *)
      cbn [over negb] in E.
      eexists. split; [exact E|]. split; [|split; [apply Dec; [exact E|reflexivity]|split; reflexivity]].
      split; [|split; [exact P1|exact W1]].
      constructor; cbn [over winner current count state].
      * exact G1.
      * rewrite C1. cbn [length]. lia.
      * split; [intros _|reflexivity]. right; right. cbn [length]. lia.
      * intros q Hq. split; [intro H; rewrite <- H in Hq; destruct Hq; discriminate|]. intro T. destruct (NX q Hq T).
      * split; [intros _|reflexivity]. split; apply NX; auto.
      * cbn [length]. rewrite Nat.sub_succ, Nat.sub_0_r. exact Cu.
    + change (over b1) with (over b) in E. rewrite Ov in E. cbn [negb] in E. cbn [orb].
      assert (NF1 : ~ finished (m :: ms)) by (intros [T|[T|T]]; [exact (NX X (or_introl eq_refl) T)|exact (NX O (or_intror eq_refl) T)|cbn [length] in T; lia]).
      eexists. split; [exact E|]. split; [|split; [apply Dec; [exact E|]|split; [exact Ov|exact Wn]]].
      2:{ unfold switch. cbn. rewrite Ov. reflexivity. }
      split; [|split; [exact P1|exact W1]].
      constructor; cbn [over winner current count state switch].
      * exact G1.
      * rewrite C1. cbn [length]. lia.
      * change (over b1) with (over b). rewrite Ov. split; [discriminate|contradiction].
      * change (winner b1) with (winner b). rewrite Wn. intros q Hq. split; [intros <-; destruct Hq; discriminate|]. intro T. destruct (NX q Hq T).
      * change (winner b1) with (winner b). rewrite Wn. split; [intros _|reflexivity]. split; apply NX; auto.
      * change (over b1) with (over b). change (current b1) with (current b). rewrite Ov, opponent_other by exact CC. cbn [length turn]. rewrite <- Cu. reflexivity.
Qed.
Lemma accept_illegal : forall b ms m, rep b ms -> ~ legal ms m -> accept_move b m = (false, b).
Proof.
  intros b ms m (S & P & W) N. unfold accept_move. destruct (is_valid m) eqn:V; [|reflexivity]. cbn [negb]. apply valid_iff in V.
  destruct (over b) eqn:Ov; [reflexivity|]. apply (over_false b ms S) in Ov.
  rewrite (shows_cells _ _ S m V). destruct (owner ms m =? p_none) eqn:E; [|reflexivity].
  exfalso. apply N. split; [exact V|]. split; [|exact Ov]. apply owner_free. apply Z.eqb_eq, E.
Qed.
Lemma move_dec : forall a b : move, {a = b} + {a <> b}.
Proof. decide equality; apply Z.eq_dec. Qed.
Lemma In_dec' : forall (m : move) ms, In m ms \/ ~ In m ms.
Proof. intros m ms. destruct (in_dec move_dec m ms); [left|right]; assumption. Qed.
Lemma legal_dec : forall ms m, legal ms m \/ ~ legal ms m.
Proof.
  intros ms m. unfold legal. destruct (is_valid m) eqn:V.
  - apply valid_iff in V. destruct (In_dec' m ms), (finished_dec ms); intuition.
  - right. intros (B & _). apply valid_iff in B. congruence.
Qed.
Lemma attempts_rep : forall l b ms, rep b ms -> exists ms', rep (attempts b l) ms'.
Proof.
  induction l as [|m l IH]; intros b ms R; [eauto|]. cbn [attempts]. destruct (legal_dec ms m) as [L|L].
  - destruct (accept_legal b ms m R L) as (b' & E & R' & _). rewrite E. cbn [snd]. eauto.
  - rewrite (accept_illegal b ms m R L). cbn [snd]. eauto.
Qed.
Lemma board_rules : forall l, exists ms, played ms /\ shows (attempts reset l) ms /\
  forall m, let r := accept_move (attempts reset l) m in
    (fst r = true <-> legal ms m) /\ (fst r = true -> shows (snd r) (m :: ms)) /\ (fst r = false -> snd r = attempts reset l).
Proof.
  intro l. destruct (attempts_rep l reset [] rep_reset) as (ms & R). exists ms. split; [apply R|]. split; [apply R|].
  intro m. cbv zeta. destruct (legal_dec ms m) as [L|L].
  - destruct (accept_legal _ ms m R L) as (b' & E & R' & _). rewrite E. cbn [fst snd]. split; [tauto|]. split; [intros _; apply R'|discriminate].
  - rewrite (accept_illegal _ ms m R L). cbn [fst snd]. split; [split; [discriminate|contradiction]|]. split; [discriminate|reflexivity].
Qed.
Lemma undo_exact : forall l m b', accept_move (attempts reset l) m = (true, b') -> undo_move b' m = (true, attempts reset l).
Proof.
  intros l m b' E. destruct (attempts_rep l reset [] rep_reset) as (ms & R). destruct (legal_dec ms m) as [L|L].
  - destruct (accept_legal _ ms m R L) as (b'' & E' & _ & U & _). rewrite E in E'. injection E' as <-. exact U.
  - rewrite (accept_illegal _ ms m R L) in E. discriminate.
Qed.
