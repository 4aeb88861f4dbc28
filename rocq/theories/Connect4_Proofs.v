(** Proofs for C53: the connect-four board. *)

From Coq Require Import ZArith List Bool Lia ZifyBool.
From Verif Require Import Base Connect4_Model Connect4_Spec Connect4_Calls.
Import ListNotations.
Open Scope Z_scope.

(** ** Bit fields: w bits at position k *)
Definition fld (w k s : Z) : Z := (s / 2 ^ k) mod 2 ^ w.
Lemma pow_pos : forall k, 0 <= k -> 0 < 2 ^ k.
Proof. intros. apply Z.pow_pos_nonneg; lia. Qed.
Lemma fld_range : forall w k s, 0 <= w -> 0 <= fld w k s < 2 ^ w.
Proof. intros. unfold fld. apply Z.mod_pos_bound, pow_pos. lia. Qed.
(** Adding inside a field. *)
Lemma fld_add : forall w k s v, 0 <= w -> 0 <= k -> 0 <= v -> fld w k s + v < 2 ^ w -> fld w k (s + v * 2 ^ k) = fld w k s + v.
Proof.
  intros w k s v Hw Hk Hv H. unfold fld in *. pose proof (pow_pos k Hk). pose proof (pow_pos w Hw).
  rewrite Z.div_add by lia. rewrite <- Z.add_mod_idemp_l by lia. apply Z.mod_small.
  pose proof (Z.mod_pos_bound (s / 2 ^ k) (2 ^ w)). lia.
Qed.
Lemma fld_add_above : forall w k s v w' k', 0 <= w -> 0 <= k -> 0 <= v -> fld w k s + v < 2 ^ w -> k + w <= k' -> 0 <= w' ->
  fld w' k' (s + v * 2 ^ k) = fld w' k' s.
Proof.
  intros w k s v w' k' Hw Hk Hv H L Hw'. unfold fld in *. f_equal.
  pose proof (pow_pos k Hk). pose proof (pow_pos w Hw). pose proof (pow_pos (k' - k - w)).
  replace k' with (k + (w + (k' - k - w))) by lia. rewrite !Z.pow_add_r by lia.
  rewrite <- !Z.div_div by lia. f_equal. rewrite Z.div_add by lia.
  pose proof (Z.mod_pos_bound (s / 2 ^ k) (2 ^ w)).
  symmetry. apply Z.div_unique with ((s / 2 ^ k) mod 2 ^ w + v); [lia|]. pose proof (Z.div_mod (s / 2 ^ k) (2 ^ w)). lia.
Qed.
Lemma fld_add_below : forall k s v w' k', 0 <= k' -> 0 <= w' -> k' + w' <= k -> fld w' k' (s + v * 2 ^ k) = fld w' k' s.
Proof.
  intros k s v w' k' Hk' Hw' L. unfold fld. pose proof (pow_pos k' Hk'). pose proof (pow_pos w' Hw').
  replace k with ((k - k' - w') + w' + k') by lia. rewrite !Z.pow_add_r by lia.
  rewrite !Z.mul_assoc. rewrite Z.div_add by lia. apply Z.mod_add. lia.
Qed.
Lemma fld_land : forall w k s, 0 <= w -> 0 <= k -> Z.land (Z.shiftr s k) (Z.ones w) = fld w k s.
Proof. intros. unfold fld. rewrite Z.land_ones, Z.shiftr_div_pow2 by lia. reflexivity. Qed.
Lemma bit_fld : forall s k, 0 <= k -> Z.testbit s k = (fld 1 k s =? 1).
Proof.
  intros s k Hk. unfold fld. rewrite Z.testbit_odd, Z.shiftr_div_pow2 by lia. change (2 ^ 1) with 2. rewrite Zmod_odd.
  destruct (Z.odd (s / 2 ^ k)); reflexivity.
Qed.
Lemma mask_bit : forall n, 0 <= n -> Z.testbit (2 ^ 64 - 1) n = (n <? 64).
Proof. intros. change (2 ^ 64 - 1) with (Z.ones 64). apply Z.testbit_ones_nonneg; lia. Qed.
Lemma high_bit : forall s n, 0 <= s < 2 ^ 64 -> 64 <= n -> Z.testbit s n = false.
Proof.
  intros s n H Hn. destruct (Z.eq_dec s 0) as [->|N]; [apply Z.bits_0|]. apply Z.bits_above_log2; [lia|].
  apply Z.lt_le_trans with 64; [apply Z.log2_lt_pow2; lia|lia].
Qed.
Lemma one_bit : forall p n, p = 0 \/ p = 1 -> n <> 0 -> Z.testbit p n = false.
Proof. intros p n [->| ->] H; [apply Z.bits_0|]. destruct (Z_lt_dec n 0); [apply Z.testbit_neg_r; lia|]. change 1 with (2 ^ 0). apply Z.pow2_bits_false. lia. Qed.
(** Clearing a bit after setting it, when it was 0. *)
Lemma clear_bit : forall s k p, 0 <= k < 63 -> p = 0 \/ p = 1 -> 0 <= s < 2 ^ 64 -> fld 1 k s = 0 ->
  Z.land (Z.lor s (Z.shiftl p k)) (not_u64 (wrap_u64 (Z.shiftl 1 k))) = s.
Proof.
  intros s k p Hk Hp Hs F.
  assert (W : wrap_u64 (Z.shiftl 1 k) = Z.shiftl 1 k).
  { unfold wrap_u64. rewrite Z.shiftl_mul_pow2, Z.mul_1_l by lia. apply Z.mod_small. split; [apply Z.pow_nonneg; lia|apply Z.pow_lt_mono_r; lia]. }
  rewrite W. apply Z.bits_inj'. intros n Hn. unfold not_u64. rewrite Z.land_spec, Z.lor_spec, Z.lxor_spec, !Z.shiftl_spec, mask_bit by lia.
  destruct (Z.eq_dec n k) as [->|N].
  - rewrite bit_fld by lia. rewrite F, Z.sub_diag. replace (k <? 64) with true by lia. cbn. apply andb_false_r.
  - rewrite (one_bit p (n - k)), (one_bit 1 (n - k)) by (auto; lia). rewrite orb_false_r. cbn [xorb]. destruct (n <? 64) eqn:E; [apply andb_true_r|]. rewrite high_bit by lia. reflexivity.
Qed.
Lemma wrap_bit : forall k p, 0 <= k < 63 -> p = 0 \/ p = 1 -> wrap_u64 (Z.shiftl p k) = Z.shiftl p k.
Proof.
  intros k p Hk Hp. unfold wrap_u64. rewrite Z.shiftl_mul_pow2 by lia. apply Z.mod_small. pose proof (pow_pos k).
  assert (2 ^ k < 2 ^ 64) by (apply Z.pow_lt_mono_r; lia). destruct Hp as [->| ->]; lia.
Qed.
Lemma set_bit : forall s k p, 0 <= k < 63 -> p = 0 \/ p = 1 -> fld 1 k s = 0 -> Z.lor s (Z.shiftl p k) = s + p * 2 ^ k.
Proof.
  intros s k p Hk Hp F. assert (D : Z.land s (Z.shiftl p k) = 0).
  { apply Z.bits_inj'. intros n Hn. rewrite Z.land_spec, Z.shiftl_spec, Z.bits_0 by lia. destruct (Z.eq_dec n k) as [->|N].
    - rewrite bit_fld, F by lia. reflexivity.
    - rewrite (one_bit p (n - k)) by (auto; lia). apply andb_false_r. }
  rewrite <- Z.lxor_lor by exact D. rewrite <- Z.add_nocarry_lxor by exact D. rewrite Z.shiftl_mul_pow2 by lia. reflexivity.
Qed.

(** ** Cells *)
Lemma valid_iff : forall m, is_valid m = true <-> on_board m.
Proof. intros [r c]. unfold is_valid, on_board, row_count, col_count. cbn. lia. Qed.
Lemma same_eq : forall a b, same_cell a b = true <-> a = b.
Proof.
  intros [r c] [r' c']. unfold same_cell. cbn [fst snd]. rewrite andb_true_iff, !Z.eqb_eq. split; [intros (-> & ->); reflexivity|intro E; injection E; auto].
Qed.
Lemma same_refl : forall a, same_cell a a = true.
Proof. intro a. apply same_eq. reflexivity. Qed.
Lemma col_size_fld : forall b c, 0 <= c -> col_size b c = fld 3 (c * 3) (state b).
Proof. intros. unfold col_size, col_pos, sizes_pos, col_size_bit_count, col_size_mask. rewrite Z.add_0_l. apply (fld_land 3); lia. Qed.
Lemma bits_fld : forall b r c, 0 <= c -> 0 <= r -> get_move_bits b (r, c) = fld 1 (21 + c * 6 + r) (state b).
Proof. intros. unfold get_move_bits, move_pos, moves_pos, sizes_bit_count, col_count, col_size_bit_count, col_bit_count, row_count, move_bit_count, move_mask.
  replace (7 * 3 + c * (6 * 1) + r * 1) with (21 + c * 6 + r) by lia. apply (fld_land 1); lia. Qed.

(** ** The rules *)
Lemma turn_cases : forall n, turn n = 0 \/ turn n = 1.
Proof. induction n as [|n IH]; [left; reflexivity|]. cbn [turn]. destruct IH as [->| ->]; [right|left]; reflexivity. Qed.
Lemma owner_cases : forall ms m, owner ms m = 0 \/ owner ms m = 1 \/ owner ms m = 2.
Proof. induction ms as [|x ms IH]; intro m; cbn [owner]; [auto|]. destruct (same_cell m x); [destruct (turn_cases (length ms)); auto|apply IH]. Qed.
Lemma height_nonneg : forall ms c, 0 <= height ms c.
Proof. induction ms as [|x ms IH]; intro c; cbn [height]; [lia|]. specialize (IH c). destruct (snd x =? c); lia. Qed.
Lemma played_length : forall ms, played ms -> (length ms <= 42)%nat.
Proof. induction 1 as [|m ms P IH (_ & _ & N)]; cbn [length]; [lia|]. unfold finished in N. lia. Qed.
Lemma played_unfinished : forall ms, played ms -> ~ finished ms -> (length ms <= 41)%nat.
Proof. intros ms P N. apply played_length in P. unfold finished in N. lia. Qed.
(** The discs of a column fill it from below. *)
Lemma played_owner : forall ms, played ms -> forall r c, (owner ms (r, c) = 2 <-> ~ (0 <= r < height ms c)) .
Proof.
  induction 1 as [|m ms P IH ((B1 & B2) & H & _)]; intros r c; cbn [owner height].
  - unfold nobody. split; [lia|reflexivity].
  - destruct m as [rm cm]. cbn [fst snd] in *. unfold same_cell. cbn [fst snd].
    destruct ((r =? rm) && (c =? cm)) eqn:E.
    + assert (r = rm /\ c = cm) as (-> & ->) by lia. rewrite Z.eqb_refl. destruct (turn_cases (length ms)) as [T|T]; rewrite T; split; lia.
    + rewrite IH. destruct (cm =? c) eqn:E2; [|rewrite Z.add_0_l; reflexivity].
      assert (cm = c) by lia. subst cm. lia.
Qed.
Lemma played_height : forall ms, played ms -> forall c, height ms c <= 6.
Proof.
  induction 1 as [|m ms P IH ((B1 & B2) & H & _)]; intro c; cbn [height]; [lia|]. destruct (snd m =? c) eqn:E; [|rewrite Z.add_0_l; apply IH].
  apply Z.eqb_eq in E. rewrite E in H. lia.
Qed.
Lemma played_cols : forall ms, played ms -> forall c, ~ 0 <= c <= 6 -> height ms c = 0.
Proof.
  induction 1 as [|m ms P IH ((B1 & B2) & H & _)]; intros c N; cbn [height]; [reflexivity|]. rewrite IH by exact N. destruct (snd m =? c) eqn:E; lia.
Qed.
Lemma four_mono : forall ms m p, ~ four ms p -> four (m :: ms) p -> turn (length ms) = p /\
  exists dr dc j, In (dr, dc) directions /\ -3 <= j <= 0 /\ forall i, 0 <= i <= 3 -> owner (m :: ms) (fst m + (j + i) * dr, snd m + (j + i) * dc) = p.
Proof.
  intros ms m p N (r & c & dr & dc & D & H).
  assert (Ex : exists i0, 0 <= i0 <= 3 /\ same_cell (r + i0 * dr, c + i0 * dc) m = true).
  { destruct (same_cell (r + 0 * dr, c + 0 * dc) m) eqn:E0; [exists 0; auto with zarith|].
    destruct (same_cell (r + 1 * dr, c + 1 * dc) m) eqn:E1; [exists 1; auto with zarith|].
    destruct (same_cell (r + 2 * dr, c + 2 * dc) m) eqn:E2; [exists 2; auto with zarith|].
    destruct (same_cell (r + 3 * dr, c + 3 * dc) m) eqn:E3; [exists 3; auto with zarith|].
    exfalso. apply N. exists r, c, dr, dc. split; [exact D|]. intros i Hi. specialize (H i Hi). cbn [owner] in H.
    assert (i = 0 \/ i = 1 \/ i = 2 \/ i = 3) as [->|[->|[->| ->]]] by lia; [rewrite E0 in H|rewrite E1 in H|rewrite E2 in H|rewrite E3 in H]; exact H. }
  destruct Ex as (i0 & Hi0 & E). split.
  - specialize (H i0 Hi0). cbn [owner] in H. rewrite E in H. exact H.
  - apply same_eq in E. exists dr, dc, (- i0). split; [exact D|]. split; [lia|]. intros i Hi. rewrite <- (H i Hi). f_equal. rewrite <- E. cbn [fst snd]. f_equal; lia.
Qed.
Lemma four_window : forall ms p r c dr dc j, In (dr, dc) directions ->
  (forall i, 0 <= i <= 3 -> owner ms (r + (j + i) * dr, c + (j + i) * dc) = p) -> four ms p.
Proof.
  intros ms p r c dr dc j D H. exists (r + j * dr), (c + j * dc), dr, dc. split; [exact D|]. intros i Hi. rewrite <- (H i Hi). f_equal. f_equal; lia.
Qed.

(** ** Runs *)
Lemma run_spec : forall fuel f i n, (exists j, i <= j < i + Z.of_nat fuel /\ f j = false) ->
  exists k, run fuel f i n = Some (n + k) /\ 0 <= k /\ (forall j, i <= j < i + k -> f j = true) /\ f (i + k) = false.
Proof.
  induction fuel as [|fuel IH]; intros f i n (j & Hj & F); [lia|]. cbn [run]. destruct (f i) eqn:E.
  - assert (j <> i) by congruence. destruct (IH f (i + 1) (n + 1)) as (k & R & K0 & A & B); [exists j; split; [lia|exact F]|].
    exists (k + 1). rewrite R. split; [f_equal; lia|]. split; [lia|]. split.
    + intros x Hx. destruct (Z.eq_dec x i) as [->|]; [exact E|apply A; lia].
    + rewrite <- B. f_equal. lia.
  - exists 0. split; [f_equal; lia|]. split; [lia|]. split; [intros; lia|]. rewrite Z.add_0_r. exact E.
Qed.
(** Two runs in opposite directions from a cell, and four consecutive cells around it. *)
Lemma runs_window : forall (P : Z -> bool) a b, P 0 = true -> 0 <= a -> 0 <= b ->
  (forall j, 1 <= j < 1 + a -> P (- j) = true) -> P (- (1 + a)) = false ->
  (forall j, 1 <= j < 1 + b -> P j = true) -> P (1 + b) = false ->
  (3 <=? a + b) = true <-> exists j, -3 <= j <= 0 /\ forall i, 0 <= i <= 3 -> P (j + i) = true.
Proof.
  intros P a b P0 Ha Hb A A' B B'. split.
  - intro H. exists (- Z.min a 3). split; [lia|]. intros i Hi. set (x := - Z.min a 3 + i).
    destruct (Z_lt_dec x 0); [|destruct (Z.eq_dec x 0) as [->|]; [exact P0|]].
    + replace x with (- (- x)) by lia. apply A. lia.
    + apply B. lia.
  - intros (j & Hj & H). destruct (3 <=? a + b) eqn:E; [reflexivity|]. exfalso.
    destruct (Z_le_dec j (- (1 + a))) as [L|L].
    + specialize (H (- (1 + a) - j) ltac:(lia)). rewrite Zplus_minus in H. congruence.
    + specialize (H (1 + b - j) ltac:(lia)). rewrite Zplus_minus in H. congruence.
Qed.

(** ** The board *)
Lemma owner_off : forall ms m, played ms -> ~ on_board m -> owner ms m = 2.
Proof.
  intros ms [r c] P N. apply (played_owner ms P). unfold on_board in N. cbn [fst snd] in N. pose proof (played_height ms P c).
  destruct (Z_le_dec 0 c); [destruct (Z_le_dec c 6)|]; try (rewrite (played_cols ms P c) by lia); lia.
Qed.
(** What the packed state holds. *)
Definition packed (s : Z) (ms : list move) : Prop :=
  0 <= s < 2 ^ 63 /\ (forall c, 0 <= c <= 6 -> fld 3 (c * 3) s = height ms c) /\
  (forall r c, on_board (r, c) -> fld 1 (21 + c * 6 + r) s = if owner ms (r, c) =? 1 then 1 else 0).
Lemma get_owner : forall b ms, played ms -> packed (state b) ms -> forall m, on_board m -> get_move b m = owner ms m.
Proof.
  intros b ms P (_ & H & B) [r c] O. assert (O' := O). unfold on_board in O'. cbn [fst snd] in O'. unfold get_move. rewrite col_size_fld, H by lia.
  pose proof (played_owner ms P r c) as PO. pose proof (height_nonneg ms c).
  destruct ((height ms c =? 0) || (height ms c <=? r)) eqn:E.
  - symmetry. apply PO. lia.
  - rewrite bits_fld, B by (auto; lia). assert (owner ms (r, c) <> 2) by (rewrite PO; lia). destruct (owner_cases ms (r, c)) as [->|[->|]]; [reflexivity|reflexivity|contradiction].
Qed.
Lemma fld_63 : forall s, 0 <= s < 2 ^ 64 -> fld 1 63 s = 0 -> s < 2 ^ 63.
Proof.
  intros s H F. unfold fld in F. change (2 ^ 1) with 2 in F. assert (s / 2 ^ 63 < 2) by (apply Z.div_lt_upper_bound; [reflexivity|change (2 ^ 63 * 2) with (2 ^ 64); lia]).
  assert (0 <= s / 2 ^ 63) by (apply Z.div_pos; [lia|reflexivity]). rewrite Z.mod_small in F by lia. pose proof (Z.div_mod s (2 ^ 63)). pose proof (Z.mod_pos_bound s (2 ^ 63)). lia.
Qed.
Lemma fld_63_low : forall s, 0 <= s < 2 ^ 63 -> fld 1 63 s = 0.
Proof. intros s H. unfold fld. rewrite Z.div_small by lia. reflexivity. Qed.
(** The state with one more disc. *)
Lemma packed_move : forall s ms r c, packed s ms -> played ms -> on_board (r, c) -> r = height ms c ->
  let s1 := s + 1 * 2 ^ (c * 3) in let k := 21 + c * 6 + r in
  s1 < 2 ^ 64 /\ fld 1 k s = 0 /\ fld 1 k s1 = 0 /\ packed (s1 + turn (length ms) * 2 ^ k) ((r, c) :: ms).
Proof.
  intros s ms r c (R & H & B) P O Hr s1 k. assert (O' := O). unfold on_board in O'. cbn [fst snd] in O'.
  set (p := turn (length ms)). assert (Hp : p = 0 \/ p = 1) by apply turn_cases.
  assert (F0 : fld 1 k s = 0).
  { unfold k. rewrite B by exact O. replace (owner ms (r, c)) with 2; [reflexivity|]. symmetry. apply (played_owner ms P). lia. }
  assert (Fc : fld 3 (c * 3) s + 1 < 2 ^ 3) by (rewrite H by lia; change (2 ^ 3) with 8; lia).
  assert (up : forall w' k', 21 <= k' -> 0 <= w' -> fld w' k' s1 = fld w' k' s) by (intros w' k' L W; unfold s1; apply (fld_add_above 3); lia).
  assert (F1 : fld 1 k s1 = 0) by (rewrite up; [exact F0|unfold k; lia|lia]).
  assert (Fk : fld 1 k s1 + p < 2 ^ 1) by (rewrite F1; change (2 ^ 1) with 2; lia).
  assert (K : 0 < 2 ^ (c * 3) <= 2 ^ 18) by (split; [apply pow_pos; lia|apply Z.pow_le_mono_r; lia]).
  assert (K2 : 0 < 2 ^ k <= 2 ^ 62) by (split; [apply pow_pos; unfold k; lia|apply Z.pow_le_mono_r; unfold k; lia]).
  assert (Q1 : s1 < 2 ^ 63).
  { apply fld_63; [unfold s1; change (2 ^ 64) with (2 ^ 63 + 2 ^ 63); change (2 ^ 18) with 262144 in K; lia|]. rewrite up by lia. apply fld_63_low, R. }
  split; [change (2 ^ 64) with (2 ^ 63 + 2 ^ 63); lia|]. split; [exact F0|]. split; [exact F1|]. split; [|split].
  - assert (0 <= s1) by (unfold s1; lia). split; [destruct Hp as [->| ->]; lia|]. apply fld_63.
    + change (2 ^ 64) with (2 ^ 63 + 2 ^ 63). assert (2 ^ 62 < 2 ^ 63) by reflexivity. destruct Hp as [->| ->]; lia.
    + rewrite (fld_add_above 1) by (auto; unfold k; lia). apply fld_63_low. lia.
  - intros c' Hc'. rewrite fld_add_below by (unfold k; lia). cbn [height snd]. unfold s1. destruct (c =? c') eqn:E.
    + assert (c' = c) by lia. subst c'. rewrite fld_add by lia. rewrite H by lia. lia.
    + destruct (Z_lt_dec c c'); [rewrite (fld_add_above 3) by lia|rewrite fld_add_below by lia]; rewrite H by lia; lia.
  - intros r' c' O2. assert (O2' := O2). unfold on_board in O2'. cbn [fst snd] in O2'. cbn [owner]. unfold same_cell. cbn [fst snd].
    destruct ((r' =? r) && (c' =? c)) eqn:E.
    + assert (r' = r /\ c' = c) as (-> & ->) by lia. fold k. rewrite fld_add by (auto; unfold k; lia). rewrite F1. fold p. destruct Hp as [->| ->]; reflexivity.
    + rewrite <- B by exact O2. rewrite <- (up 1 (21 + c' * 6 + r')) by lia.
      destruct (Z_lt_dec k (21 + c' * 6 + r')); [apply (fld_add_above 1); auto; unfold k in *; lia|]. apply fld_add_below; unfold k in *; try lia.
Qed.

Definition rep (b : board) (ms : list move) : Prop := shows b ms /\ played ms /\ packed (state b) ms.

(** ** The check after a move *)
Section check.
Variables (b : board) (ms : list move) (r c : Z).
Hypothesis (P : played ((r, c) :: ms)) (Pk : packed (state b) ((r, c) :: ms)) (Cu : current b = turn (length ms)).
Let p := turn (length ms).
Let Q (dr dc i : Z) : bool := owner ((r, c) :: ms) (r + i * dr, c + i * dc) =? p.
Lemma on : on_board (r, c) /\ r = height ms c /\ ~ finished ms.
Proof. inversion P; subst. assumption. Qed.
Lemma p_cases : p = 0 \/ p = 1.
Proof. apply turn_cases. Qed.
Lemma test_eq : forall bb x, (bb = true <-> on_board x) -> bb && has_move b (current b) x = (owner ((r, c) :: ms) x =? p).
Proof.
  intros bb x H. unfold has_move. rewrite Cu. fold p. destruct bb.
  - rewrite (get_owner b _ P Pk) by (apply H; reflexivity). reflexivity.
  - rewrite (owner_off _ x P); [|intro O; apply H in O; discriminate]. destruct p_cases as [->| ->]; reflexivity.
Qed.
Lemma run_dir : forall f dr dc, (forall i, 1 <= i -> f i = Q dr dc i) -> -1 <= dr <= 1 -> -1 <= dc <= 1 -> dr <> 0 \/ dc <> 0 ->
  exists k, run run_fuel f 1 0 = Some k /\ 0 <= k /\ (forall j, 1 <= j < 1 + k -> Q dr dc j = true) /\ Q dr dc (1 + k) = false.
Proof.
  intros f dr dc F D1 D2 D0. destruct (run_spec run_fuel f 1 0) as (k & R & K & A & B).
  - exists 7. split; [unfold run_fuel; lia|]. rewrite F by lia. unfold Q. rewrite (owner_off _ _ P).
    + destruct p_cases as [->| ->]; reflexivity.
    + destruct on as (O & _). unfold on_board in *. cbn [fst snd] in *. nia.
  - exists k. split; [exact R|]. split; [exact K|]. split; [|rewrite <- B; symmetry; apply F; lia]. intros j Hj. rewrite <- F by lia. apply A, Hj.
Qed.
Lemma Q_0 : forall dr dc, Q dr dc 0 = true.
Proof. intros. unfold Q. cbn [owner]. rewrite !Z.mul_0_l, !Z.add_0_r, same_refl. apply Z.eqb_refl. Qed.
Lemma Q_neg : forall dr dc j, Q (- dr) (- dc) j = Q dr dc (- j).
Proof. intros. unfold Q. f_equal. f_equal. f_equal; ring. Qed.
Definition window (dr dc : Z) : Prop := exists j, -3 <= j <= 0 /\ forall i, 0 <= i <= 3 -> Q dr dc (j + i) = true.
Lemma line : forall dr dc f g, (forall i, 1 <= i -> f i = Q (- dr) (- dc) i) -> (forall i, 1 <= i -> g i = Q dr dc i) ->
  -1 <= dr <= 1 -> -1 <= dc <= 1 -> dr <> 0 \/ dc <> 0 ->
  exists a b, run run_fuel f 1 0 = Some a /\ run run_fuel g 1 0 = Some b /\ ((3 <=? a + b) = true <-> window dr dc).
Proof.
  intros dr dc f g F G D1 D2 D0. destruct (run_dir f (- dr) (- dc) F) as (a & R1 & K1 & A1 & B1); try lia.
  destruct (run_dir g dr dc G) as (b' & R2 & K2 & A2 & B2); try lia. exists a, b'. split; [exact R1|]. split; [exact R2|].
  apply (runs_window (Q dr dc)); auto.
  - apply Q_0.
  - intros j Hj. rewrite <- Q_neg. apply A1, Hj.
  - rewrite <- Q_neg. exact B1.
Qed.
Lemma above_free : Q 1 0 1 = false.
Proof.
  unfold Q. destruct on as (O & H & _). replace (owner ((r, c) :: ms) (r + 1 * 1, c + 1 * 0)) with 2; [destruct p_cases as [->| ->]; reflexivity|].
  symmetry. apply (played_owner _ P). cbn [height snd]. rewrite Z.mul_0_r, Z.add_0_r, Z.eqb_refl. lia.
Qed.
Lemma windows_four : four ((r, c) :: ms) p <-> window 0 1 \/ window 1 0 \/ window 1 1 \/ window 1 (-1).
Proof.
  split.
  - intro F. destruct (four_mono ms (r, c) p) as (_ & dr & dc & j & D & J & H).
    + intro F'. destruct on as (_ & _ & NF). apply NF. unfold finished. destruct p_cases as [E|E]; rewrite E in F'; auto.
    + exact F.
    + assert (W : window dr dc). { exists j. split; [exact J|]. intros i Hi. apply Z.eqb_eq. exact (H i Hi). }
      unfold directions in D. cbn [In] in D. destruct D as [D|[D|[D|[D|[]]]]]; injection D as <- <-; tauto.
  - assert (G : forall dr dc, In (dr, dc) directions -> window dr dc -> four ((r, c) :: ms) p).
    { intros dr dc D (j & J & H). apply (four_window _ p r c dr dc j D). intros i Hi. apply Z.eqb_eq. exact (H i Hi). }
    unfold directions in G. cbn [In] in G. intros [W|[W|[W|W]]]; [apply (G 0 1)|apply (G 1 0)|apply (G 1 1)|apply (G 1 (-1))]; auto 6.
Qed.
Lemma check_eq : exists win : bool, (win = true <-> four ((r, c) :: ms) p) /\
  check_winner b (r, c) = Some (if win then {| over := true; winner := current b; current := current b; state := state b; count := count b |}
    else if count b =? 42 then {| over := true; winner := p_none; current := current b; state := state b; count := count b |} else b).
Proof.
  unfold check_winner. destruct on as ((O1 & O2) & _). cbn [fst snd] in *. unfold row_count, col_count.
  destruct (line 0 1 (fun i => (0 <=? c - i) && has_move b (current b) (r, c - i)) (fun i => (c + i <? 7) && has_move b (current b) (r, c + i))) as (a1 & b1 & -> & -> & W1); try lia.
  { intros i Hi. unfold Q. replace (r + i * - (0), c + i * - (1)) with (r, c - i) by (f_equal; lia). apply test_eq. unfold on_board. cbn [fst snd]. lia. }
  { intros i Hi. unfold Q. replace (r + i * 0, c + i * 1) with (r, c + i) by (f_equal; lia). apply test_eq. unfold on_board. cbn [fst snd]. lia. }
  destruct (run_dir (fun i => (0 <=? r - i) && has_move b (current b) (r - i, c)) (-1) 0) as (a2 & -> & K2 & A2 & B2); try lia.
  { intros i Hi. unfold Q. replace (r + i * -1, c + i * 0) with (r - i, c) by (f_equal; lia). apply test_eq. unfold on_board. cbn [fst snd]. lia. }
  assert (W2 : (3 <=? a2) = true <-> window 1 0).
  { replace a2 with (a2 + 0) at 1 by lia. apply (runs_window (Q 1 0)); auto; try lia.
    - apply Q_0.
    - intros j Hj. rewrite <- Q_neg. apply A2, Hj.
    - rewrite <- Q_neg. exact B2.
    - apply above_free. }
  destruct (line 1 1 (fun i => (0 <=? r - i) && (0 <=? c - i) && has_move b (current b) (r - i, c - i)) (fun i => (r + i <? 6) && (c + i <? 7) && has_move b (current b) (r + i, c + i))) as (a3 & b3 & -> & -> & W3); try lia.
  { intros i Hi. unfold Q. replace (r + i * - (1), c + i * - (1)) with (r - i, c - i) by (f_equal; lia). apply test_eq. unfold on_board. cbn [fst snd]. lia. }
  { intros i Hi. unfold Q. replace (r + i * 1, c + i * 1) with (r + i, c + i) by (f_equal; lia). apply test_eq. unfold on_board. cbn [fst snd]. lia. }
  destruct (line 1 (-1) (fun i => (0 <=? r - i) && (c + i <? 7) && has_move b (current b) (r - i, c + i)) (fun i => (r + i <? 6) && (0 <=? c - i) && has_move b (current b) (r + i, c - i))) as (a4 & b4 & -> & -> & W4); try lia.
  { intros i Hi. unfold Q. replace (r + i * - (1), c + i * - (-1)) with (r - i, c + i) by (f_equal; lia). apply test_eq. unfold on_board. cbn [fst snd]. lia. }
  { intros i Hi. unfold Q. replace (r + i * 1, c + i * -1) with (r + i, c - i) by (f_equal; lia). apply test_eq. unfold on_board. cbn [fst snd]. lia. }
  eexists. split; [|reflexivity]. rewrite !orb_true_iff, W1, W2, W3, W4, windows_four. tauto.
Qed.
End check.

Lemma opponent_turn : forall n, opponent (turn n) = turn (S n).
Proof. intro n. cbn [turn]. destruct (turn_cases n) as [->| ->]; reflexivity. Qed.
Lemma over_false : forall b ms, shows b ms -> over b = false <-> ~ finished ms.
Proof. intros b ms S. rewrite <- (shows_over _ _ S). destruct (over b); split; congruence. Qed.
Lemma current_turn : forall b ms, shows b ms -> ~ finished ms -> current b = turn (length ms).
Proof. intros b ms S N. rewrite (shows_current _ _ S). apply (over_false b ms S) in N. rewrite N. reflexivity. Qed.
Lemma winner_none : forall b ms, shows b ms -> ~ finished ms -> winner b = p_none.
Proof. intros b ms S N. apply (shows_nobody _ _ S). unfold finished in N. tauto. Qed.
Lemma wrap_count : forall n, (n <= 42)%nat -> wrap_u32 (Z.of_nat n) = Z.of_nat n.
Proof. intros n H. unfold wrap_u32. apply Z.mod_small. change (2 ^ 32) with 4294967296. lia. Qed.

Lemma four_nil : forall p, p = 0 \/ p = 1 -> ~ four [] p.
Proof. intros p Hp (r & c & dr & dc & _ & H). specialize (H 0 ltac:(lia)). cbn in H. unfold nobody in H. lia. Qed.
Lemma reset_rep : rep reset [].
Proof.
  split; [|split; [constructor|]].
  - constructor; try reflexivity.
    + intros [r c] O. unfold get_move, col_size. cbn [state reset]. rewrite Z.shiftr_0_l. reflexivity.
    + intros c' _. unfold col_size. cbn [state reset]. rewrite Z.shiftr_0_l. reflexivity.
    + split; [discriminate|]. intros [T|[T|T]]; [destruct (four_nil 0 (or_introl eq_refl) T)|destruct (four_nil 1 (or_intror eq_refl) T)|discriminate].
    + intros p Hp. cbn. split; [unfold p_none; lia|intro T; destruct (four_nil p Hp T)].
    + cbn. split; [|reflexivity]. intros _. split; apply four_nil; auto.
  - cbn [state reset]. split; [lia|]. unfold fld. split; intros; rewrite Zdiv_0_l, Zmod_0_l; reflexivity.
Qed.

Lemma accept_legal : forall b ms m, rep b ms -> legal ms m ->
  exists b', accept_move b m = Some (true, b') /\ rep b' (m :: ms) /\ undo_move b' m = (true, b).
Proof.
  intros b ms [r c] (S & P & Pk) Lg. assert (Lg' := Lg). destruct Lg' as (O & H & NF). cbn [fst snd] in H.
  assert (O' := O). unfold on_board in O'. cbn [fst snd] in O'.
  assert (Ov := proj2 (over_false b ms S) NF). assert (Cu := current_turn b ms S NF). assert (Wn := winner_none b ms S NF).
  assert (Len := played_unfinished ms P NF). assert (Ct := shows_count _ _ S).
  assert (PO := played_owner ms P). pose proof (height_nonneg ms c) as Hn.
  assert (P1 : played ((r, c) :: ms)) by (constructor; assumption).
  destruct (packed_move (state b) ms r c Pk P O H) as (Q1 & F0 & F1 & Pk1). set (p := turn (length ms)) in *.
  assert (Hp : p = 0 \/ p = 1) by apply turn_cases.
  set (s1 := state b + 1 * 2 ^ (c * 3)) in *. set (k := 21 + c * 6 + r) in *.
  assert (Kr : 0 <= k < 63) by (unfold k; lia).
  assert (Rs := proj1 Pk). pose proof (pow_pos (c * 3)) as Kp.
  assert (Es1 : wrap_u64 (state b + Z.shiftl 1 (col_pos c)) = s1).
  { unfold col_pos, sizes_pos, col_size_bit_count. rewrite Z.add_0_l, Z.shiftl_mul_pow2 by lia. apply Z.mod_small. unfold s1 in *. lia. }
  assert (Ek : move_pos (r, c) = k).
  { unfold move_pos, moves_pos, sizes_bit_count, col_count, col_size_bit_count, col_bit_count, row_count, move_bit_count, k. lia. }
  assert (R1 : 0 <= s1 < 2 ^ 64) by (unfold s1 in *; lia).
  assert (Eb1 : set_move b (r, c) = {| over := over b; winner := winner b; current := p; state := s1 + p * 2 ^ k; count := count b + 1 |}).
  { unfold set_move. cbn [snd]. unfold inc_col_size. rewrite Es1. unfold set_move_bits, clear_move_bits, set_state, set_count. cbn [state current count over winner].
    rewrite Cu, Ek. unfold move_mask. assert (Cl := clear_bit s1 k 0 Kr (or_introl eq_refl) R1 F1). rewrite Z.shiftl_0_l, Z.lor_0_r in Cl. rewrite Cl.
    rewrite (wrap_bit k p Kr Hp), (set_bit s1 k p Kr Hp F1). rewrite Ct. replace (Z.of_nat (length ms) + 1) with (Z.of_nat (Datatypes.S (length ms))) by lia.
    rewrite wrap_count by lia. reflexivity. }
  assert (Fr : get_move b (r, c) = p_none) by (rewrite (shows_cells _ _ S) by exact O; apply PO; lia).
  assert (Air : (0 <? r) && (get_move b (r - 1, c) =? p_none) = false).
  { destruct (0 <? r) eqn:E; [|reflexivity]. cbn [andb]. rewrite (shows_cells _ _ S) by (unfold on_board; cbn [fst snd]; lia).
    apply Z.eqb_neq. intro E2. apply PO in E2. lia. }
  set (b1 := set_move b (r, c)) in *.
  assert (Pk1' : packed (state b1) ((r, c) :: ms)) by (rewrite Eb1; exact Pk1).
  assert (Cu1 : current b1 = turn (length ms)) by (rewrite Eb1; reflexivity).
  destruct (check_eq b1 ms r c P1 Pk1' Cu1) as (win & W & Ec). fold p in W.
  assert (E : accept_move b (r, c) = Some (true, if negb (over (if win then {| over := true; winner := current b1; current := current b1; state := state b1; count := count b1 |}
    else if count b1 =? 42 then {| over := true; winner := p_none; current := current b1; state := state b1; count := count b1 |} else b1))
    then switch (if win then {| over := true; winner := current b1; current := current b1; state := state b1; count := count b1 |}
    else if count b1 =? 42 then {| over := true; winner := p_none; current := current b1; state := state b1; count := count b1 |} else b1)
    else (if win then {| over := true; winner := current b1; current := current b1; state := state b1; count := count b1 |}
    else if count b1 =? 42 then {| over := true; winner := p_none; current := current b1; state := state b1; count := count b1 |} else b1))).
  { unfold accept_move. rewrite (proj2 (valid_iff (r, c)) O), Ov, Fr, Air. cbn [negb]. rewrite Z.eqb_refl. cbn [negb]. fold b1. rewrite Ec. reflexivity. }
  assert (D9 : (count b1 =? 42) = (length ms =? 41)%nat) by (rewrite Eb1; cbn [count]; rewrite Ct; lia).
  rewrite D9 in E. rewrite Eb1 in E. cbn [over winner current state count] in E.
  assert (NT : forall q, q = 0 \/ q = 1 -> q <> p -> ~ four ((r, c) :: ms) q).
  { intros q Hq Nq F. apply four_mono in F; [destruct F as (F & _); apply Nq; symmetry; exact F|].
    intro F'. apply NF. unfold finished. destruct Hq as [->| ->]; auto. }
  (* undoing *)
  assert (U : forall ov w cu, cu = (if ov : bool then p else opponent p) ->
     undo_move {| over := ov; winner := w; current := cu; state := s1 + p * 2 ^ k; count := count b + 1 |} (r, c) = (true, b)).
  { intros ov w cu ->. unfold undo_move. rewrite (proj2 (valid_iff (r, c)) O). cbn [negb].
    assert (A : (r <? row_count - 1) && negb (get_move {| over := ov; winner := w; current := if ov then p else opponent p; state := s1 + p * 2 ^ k; count := count b + 1 |} (r + 1, c) =? p_none) = false).
    { destruct (r <? row_count - 1) eqn:E5; [|reflexivity]. unfold row_count in E5. cbn [andb].
      rewrite (get_owner _ ((r, c) :: ms) P1); [|exact Pk1|unfold on_board; cbn [fst snd]; lia].
      replace (owner ((r, c) :: ms) (r + 1, c)) with 2; [reflexivity|]. symmetry. apply (played_owner _ P1). cbn [height snd]. rewrite Z.eqb_refl. lia. }
    rewrite A. cbn [over].
    assert (Cl : wrap_u64 (s1 + p * 2 ^ k - Z.shiftl 1 (col_pos c)) = state b + p * 2 ^ k).
    { unfold col_pos, sizes_pos, col_size_bit_count. rewrite Z.add_0_l, Z.shiftl_mul_pow2 by lia.
      replace (s1 + p * 2 ^ k - 1 * 2 ^ (c * 3)) with (state b + p * 2 ^ k) by (unfold s1; lia). apply Z.mod_small.
      pose proof (proj1 Pk1) as R2. pose proof (pow_pos k). assert (2 ^ 63 < 2 ^ 64) by reflexivity. unfold s1 in R2. destruct Hp as [Ep|Ep]; rewrite Ep in *; lia. }
    assert (Cn : wrap_u32 (count b + 1 - 1) = count b) by (rewrite Z.add_simpl_r, Ct; apply wrap_count; lia).
    destruct ov; cbn [negb]; unfold switch, clear_move, dec_col_size, clear_move_bits, set_state, set_count; cbn [snd over winner current state count];
      rewrite Cl, Cn, Ek; unfold move_mask; rewrite <- (set_bit (state b) k p Kr Hp F0), (clear_bit (state b) k p Kr Hp) by (auto; assert (2 ^ 63 < 2 ^ 64) by reflexivity; lia);
      [|unfold p; rewrite opponent_turn; replace (opponent (turn (Datatypes.S (length ms)))) with p by (cbn [turn]; fold p; destruct Hp as [->| ->]; reflexivity)];
      destruct b; cbn in *; subst; reflexivity. }
  assert (Cells : forall b', state b' = s1 + p * 2 ^ k -> (forall m, on_board m -> get_move b' m = owner ((r, c) :: ms) m) /\ (forall c', 0 <= c' <= 6 -> col_size b' c' = height ((r, c) :: ms) c')).
  { intros b' Eb'. split.
    - apply get_owner; [exact P1|]. rewrite Eb'. exact Pk1.
    - intros c' Hc'. rewrite col_size_fld, Eb' by lia. apply Pk1, Hc'. }
  assert (TX : forall q, q = 0 \/ q = 1 -> {q = p} + {q <> p}) by (intros; apply Z.eq_dec).
  destruct win.
  - cbn [over negb] in E. assert (F4 := proj1 W eq_refl). eexists. split; [exact E|]. split; [|apply U; reflexivity].
    split; [|split; [exact P1|exact Pk1]]. constructor; cbn [over winner current count].
    + apply Cells. reflexivity.
    + apply Cells. reflexivity.
    + rewrite Ct. cbn [length]. lia.
    + split; [intros _|reflexivity]. unfold finished. destruct Hp as [Ep|Ep]; rewrite Ep in F4; auto.
    + intros q Hq. split; [intros <-; exact F4|]. intro T. destruct (TX q Hq) as [->|N]; [reflexivity|destruct (NT q Hq N T)].
    + split; [unfold nobody; lia|]. intros (N1 & N2). destruct Hp as [Ep|Ep]; rewrite Ep in F4; contradiction.
    + cbn [length]. rewrite Nat.sub_succ, Nat.sub_0_r. reflexivity.
  - assert (N4 : ~ four ((r, c) :: ms) p) by (rewrite <- W; discriminate).
    assert (NX : forall q, q = 0 \/ q = 1 -> ~ four ((r, c) :: ms) q) by (intros q Hq; destruct (TX q Hq) as [->|N]; [exact N4|exact (NT q Hq N)]).
    destruct (length ms =? 41)%nat eqn:E9.
    + cbn [over negb] in E. eexists. split; [exact E|]. split; [|apply U; reflexivity].
      split; [|split; [exact P1|exact Pk1]]. constructor; cbn [over winner current count].
      * apply Cells. reflexivity.
      * apply Cells. reflexivity.
      * rewrite Ct. cbn [length]. lia.
      * split; [intros _|reflexivity]. right; right. cbn [length]. lia.
      * intros q Hq. split; [unfold p_none; lia|]. intro T. destruct (NX q Hq T).
      * split; [intros _|reflexivity]. split; apply NX; auto.
      * cbn [length]. rewrite Nat.sub_succ, Nat.sub_0_r. reflexivity.
    + cbn [over] in E. rewrite Ov in E. cbn [negb] in E. unfold switch in E. cbn [over winner current state count] in E.
      assert (NF1 : ~ finished ((r, c) :: ms)) by (intros [T|[T|T]]; [exact (NX 0 (or_introl eq_refl) T)|exact (NX 1 (or_intror eq_refl) T)|cbn [length] in T; lia]).
      eexists. split; [exact E|]. split; [|apply U; reflexivity].
      split; [|split; [exact P1|exact Pk1]]. constructor; cbn [over winner current count].
      * apply Cells. reflexivity.
      * apply Cells. reflexivity.
      * rewrite Ct. cbn [length]. lia.
      * split; [discriminate|contradiction].
      * rewrite Wn. intros q Hq. split; [unfold p_none; lia|]. intro T. destruct (NX q Hq T).
      * rewrite Wn. split; [intros _|reflexivity]. split; apply NX; auto.
      * apply opponent_turn.
Qed.
Lemma legal_dec : forall b ms m, shows b ms -> legal ms m \/ ~ legal ms m.
Proof.
  intros b ms m S. unfold legal. destruct (is_valid m) eqn:V; [apply valid_iff in V|right; intros (O & _); apply valid_iff in O; congruence].
  destruct (Z.eq_dec (fst m) (height ms (snd m))); [|tauto]. destruct (over b) eqn:Ov.
  - apply (shows_over _ _ S) in Ov. tauto.
  - apply (over_false b ms S) in Ov. tauto.
Qed.
Lemma accept_illegal : forall b ms m, rep b ms -> ~ legal ms m -> accept_move b m = Some (false, b).
Proof.
  intros b ms [r c] (S & P & _) N. unfold accept_move. destruct (is_valid (r, c)) eqn:V; [|reflexivity]. cbn [negb]. apply valid_iff in V.
  assert (V' := V). unfold on_board in V'. cbn [fst snd] in V'.
  destruct (over b) eqn:Ov; [reflexivity|]. apply (over_false b ms S) in Ov.
  rewrite (shows_cells _ _ S (r, c) V). destruct (owner ms (r, c) =? p_none) eqn:E; [|reflexivity]. cbn [negb]. apply Z.eqb_eq in E. apply (played_owner ms P) in E.
  pose proof (height_nonneg ms c).
  destruct (0 <? r) eqn:E0; cbn [andb].
  - rewrite (shows_cells _ _ S) by (unfold on_board; cbn [fst snd]; lia). destruct (owner ms (r - 1, c) =? p_none) eqn:E2; [reflexivity|].
    exfalso. apply N. split; [exact V|]. split; [|exact Ov]. cbn [fst snd]. apply Z.eqb_neq in E2.
    assert (~ ~ (0 <= r - 1 < height ms c)) by (rewrite <- (played_owner ms P); exact E2). lia.
  - exfalso. apply N. split; [exact V|]. split; [|exact Ov]. cbn [fst snd]. lia.
Qed.
Lemma attempts_rep : forall l b ms, rep b ms -> exists b' ms', attempts b l = Some b' /\ rep b' ms'.
Proof.
  induction l as [|m l IH]; intros b ms R; [eexists _, _; split; [reflexivity|exact R]|]. cbn [attempts]. destruct (legal_dec b ms m (proj1 R)) as [L|L].
  - destruct (accept_legal b ms m R L) as (b' & -> & R' & _). eapply IH, R'.
  - rewrite (accept_illegal b ms m R L). eapply IH, R.
Qed.
Lemma board_rules : forall l, exists b ms, attempts reset l = Some b /\ played ms /\ shows b ms /\
  forall m, exists ok b', accept_move b m = Some (ok, b') /\ (ok = true <-> legal ms m) /\ (if ok then shows b' (m :: ms) else b' = b).
Proof.
  intro l. destruct (attempts_rep l reset [] reset_rep) as (b & ms & E & R). exists b, ms. split; [exact E|]. split; [apply R|]. split; [apply R|].
  intro m. destruct (legal_dec b ms m (proj1 R)) as [L|L].
  - destruct (accept_legal _ ms m R L) as (b' & E' & R' & _). exists true, b'. split; [exact E'|]. split; [tauto|apply R'].
  - rewrite (accept_illegal _ ms m R L). exists false, b. split; [reflexivity|]. split; [split; [discriminate|contradiction]|reflexivity].
Qed.
Lemma undo_exact : forall l b m b', attempts reset l = Some b -> accept_move b m = Some (true, b') -> undo_move b' m = (true, b).
Proof.
  intros l b m b' El E. destruct (attempts_rep l reset [] reset_rep) as (b0 & ms & E0 & R). rewrite El in E0. injection E0 as <-.
  destruct (legal_dec b ms m (proj1 R)) as [L|L].
  - destruct (accept_legal _ ms m R L) as (b'' & E' & _ & U). rewrite E in E'. injection E' as <-. exact U.
  - rewrite (accept_illegal _ ms m R L) in E. discriminate.
Qed.
