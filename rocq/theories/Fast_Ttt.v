(** Proofs for C99-C101, tic-tac-toe: the fast engine on the board, what learning does, and what sessions keep. *)

From Coq Require Import ZArith List Bool Lia.
From Verif Require Import Base Fast_Model Fast_Spec Fast_Pick.
From Verif Require Import Ttt_Model Ttt_Spec Ttt_Calls Ttt_Proofs Ttt_Engine.
Import ListNotations.
Open Scope Z_scope.
Local Arguments Z.add : simpl never.
Local Arguments Z.sub : simpl never.
Local Arguments Z.mul : simpl never.

(** ** Tic-tac-toe: the choice *)
Definition open (ms : list move) (m : move) : bool := is_valid m && (owner ms m =? 0).
Lemma at_rep : forall ms, played ms -> rep (t_at ms) ms.
Proof. intros ms P. apply played_rep. exact P. Qed.
Lemma open_legal : forall ms m, ~ finished ms -> open ms m = true <-> legal ms m.
Proof.
  intros ms m N. unfold open. rewrite andb_true_iff, Z.eqb_eq, valid_iff, owner_free. unfold legal. tauto.
Qed.
Lemma in_cells : forall m, In m cells <-> on_board m.
Proof. intros m. split; [apply cells_board|apply cells_all]. Qed.
Lemma free_eq : forall ms, t_free ms = filter (open ms) cells.
Proof. reflexivity. Qed.
Lemma free_in : forall ms m, ~ finished ms -> In m (t_free ms) <-> legal ms m.
Proof.
  intros ms m N. rewrite free_eq, filter_In, in_cells, (open_legal ms m N). unfold legal. tauto.
Qed.
Lemma nodup : NoDup cells.
Proof. unfold cells. repeat (constructor; [simpl; intros H; repeat destruct H as [H|H]; try discriminate; exact H|]). constructor. Qed.
Lemma idx : forall m, on_board m -> (Z.to_nat (fst m * 3 + snd m) < 9)%nat /\ Z.of_nat (Z.to_nat (fst m * 3 + snd m)) = fst m * 3 + snd m.
Proof. intros [r c] [H1 H2]. simpl in *. lia. Qed.
Lemma score_range : forall k ms m, t_known k -> on_board m -> score_ok 1 20 (t_score k ms m).
Proof.
  intros k ms m K B. unfold t_score, score. destruct (find k (t_key ms)) as [v|] eqn:F; [|left; reflexivity].
  destruct (proj1 (Forall_forall _ _) K _ (find_in _ _ _ F)) as [L R]. simpl in *. apply (proj1 (Forall_forall _ _) R). apply nth_In. rewrite L. apply idx. exact B.
Qed.
Lemma open_ok : forall k ms, t_known k -> forall m, open ms m = true -> score_ok t_min t_max (t_score k ms m).
Proof. intros k ms K m O. apply score_range; [exact K|]. unfold open in O. apply andb_prop in O. destruct O as [O _]. apply valid_iff. exact O. Qed.
Lemma range : 1 <= t_min /\ t_min < t_mid /\ t_mid < t_max.
Proof. unfold t_min, t_mid, t_max. lia. Qed.
Definition all9 (t : tally) : bool := min_count t =? row_count * col_count.
Definition move9 (i : Z) : move := (Z.quot i col_count, Z.rem i col_count).
Notation choice k ms := (fast_pick t_max t_mid t_min cells (open ms) (t_score k ms) all9 move9).
Lemma fast_eq : forall room k ms rand, played ms -> t_known k -> available room k (t_key ms) ->
  exists k', t_fast room k (t_at ms) rand = (choice k ms rand, k') /\ t_known k' /\ forall key i, 0 <= i < 9 -> score k' key i = score k key i.
Proof.
  intros room k ms rand P K A. destruct (at_rep ms P) as [S _]. apply (ensure_available room 9) in A. destruct A as (v & k' & E).
  destruct (ensure_ok room 9 20 k (t_key ms) v k' K E) as (_ & K' & _ & V & Sc). exists k'. unfold t_fast. fold (t_key ms). rewrite E.
  split; [|split; [exact K'|intros key i Hi; apply Sc; lia]]. f_equal. apply fast_pick_ext. intros m I. apply in_cells in I. split.
  - unfold open. rewrite (proj2 (valid_iff m) I). simpl. rewrite (shows_cells _ _ S m I). reflexivity.
  - intros _. unfold t_value, t_score. destruct (idx m I) as [L Z]. rewrite V by exact L. rewrite Z. reflexivity.
Qed.
Lemma unavailable : forall room k ms rand, ~ available room k (t_key ms) -> t_fast room k (t_at ms) rand = (Unset, k).
Proof.
  intros room k ms rand N. unfold t_fast. fold (t_key ms). unfold ensure, available in *. destruct (find k (t_key ms)); [exfalso; apply N; left; discriminate|].
  destruct (room k (t_key ms)); [exfalso; apply N; right; reflexivity|reflexivity].
Qed.
Lemma cnt_cells : forall P, cnt P cells = 9 <-> forall m, on_board m -> P m = true.
Proof. intros P. change 9 with (Z.of_nat (length cells)). rewrite cnt_all. split; intros H m I; apply H; apply in_cells; exact I. Qed.
Lemma not_all_9 : forall k ms, (exists m, on_board m /\ (open ms m = false \/ t_score k ms m <> 1)) -> not_all t_max t_min (open ms) (t_score k ms) all9 cells.
Proof.
  intros k ms (m & B & H) t ->. unfold all9, tallied. rewrite (analyze_eq t_max t_mid t_min range). simpl. rewrite Z.add_0_l. apply Z.eqb_neq. change (row_count * col_count) with 9. intros C.
  pose proof (proj1 (cnt_cells _) C m B) as Q. unfold is in Q. apply andb_prop in Q. destruct Q as [Q1 Q2]. apply Z.eqb_eq in Q2. unfold t_min in Q2. destruct H; congruence.
Qed.
Lemma legal_choice : forall k ms rand, t_known k -> ~ finished ms -> 0 <= rand -> (exists m, legal ms m /\ t_score k ms m <> 1) ->
  exists m, choice k ms rand = Chosen m /\ legal ms m.
Proof.
  intros k ms rand K N R (m & L & V).
  destruct (choice_ok t_max t_mid t_min range (open ms) (t_score k ms) (open_ok k ms K) all9 move9 cells rand R) as (m' & E & I & F).
  - apply not_all_9. exists m. split; [apply L|right; exact V].
  - exists m. split; [apply in_cells; apply L|]. split; [apply open_legal; assumption|exact V].
  - exists m'. split; [exact E|]. apply (open_legal ms m' N). exact F.
Qed.
Lemma played_taken : forall ms, played ms -> ms <> [] -> exists m, on_board m /\ open ms m = false.
Proof.
  intros ms P N. destruct ms as [|m ms]; [contradiction|]. exists m. inversion P; subst. split; [apply H2|]. unfold open.
  destruct (Z.eqb_spec (owner (m :: ms) m) 0) as [E|]; [|apply andb_false_r]. apply owner_free in E. exfalso. apply E. left. reflexivity.
Qed.
Lemma zero_choice : forall k ms rand, t_known k -> played ms -> ~ finished ms -> ms <> [] -> 0 <= rand -> (forall m, legal ms m -> t_score k ms m = 1) -> choice k ms rand = DivZero.
Proof.
  intros k ms rand K P N Z R H. apply (choice_zero t_max t_mid t_min range (open ms) (t_score k ms) (open_ok k ms K)); auto.
  - apply not_all_9. destruct (played_taken ms P Z) as (m & B & F). exists m. auto.
  - intros m _ F. apply H. apply (open_legal ms m N). exact F.
Qed.
Lemma empty_choice : forall k rand, t_known k -> 0 <= rand -> (forall m, on_board m -> t_score k [] m = 1) ->
  choice k [] rand = Chosen ((1 + rand mod 9) / 3, (1 + rand mod 9) mod 3).
Proof.
  intros k rand K R H. assert (O : forall m, on_board m -> open [] m = true) by (intros m B; unfold open; rewrite (proj2 (valid_iff m) B); reflexivity).
  assert (C9 : cnt (open []) cells = 9) by (apply cnt_cells; exact O).
  rewrite (choice_min t_max t_mid t_min range (open []) (t_score k []) all9 move9 cells rand).
  - rewrite C9. unfold move9, col_count. rewrite Z.rem_mod_nonneg by lia. pose proof (Z.mod_pos_bound rand 9 ltac:(lia)).
    rewrite Z.quot_div_nonneg, Z.rem_mod_nonneg by lia. reflexivity.
  - intros m I _. apply H. apply in_cells. exact I.
  - unfold all9, tallied. rewrite (analyze_eq t_max t_mid t_min range). simpl. rewrite Z.add_0_l. apply Z.eqb_eq. apply cnt_cells. intros m B. unfold is. rewrite O by exact B. rewrite H by exact B. reflexivity.
  - lia.
Qed.
Lemma max_choice : forall k ms rand, ~ finished ms -> 0 <= rand -> (exists m, legal ms m /\ t_score k ms m = 20) ->
  exists m, choice k ms rand = Chosen m /\ legal ms m /\ t_score k ms m = 20.
Proof.
  intros k ms rand N R (m & L & V). destruct (choice_max t_max t_mid t_min range (open ms) (t_score k ms) all9 move9 cells rand R) as (m' & E & I & F & V').
  - exists m. split; [apply in_cells; apply L|]. split; [apply open_legal; assumption|exact V].
  - exists m'. split; [exact E|]. split; [apply (open_legal ms m' N); exact F|exact V'].
Qed.
Lemma weighted_choice : forall k ms rand m, t_known k -> played ms -> ~ finished ms -> 0 <= rand -> (forall m, legal ms m -> t_score k ms m <> 20) ->
  let wt := fun m => weight 10 (t_score k ms m) in
  let sum := total wt (filter (fun m => negb (t_score k ms m =? 1)) (t_free ms)) in
  0 < sum -> (choice k ms rand = Chosen m <-> In m (t_free ms) /\ before wt (t_free ms) m <= rand mod sum < before wt (t_free ms) m + wt m).
Proof.
  intros k ms rand m K P N R H wt sum Pos.
  assert (E : total (w1 t_mid t_min (open ms) (t_score k ms)) cells = sum).
  { unfold sum. rewrite free_eq, filter_filter. apply total_filter. intros x _. reflexivity. }
  assert (Wm : legal ms m -> w t_mid (open ms) (t_score k ms) m = wt m) by (intros L; unfold w; rewrite (proj2 (open_legal ms m N) L); reflexivity).
  rewrite (choice_weighted t_max t_mid t_min range (open ms) (t_score k ms) (open_ok k ms K) all9 move9 cells rand m nodup R).
  - rewrite E. rewrite (free_in ms m N). rewrite free_eq. rewrite in_cells, (open_legal ms m N). split.
    + intros (_ & L & B). split; [exact L|]. rewrite <- (before_filter (open ms) wt (w t_mid (open ms) (t_score k ms))); [|apply open_legal; assumption|reflexivity].
      rewrite (Wm L) in B. exact B.
    + intros (L & B). split; [apply L|]. split; [exact L|]. rewrite <- (before_filter (open ms) wt (w t_mid (open ms) (t_score k ms))) in B; [|apply open_legal; assumption|reflexivity].
      rewrite (Wm L). exact B.
  - intros x _ F. apply H. apply (open_legal ms x N). exact F.
  - destruct (existsb (fun x => open ms x && negb (t_score k ms x =? 1)) cells) eqn:X.
    + apply existsb_exists in X. destruct X as (x & I & X). apply andb_prop in X. destruct X as [_ X]. apply negb_true_iff, Z.eqb_neq in X.
      apply not_all_9. exists x. split; [apply in_cells; exact I|right; exact X].
    + exfalso. assert (Z : sum = 0); [|lia]. unfold sum. rewrite free_eq, filter_filter.
      replace (filter (fun x => open ms x && negb (t_score k ms x =? 1)) cells) with (@nil move); [reflexivity|]. symmetry.
      clear - X. revert X. generalize cells. induction l as [|x l IH]; intros X; [reflexivity|]. simpl in *. apply orb_false_iff in X. destruct X as [-> X]. auto.
  - rewrite E. exact Pos.
Qed.

(** ** Learning *)
Lemma key_owner : forall a b, played a -> played b -> t_key a = t_key b -> forall m, on_board m -> owner a m = owner b m.
Proof.
  intros a b Pa Pb E m B. destruct (at_rep a Pa) as [Sa _]. destruct (at_rep b Pb) as [Sb _].
  rewrite <- (shows_cells _ _ Sa m B), <- (shows_cells _ _ Sb m B). unfold get_move, shift_down. unfold t_key in E. rewrite E. reflexivity.
Qed.
Lemma owner_turn : forall ms m, owner ms m = 0 \/ owner ms m = X \/ owner ms m = O.
Proof. induction ms as [|x ms IH]; intros m; simpl; [auto|]. destruct (same_cell m x); [right; apply turn_cases|apply IH]. Qed.
Lemma lor18 : forall a b, 0 <= a < 2 ^ 18 -> 0 <= b < 2 ^ 18 -> 0 <= Z.lor a b < 2 ^ 18.
Proof.
  intros a b Ha Hb. assert (0 <= Z.lor a b) by (apply Z.lor_nonneg; lia). split; [assumption|]. destruct (Z.eq_dec (Z.lor a b) 0) as [->|Nz]; [reflexivity|].
  apply Z.log2_lt_pow2; [lia|]. rewrite Z.log2_lor by lia. apply Z.max_lub_lt.
  - destruct (Z.eq_dec a 0) as [->|]; [reflexivity|]. apply Z.log2_lt_pow2; lia.
  - destruct (Z.eq_dec b 0) as [->|]; [reflexivity|]. apply Z.log2_lt_pow2; lia.
Qed.
Lemma state_low : forall ms, played ms -> 0 <= t_key ms < 2 ^ 18.
Proof.
  induction ms as [|m ms IH]; intros P; [unfold t_key, t_at; simpl; lia|]. inversion P as [|m' ms' P' L]; subst. specialize (IH P').
  destruct (at_rep ms P') as [S R]. assert (A : accept_move (t_at ms) m = (true, snd (accept_move (t_at ms) m))).
  { destruct (accept_legal (t_at ms) ms m (at_rep ms P') L) as (b' & E & _). rewrite E. reflexivity. }
  assert (Eq : t_at (m :: ms) = snd (accept_move (t_at ms) m)) by (unfold t_at; simpl; apply attempts_app).
  unfold t_key. rewrite Eq. unfold accept_move in *. destruct (negb (is_valid m)); [discriminate|]. destruct (over (t_at ms)); [discriminate|].
  destruct (negb (get_move (t_at ms) m =? p_none)); [discriminate|]. simpl.
  assert (St : forall b, state (if negb (over (check_winner b)) then switch (check_winner b) else check_winner b) = state b).
  { intros b. unfold check_winner. destruct (_ || _ || _); [|destruct (_ =? _)]; simpl; try reflexivity. destruct (over b); reflexivity. }
  rewrite St. simpl. destruct L as (B & _ & N). rewrite (current_turn _ _ S N).
  rewrite shift_up_eq; [|exact B|destruct (turn_cases (length ms)) as [-> | ->]; unfold X, O; lia].
  pose proof (cell_range m B). pose proof (shift_small (cell m) (turn (length ms)) ltac:(lia) ltac:(destruct (turn_cases (length ms)) as [-> | ->]; unfold X, O; lia)).
  fold (t_key ms). apply lor18; assumption.
Qed.
Lemma owner_key : forall a b, played a -> played b -> (forall m, on_board m -> owner a m = owner b m) -> t_key a = t_key b.
Proof.
  intros a b Pa Pb E. pose proof (state_low a Pa) as La. pose proof (state_low b Pb) as Lb.
  destruct (at_rep a Pa) as [Sa _]. destruct (at_rep b Pb) as [Sb _].
  apply Z.bits_inj'. intros n Hn. destruct (Z_lt_dec n 18) as [L|L].
  - set (c := n / 2). assert (C : 0 <= c <= 8) by (unfold c; split; [apply Z.div_pos; lia|]; enough (n / 2 < 9) by lia; apply Z.div_lt_upper_bound; lia).
    assert (B : on_board (c / 3, c mod 3)).
    { split; simpl; [split; [apply Z.div_pos; lia|]; enough (c / 3 < 3) by lia; apply Z.div_lt_upper_bound; lia|pose proof (Z.mod_pos_bound c 3); lia]. }
    assert (Cell : cell (c / 3, c mod 3) = c) by (unfold cell, row, col, col_count; simpl; pose proof (Z.div_mod c 3); lia).
    pose proof (E _ B) as G. rewrite <- (shows_cells _ _ Sa _ B), <- (shows_cells _ _ Sb _ B) in G. unfold get_move, shift_down in G. rewrite Cell in G.
    fold (t_key a) in G. fold (t_key b) in G. change p_mask with 3 in G. fold (field (t_key a) c) in G. fold (field (t_key b) c) in G.
    pose proof (field_bit (t_key a) c (n mod 2) ltac:(lia) ltac:(pose proof (Z.mod_pos_bound n 2); lia)) as Fa.
    pose proof (field_bit (t_key b) c (n mod 2) ltac:(lia) ltac:(pose proof (Z.mod_pos_bound n 2); lia)) as Fb.
    assert (M : n mod 2 + c * 2 = n) by (unfold c; pose proof (Z.div_mod n 2); lia). rewrite M in Fa, Fb.
    pose proof (Z.mod_pos_bound n 2 ltac:(lia)). destruct (Z.ltb_spec (n mod 2) 2); [|lia]. rewrite andb_true_r in Fa, Fb. rewrite <- Fa, <- Fb, G. reflexivity.
  - assert (Hi : forall x, 0 <= x < 2 ^ 18 -> Z.testbit x n = false).
    { intros x Hx. destruct (Z.eq_dec x 0) as [->|]; [apply Z.bits_0|]. apply Z.bits_above_log2; [lia|]. assert (Z.log2 x < 18) by (apply Z.log2_lt_pow2; lia). lia. }
    rewrite !Hi by assumption. reflexivity.
Qed.
Lemma at_cons : forall m ms, t_at (m :: ms) = snd (accept_move (t_at ms) m).
Proof. intros m ms. unfold t_at. simpl. apply attempts_app. Qed.
Lemma played_tl : forall a b, played (a ++ b) -> played b.
Proof. induction a as [|x a IH]; intros b P; [exact P|]. apply IH. inversion P. assumption. Qed.
Lemma key_later : forall l m post, played (l ++ m :: post) -> t_key (l ++ m :: post) <> t_key post.
Proof.
  intros l m post P E. pose proof (played_tl _ _ P) as P1. inversion P1 as [|m' ms' P2 L]; subst.
  pose proof (key_owner _ _ P P2 E m ltac:(apply L)) as G. rewrite (legal_free post m L) in G. apply owner_free in G. apply G. apply in_or_app. right. left. reflexivity.
Qed.
Lemma wrap8 : forall x, -128 <= x < 128 -> wrap_s8 x = x.
Proof. intros x H. unfold wrap_s8. rewrite Z.mod_small; change (2 ^ 7) with 128; change (2 ^ 8) with 256; lia. Qed.
Definition gained (pid win s : Z) : Z :=
  if win =? pid then Z.min 20 (weight 10 s + 3) else if win =? 0 then Z.min 20 (weight 10 s + 1) else Z.max 1 (weight 10 s - 1).
Lemma new_eq : forall pid win s, score_ok 1 20 s -> t_new_score pid win s = gained pid win s.
Proof.
  intros pid win s H. unfold t_new_score, gained, old_score, weight, score_none, t_win, t_draw, t_loss, t_max, t_min, t_mid, p_none.
  assert (R : 1 <= (if s =? -1 then 10 else s) <= 20) by (destruct (Z.eqb_spec s (-1)); destruct H; lia).
  rewrite !wrap8 by lia. reflexivity.
Qed.
Lemma gained_ok : forall pid win s, score_ok 1 20 s -> 1 <= gained pid win s <= 20.
Proof.
  intros pid win s H. unfold gained, weight.
  assert (R : 1 <= (if s =? -1 then 10 else s) <= 20) by (destruct (Z.eqb_spec s (-1)); destruct H; lia).
  destruct (win =? pid); [lia|]. destruct (win =? 0); lia.
Qed.
Definition idx9 (m : move) : Z := fst m * 3 + snd m.
Lemma step_learn : forall room k k' key v m pid win, t_known k -> on_board m -> ensure room 9 k key = (Some v, k') ->
  exists v', set_score v (Z.to_nat (fst m * 3 + snd m)) (t_new_score pid win (t_value v m)) = Some v' /\ t_known (store k' key v') /\
    (score (store k' key v') key (idx9 m) = gained pid win (score k key (idx9 m))) /\
    (forall key' i, 0 <= i < 9 -> (key' <> key \/ i <> idx9 m) -> score (store k' key v') key' i = score k key' i).
Proof.
  intros room k k' key v m pid win K B E. destruct (ensure_ok room 9 20 k key v k' K E) as ([L R] & K' & F & V & Sc). destruct (idx m B) as [I J].
  assert (Old : t_value v m = score k key (idx9 m)) by (unfold t_value, idx9; rewrite V by exact I; rewrite J; reflexivity).
  assert (Ok : score_ok 1 20 (t_value v m)) by (unfold t_value; apply (proj1 (Forall_forall _ _) R), nth_In; rewrite L; exact I).
  destruct (set_ok v (Z.to_nat (fst m * 3 + snd m)) (t_new_score pid win (t_value v m))) as (v' & S & L' & N); [rewrite L; exact I|].
  exists v'. split; [exact S|]. split; [|split].
  - apply (store_forall (fun u => length u = 9%nat /\ Forall (score_ok 1 20) u)); [exact K'|]. split; [lia|]. apply Forall_forall. intros x Ix.
    apply (In_nth _ _ 0) in Ix. destruct Ix as (j & Hj & <-). rewrite N. destruct (j =? _)%nat.
    + rewrite new_eq by exact Ok. right. apply gained_ok. exact Ok.
    + apply (proj1 (Forall_forall _ _) R), nth_In. lia.
  - unfold score at 1. rewrite find_store, Z.eqb_refl. rewrite N. unfold idx9. rewrite Nat.eqb_refl. rewrite new_eq by exact Ok. rewrite Old. reflexivity.
  - intros key' i Hi D. unfold score at 1. rewrite find_store. destruct (Z.eqb_spec key' key) as [->|].
    + rewrite N. destruct (Nat.eqb_spec (Z.to_nat i) (Z.to_nat (fst m * 3 + snd m))) as [Eq|]; [exfalso; destruct D; [congruence|unfold idx9 in *; lia]|].
      rewrite (nth_indep v (-1) 0) by lia. rewrite V by lia. rewrite Z2Nat.id by lia. reflexivity.
    + fold (score k' key' i). apply Sc. lia.
Qed.
(** the moves of the learner: the position, and what was played there *)
Definition made (pid : Z) (post l : list move) (at_ : list move) (m : move) : Prop :=
  exists l1 l2, l = l1 ++ m :: l2 /\ at_ = rev l1 ++ post /\ turn (length at_) = pid.
Lemma made_cons : forall pid post x l q m, made pid post (x :: l) q m <-> (q = post /\ m = x /\ turn (length post) = pid) \/ made pid (x :: post) l q m.
Proof.
  intros. unfold made. split.
  - intros ([|y l1] & l2 & E & Q & T); simpl in *; injection E as Ex El.
    + left. subst. auto.
    + right. exists l1, l2. split; [exact El|]. split; [rewrite Q, Ex, <- app_assoc; reflexivity|exact T].
  - intros [(-> & -> & T)|(l1 & l2 & -> & -> & T)].
    + exists [], l. auto.
    + exists (x :: l1), l2. split; [reflexivity|]. split; [simpl; rewrite <- app_assoc; reflexivity|exact T].
Qed.
Lemma made_long : forall pid post l q m, made pid post l q m -> exists l', q = l' ++ post /\ exists l'', rev l ++ post = l'' ++ q.
Proof.
  intros pid post l q m (l1 & l2 & -> & -> & _). exists (rev l1). split; [reflexivity|]. exists (rev l2 ++ [m]). rewrite rev_app_distr. simpl. rewrite <- !app_assoc. reflexivity.
Qed.
Lemma loop_ok : forall room pid win l post k, played (rev l ++ post) -> t_known k -> forall k', t_learn_loop room pid win (t_at post) l k = Some k' ->
  t_known k' /\ (forall q m, made pid post l q m -> t_score k' q m = gained pid win (t_score k q m)) /\
  (forall key i, 0 <= i < 9 -> (forall q m, made pid post l q m -> t_key q = key -> idx9 m <> i) -> score k' key i = score k key i).
Proof.
  intros room pid win. induction l as [|x l IH]; intros post k P K k' E.
  - simpl in E. injection E as <-. split; [exact K|]. split; [|reflexivity]. intros q m (l1 & l2 & H & _). destruct l1; discriminate.
  - simpl in P. rewrite <- app_assoc in P. simpl in P. pose proof (played_tl _ _ P) as P1. inversion P1 as [|x' post' P2 L]; subst.
    destruct (at_rep post P2) as [S _]. simpl in E. rewrite <- at_cons in E. rewrite (current_turn _ _ S ltac:(apply L)) in E. fold (t_key post) in E.
    destruct (Z.eqb_spec (turn (length post)) pid) as [T|T].
    + destruct (ensure room 9 k (t_key post)) as [[v|] k1] eqn:En; [|discriminate].
      destruct (step_learn room k k1 (t_key post) v x pid win K ltac:(apply L) En) as (v' & Se & K2 & New & Same). rewrite Se in E.
      destruct (IH (x :: post) _ P K2 k' E) as (K' & A & B). split; [exact K'|]. split.
      * intros q m M. apply made_cons in M. destruct M as [(-> & -> & _)|M].
        -- unfold t_score. fold (idx9 x). rewrite B.
           ++ exact New.
           ++ unfold idx9. destruct (idx x ltac:(apply L)). lia.
           ++ intros q m M Eq. exfalso. destruct (made_long _ _ _ _ _ M) as (l' & -> & l'' & H). rewrite H in P. apply played_tl in P. exact (key_later l' x post P Eq).
        -- rewrite A by exact M. f_equal. unfold t_score. fold (idx9 m).
           assert (Bm : on_board m /\ t_key q <> t_key post).
           { destruct (made_long _ _ _ _ _ M) as (l' & -> & l'' & H). split.
             - destruct M as (l1 & l2 & -> & Q & _). apply played_board in P. apply (proj1 (Forall_forall _ _) P). apply in_or_app. left. apply -> in_rev. apply in_or_app. right. left. reflexivity.
             - rewrite H in P. apply played_tl in P. exact (key_later l' x post P). }
           destruct Bm as [Bm D]. apply Same; [unfold idx9; destruct (idx m Bm); lia|auto].
      * intros key i Hi N. rewrite B; [|exact Hi|].
        -- apply Same; [exact Hi|]. destruct (Z.eq_dec key (t_key post)) as [->|D]; [right|left; exact D]. intros ->. apply (N post x); auto. apply made_cons. left. auto.
        -- intros q m M. apply N. apply made_cons. right. exact M.
    + destruct (IH (x :: post) k P K k' E) as (K' & A & B). split; [exact K'|]. split.
      * intros q m M. apply made_cons in M. destruct M as [(_ & _ & T')|M]; [contradiction|]. apply A. exact M.
      * intros key i Hi N. apply B; [exact Hi|]. intros q m M. apply N. apply made_cons. right. exact M.
Qed.
Lemma loop_some : forall pid win l post k, played (rev l ++ post) -> t_known k -> exists k', t_learn_loop plenty pid win (t_at post) l k = Some k'.
Proof.
  intros pid win. induction l as [|x l IH]; intros post k P K; [simpl; eauto|].
  simpl in P. rewrite <- app_assoc in P. simpl in P. pose proof (played_tl _ _ P) as P1. inversion P1 as [|x' post' P2 L]; subst.
  simpl. rewrite <- at_cons. destruct (_ =? pid); [|apply IH; assumption].
  destruct (proj1 (ensure_available plenty 9 k (state (t_at post))) (or_intror eq_refl)) as (v & k1 & En). rewrite En.
  destruct (step_learn plenty k k1 (state (t_at post)) v x pid win K ltac:(apply L) En) as (v' & Se & K2 & _). rewrite Se. apply IH; assumption.
Qed.
Lemma learn_eq : forall room pid ms k, played ms -> t_learn room pid (t_at ms) (rev ms) k = t_learn_loop room pid (winner (t_at ms)) (t_at []) (rev ms) k.
Proof.
  intros room pid ms k P. destruct (at_rep ms P) as [S _]. unfold t_learn. rewrite (shows_count _ _ S), Nat2Z.id.
  replace (length ms) with (length (rev ms)) by apply rev_length. rewrite firstn_all. reflexivity.
Qed.
Lemma made_split : forall pid ms q m, made pid [] (rev ms) q m <-> exists pre, ms = pre ++ m :: q /\ turn (length q) = pid.
Proof.
  intros pid ms q m. unfold made. split.
  - intros (l1 & l2 & E & Q & T). rewrite app_nil_r in Q. exists (rev l2). split; [|exact T]. rewrite <- (rev_involutive ms), E, rev_app_distr. simpl. rewrite <- app_assoc, Q. reflexivity.
  - intros (pre & -> & T). exists (rev q), (rev pre). split; [rewrite rev_app_distr; simpl; rewrite <- app_assoc; reflexivity|]. split; [rewrite app_nil_r, rev_involutive; reflexivity|exact T].
Qed.
Lemma learn_ok : forall room pid ms k k', played ms -> t_known k -> t_learn room pid (t_at ms) (rev ms) k = Some k' ->
  t_known k' /\ (forall pre m q, ms = pre ++ m :: q -> turn (length q) = pid -> t_score k' q m = gained pid (winner (t_at ms)) (t_score k q m)) /\
  (forall key i, 0 <= i < 9 -> (forall pre m q, ms = pre ++ m :: q -> turn (length q) = pid -> t_key q = key -> idx9 m <> i) -> score k' key i = score k key i).
Proof.
  intros room pid ms k k' P K E. rewrite learn_eq in E by exact P.
  destruct (loop_ok room pid (winner (t_at ms)) (rev ms) [] k ltac:(rewrite rev_involutive, app_nil_r; exact P) K k' E) as (K' & A & B).
  split; [exact K'|]. split.
  - intros pre m q -> T. apply A. apply made_split. eauto.
  - intros key i Hi N. apply B; [exact Hi|]. intros q m M. apply made_split in M. destruct M as (pre & Q & T). eapply N; eauto.
Qed.
Lemma learn_some : forall pid ms k, played ms -> t_known k -> exists k', t_learn plenty pid (t_at ms) (rev ms) k = Some k'.
Proof. intros pid ms k P K. rewrite learn_eq by exact P. apply loop_some; [rewrite rev_involutive, app_nil_r; exact P|exact K]. Qed.

(** ** Sessions *)
Definition game_at (g : t_game) (ms : list move) : Prop := played ms /\ t_board g = t_at ms /\ t_moves g = rev ms.
Lemma accept_step : forall room xt ot g ms pid m k g' k', game_at g ms -> t_known k -> t_game_accept room xt ot g pid m k = Some (true, g', k') ->
  legal ms m /\ game_at g' (m :: ms) /\ t_known k'.
Proof.
  intros room xt ot g ms pid m k g' k' (P & Bd & Mv) K E. unfold t_game_accept in E. destruct (negb _); [discriminate|]. rewrite Bd, Mv in E.
  destruct (accept_move (t_at ms) m) as [ok b] eqn:A. assert (H : ok = true).
  { destruct (over b); [|congruence]. destruct xt, ot; try congruence; destruct (t_learn _ _ _ _ _); congruence. }
  subst ok. destruct (accept_true _ ms m b (at_rep ms P) A) as [L R]. assert (P' : played (m :: ms)) by (constructor; assumption).
  assert (Eb : b = t_at (m :: ms)) by (rewrite at_cons, A; reflexivity). destruct R as [S _].
  assert (Ms : firstn (Z.to_nat (count b - 1)) (rev ms) ++ [m] = rev (m :: ms)).
  { rewrite (shows_count _ _ S). simpl. replace (Z.to_nat _) with (length (rev ms)) by (rewrite rev_length; lia). rewrite firstn_all. reflexivity. }
  rewrite Ms in E. split; [exact L|].
  assert (G : game_at {| t_board := b; t_moves := rev (m :: ms) |} (m :: ms)) by (split; [exact P'|split; [exact Eb|reflexivity]]).
  assert (Le : forall pid k2, t_learn room pid b (rev (m :: ms)) k = Some k2 -> t_known k2).
  { intros q k2 H. rewrite Eb in H. exact (proj1 (learn_ok room q (m :: ms) k k2 P' K H)). }
  destruct (over b); [|injection E as <- <-; auto].
  destruct xt, ot; try (injection E as <- <-; auto); destruct (t_learn _ _ _ _ _) eqn:EL; try discriminate; injection E as <- <-; eauto.
Qed.
Lemma session_ok : forall room s g k, t_session room s g k -> t_known k /\ exists ms, game_at g ms.
Proof.
  intros room s g k H. induction H as [|g k H IH O|g k rand m k' g' k'' H IH O C R F A|g k m g' k'' H IH O C F A].
  - split; [constructor|]. exists []. split; [constructor|]. split; reflexivity.
  - split; [apply IH|]. exists []. split; [constructor|]. split; reflexivity.
  - destruct IH as (K & ms & G). assert (K' : t_known k').
    { unfold t_fast in F. destruct (ensure room 9 k (state (t_board g))) as [[v|] k1] eqn:En; [|discriminate].
      apply (f_equal snd) in F. cbn [snd] in F. rewrite <- F. exact (proj1 (proj2 (ensure_ok room 9 20 k _ v k1 K En))). }
    destruct (accept_step _ _ _ _ ms _ _ _ _ _ G K' A) as (L & G' & K''). split; [exact K''|eauto].
  - destruct IH as (K & ms & G). destruct (accept_step _ _ _ _ ms _ _ _ _ _ G K A) as (L & G' & K''). split; [exact K''|eauto].
Qed.

(** ** Whole sessions, by computation *)
Definition board_eqb (a b : board) : bool :=
  Bool.eqb (over a) (over b) && (winner a =? winner b) && (current a =? current b) && (state a =? state b) && (count a =? count b).
Lemma board_eqb_ok : forall a b, board_eqb a b = true -> a = b.
Proof.
  intros [] [] H. unfold board_eqb in H. simpl in H. repeat (apply andb_prop in H; destruct H as [H ?]). apply eqb_prop in H.
  repeat match goal with E : (_ =? _) = true |- _ => apply Z.eqb_eq in E end. congruence.
Qed.
(** the slow engine's answers, as a table *)
Fixpoint answer (tbl : list (board * move)) (b : board) : option move :=
  match tbl with [] => None | (b', m) :: tbl => if board_eqb b b' then Some m else answer tbl b end.
(** the fast engine (X) moves with the number given, the slow one by the table; a new game after the last one's end *)
Fixpoint sim (tbl : list (board * move)) (l : list Z) (g : t_game) (k : knowledge) : option (t_game * knowledge) :=
  match l with
  | [] => Some (g, k)
  | rand :: l' =>
      if over (t_board g) then sim tbl l' t_new k
      else if current (t_board g) =? X then
        match t_fast plenty k (t_board g) rand with
        | (Chosen m, k') => match t_game_accept plenty Fast Slow g X m k' with Some (true, g', k'') => sim tbl l' g' k'' | _ => None end
        | _ => None
        end
      else if current (t_board g) =? O then
        match answer tbl (t_board g) with
        | Some m => match t_game_accept plenty Fast Slow g O m k with Some (true, g', k'') => sim tbl l' g' k'' | _ => None end
        | None => None
        end
      else None
  end.
Lemma answer_ok : forall tbl b m, Forall (fun e => slow_best O (fst e) = Some (Some (snd e))) tbl -> answer tbl b = Some m -> slow_best O b = Some (Some m).
Proof.
  induction tbl as [|[b' m'] tbl IH]; intros b m F E; cbn [answer] in E; [discriminate|]. inversion F as [|? ? F1 F2]; subst. destruct (board_eqb b b') eqn:B; [|apply IH; assumption].
  apply board_eqb_ok in B. subst b'. injection E as <-. exact F1.
Qed.
Lemma sim_ok : forall tbl l g k g' k', Forall (fun e => slow_best O (fst e) = Some (Some (snd e))) tbl -> Forall (fun r => 0 <= r) l -> t_session plenty X g k ->
  sim tbl l g k = Some (g', k') -> t_session plenty X g' k'.
Proof.
  intros tbl. induction l as [|r l IH]; intros g k g' k' T R S E; cbn [sim] in E; [injection E as <- <-; exact S|]. inversion R as [|? ? R1 R2]; subst.
  destruct (over (t_board g)) eqn:Ov; [exact (IH _ _ _ _ T R2 (ts_again _ _ _ _ S Ov) E)|].
  destruct (Z.eqb_spec (current (t_board g)) X) as [C|C].
  - destruct (t_fast plenty k (t_board g) r) as [[m| |] k1] eqn:F; try discriminate. destruct (t_game_accept plenty Fast Slow g X m k1) as [[[[] g1] k2]|] eqn:A; try discriminate.
    exact (IH _ _ _ _ T R2 (ts_fast _ _ g k r m k1 g1 k2 S Ov C R1 F A) E).
  - destruct (Z.eqb_spec (current (t_board g)) O) as [C'|C']; [|discriminate]. destruct (answer tbl (t_board g)) as [m|] eqn:F; [|discriminate].
    destruct (t_game_accept plenty Fast Slow g O m k) as [[[[] g1] k2]|] eqn:A; try discriminate.
    exact (IH _ _ _ _ T R2 (ts_slow _ _ g k m g1 k2 S Ov C' (answer_ok _ _ _ T F) A) E).
Qed.
