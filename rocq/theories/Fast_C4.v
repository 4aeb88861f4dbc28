(** Proofs for C99-C101, connect four: the fast engine on the board, what learning does, and what sessions keep. *)

From Coq Require Import ZArith List Bool Lia.
From Verif Require Import Base Fast_Model Fast_Spec Fast_Pick.
From Verif Require Import Connect4_Model Connect4_Spec Connect4_Calls Connect4_Proofs Slow4_Model Slow4_Proofs.
Import ListNotations.
Open Scope Z_scope.
Local Arguments Z.add : simpl never.
Local Arguments Z.sub : simpl never.
Local Arguments Z.mul : simpl never.

(** ** The choice *)
Lemma attempts_app : forall l b m, attempts b (l ++ [m]) = match attempts b l with Some b => match accept_move b m with Some (_, b) => Some b | None => None end | None => None end.
Proof. induction l as [|x l IH]; intros b m; simpl; [reflexivity|]. destruct (accept_move b x) as [[ok b']|]; [apply IH|reflexivity]. Qed.
Lemma at_rep : forall ms, played ms -> exists b, c_at ms b /\ rep b ms /\ c_key ms = state b.
Proof.
  intros ms P. enough (exists b, c_at ms b /\ rep b ms) as (b & A & R) by (exists b; unfold c_key; rewrite A; auto).
  induction P as [|m ms P IH L]; [exists reset; split; [reflexivity|apply reset_rep]|]. destruct IH as (b & A & R).
  destruct (accept_legal b ms m R L) as (b' & E & R' & _). exists b'. split; [|exact R']. unfold c_at in *. simpl. rewrite attempts_app, A, E. reflexivity.
Qed.
Lemma at_fun : forall ms b, played ms -> c_at ms b -> rep b ms /\ c_key ms = state b.
Proof. intros ms b P A. destruct (at_rep ms P) as (b' & A' & R). unfold c_at in *. rewrite A in A'. injection A' as <-. exact R. Qed.
Definition row (ms : list move) : list move := map (fun c => (height ms c, c)) [0; 1; 2; 3; 4; 5; 6].
Lemma in_row : forall ms m, In m (row ms) <-> 0 <= snd m <= 6 /\ fst m = height ms (snd m).
Proof.
  intros ms m. unfold row. rewrite in_map_iff. split.
  - intros (c & <- & I). apply in_columns in I. auto.
  - intros [H E]. exists (snd m). split; [destruct m; simpl in *; congruence|apply in_columns; exact H].
Qed.
Lemma row_legal : forall ms m, ~ finished ms -> legal ms m <-> In m (row ms) /\ is_valid m = true.
Proof. intros ms m N. rewrite in_row, valid_iff. unfold legal, on_board. tauto. Qed.
Lemma slots_eq : forall b ms, shows b ms -> c_slots b = row ms.
Proof. intros b ms S. unfold c_slots, row. apply map_ext_in. intros c I. apply in_columns in I. rewrite (shows_heights _ _ S c I). reflexivity. Qed.
Lemma free_eq : forall ms, played ms -> c_free ms = filter is_valid (row ms).
Proof.
  intros ms P. unfold c_free. fold (row ms). apply filter_ext_in. intros m I. apply in_row in I. destruct I as [C E].
  pose proof (height_nonneg ms (snd m)). destruct m as [r c]. simpl in *. subst r. unfold is_valid, row_count, col_count.
  destruct (Z.ltb_spec (height ms c) 6); destruct (Z.leb_spec 0 (height ms c)); destruct (Z.leb_spec 0 c); destruct (Z.ltb_spec c 7); simpl; try reflexivity; lia.
Qed.
Lemma free_in : forall ms m, played ms -> ~ finished ms -> In m (c_free ms) <-> legal ms m.
Proof. intros ms m P N. rewrite free_eq by exact P. rewrite filter_In, (row_legal ms m N). tauto. Qed.
Lemma nodup : forall ms, NoDup (row ms).
Proof.
  intros ms. apply (NoDup_map_inv snd). unfold row. rewrite map_map. simpl. repeat (constructor; [simpl; intros H; repeat destruct H as [H|H]; try discriminate; exact H|]). constructor.
Qed.
Lemma idx : forall c, 0 <= c <= 6 -> (Z.to_nat c < 7)%nat /\ Z.of_nat (Z.to_nat c) = c.
Proof. intros. lia. Qed.
Lemma valid_col : forall m, is_valid m = true -> 0 <= snd m <= 6.
Proof. intros m V. apply valid_iff in V. apply V. Qed.
Lemma score_range : forall k ms m, c_known k -> 0 <= snd m <= 6 -> score_ok 1 100 (c_score k ms m).
Proof.
  intros k ms m K B. unfold c_score, score. destruct (find k (c_key ms)) as [v|] eqn:F; [|left; reflexivity].
  destruct (proj1 (Forall_forall _ _) K _ (find_in _ _ _ F)) as [L R]. simpl in *. apply (proj1 (Forall_forall _ _) R). apply nth_In. rewrite L. apply idx. exact B.
Qed.
Lemma open_ok : forall k ms, c_known k -> forall m, is_valid m = true -> score_ok c_min c_max (c_score k ms m).
Proof. intros k ms K m O. apply score_range; [exact K|]. apply valid_col. exact O. Qed.
Lemma range : 1 <= c_min /\ c_min < c_mid /\ c_mid < c_max.
Proof. unfold c_min, c_mid, c_max. lia. Qed.
Definition all_least (t : tally) : bool := min_count t =? valid_count t.
Definition least_move (b : board) (i : Z) : move := let c := Z.rem i col_count in (col_size b c, c).
Notation choice b k ms := (fast_pick c_max c_mid c_min (row ms) is_valid (c_score k ms) all_least (least_move b)).
Lemma fast_eq : forall room k ms b rand, played ms -> c_at ms b -> c_known k -> available room k (c_key ms) ->
  exists k', c_fast room k b rand = (choice b k ms rand, k') /\ c_known k' /\ forall key i, 0 <= i < 7 -> score k' key i = score k key i.
Proof.
  intros room k ms b rand P At K A. destruct (at_fun ms b P At) as [[S _] Key]. apply (ensure_available room 7) in A. destruct A as (v & k' & E).
  destruct (ensure_ok room 7 100 k (c_key ms) v k' K E) as (_ & K' & _ & V & Sc). exists k'. unfold c_fast. rewrite <- Key. rewrite E.
  split; [|split; [exact K'|intros key i Hi; apply Sc; lia]]. f_equal. rewrite (slots_eq b ms S). apply fast_pick_ext. intros m I. split; [reflexivity|].
  intros F. apply valid_col in F. unfold c_value, c_score. destruct (idx (snd m) F) as [L Z]. rewrite V by exact L. rewrite Z. reflexivity.
Qed.
Lemma unavailable : forall room k ms b rand, played ms -> c_at ms b -> ~ available room k (c_key ms) -> c_fast room k b rand = (Unset, k).
Proof.
  intros room k ms b rand P At N. destruct (at_fun ms b P At) as [_ Key]. unfold c_fast. rewrite <- Key. unfold ensure, available in *.
  destruct (find k (c_key ms)); [exfalso; apply N; left; discriminate|]. destruct (room k (c_key ms)); [exfalso; apply N; right; reflexivity|reflexivity].
Qed.
Lemma cnt_same : forall k ms l, cnt (is is_valid (c_score k ms) 1) l = cnt is_valid l <-> forall m, In m l -> is_valid m = true -> c_score k ms m = 1.
Proof.
  intros k ms. induction l as [|x l IH]; [split; [intros _ m []|reflexivity]|].
  pose proof (cnt_le (is is_valid (c_score k ms) 1) is_valid l) as Le. assert (H : cnt (is is_valid (c_score k ms) 1) l <= cnt is_valid l).
  { apply Le. intros m H. unfold is in H. apply andb_prop in H. apply H. }
  unfold cnt in *. cbn [total]. destruct (is_valid x) eqn:V; unfold is at 1; rewrite V; simpl.
  - destruct (Z.eqb_spec (c_score k ms x) 1) as [E|E].
    + split; [intros C m [<-|I] Vm; [exact E|]|intros C]; [apply IH; [lia|exact I|exact Vm]|]. enough (total (fun m => if is is_valid (c_score k ms) 1 m then 1 else 0) l = total (fun m => if is_valid m then 1 else 0) l) by lia. apply IH. auto.
    + split; [lia|]. intros C. exfalso. apply E. apply C; auto.
  - split; [intros C m [<-|I] Vm; [congruence|]|intros C]; [apply IH; [lia|exact I|exact Vm]|]. enough (total (fun m => if is is_valid (c_score k ms) 1 m then 1 else 0) l = total (fun m => if is_valid m then 1 else 0) l) by lia. apply IH. auto.
Qed.
Lemma all_eq : forall k ms l, all_least (tallied c_max c_min is_valid (c_score k ms) l) = true <-> forall m, In m l -> is_valid m = true -> c_score k ms m = 1.
Proof.
  intros k ms l. unfold all_least, tallied. rewrite (analyze_eq c_max c_mid c_min range). simpl. rewrite !Z.add_0_l, Z.eqb_eq. apply cnt_same.
Qed.
Lemma not_all_row : forall k ms, ~ finished ms -> (exists m, legal ms m /\ c_score k ms m <> 1) -> not_all c_max c_min is_valid (c_score k ms) all_least (row ms).
Proof.
  intros k ms N (m & L & V) t ->. destruct (all_least _) eqn:E; [|reflexivity]. exfalso. apply V. apply (row_legal ms m N) in L. apply (proj1 (all_eq k ms (row ms)) E); apply L.
Qed.
Lemma legal_choice : forall k ms b rand, c_known k -> ~ finished ms -> 0 <= rand -> (exists m, legal ms m /\ c_score k ms m <> 1) ->
  exists m, choice b k ms rand = Chosen m /\ legal ms m.
Proof.
  intros k ms b rand K N R (m & L & V).
  destruct (choice_ok c_max c_mid c_min range is_valid (c_score k ms) (open_ok k ms K) all_least (least_move b) (row ms) rand R) as (m' & E & I & F).
  - apply not_all_row; eauto.
  - exists m. apply (row_legal ms m N) in L. destruct L. auto.
  - exists m'. split; [exact E|]. apply (row_legal ms m' N). auto.
Qed.
Lemma least_choice : forall k ms b rand, c_known k -> played ms -> c_at ms b -> ~ finished ms -> 0 <= rand -> (forall m, legal ms m -> c_score k ms m = 1) ->
  let c := (1 + rand mod Z.of_nat (length (c_free ms))) mod 7 in choice b k ms rand = Chosen (height ms c, c).
Proof.
  intros k ms b rand K P At N R H c. destruct (at_fun ms b P At) as [[S _] _].
  assert (H' : forall m, In m (row ms) -> is_valid m = true -> c_score k ms m = 1) by (intros m I V; apply H; apply (row_legal ms m N); auto).
  assert (Cn : cnt is_valid (row ms) = Z.of_nat (length (c_free ms))).
  { rewrite free_eq by exact P. generalize (row ms). unfold cnt. induction l as [|x l IH]; [reflexivity|]. simpl. rewrite IH. destruct (is_valid x); simpl; lia. }
  assert (Pos : 0 < Z.of_nat (length (c_free ms))).
  { destruct (move_exists ms P N) as (m & L). apply (free_in ms m P N) in L. destruct (c_free ms); [destruct L|simpl; lia]. }
  rewrite (choice_min c_max c_mid c_min range is_valid (c_score k ms) all_least (least_move b) (row ms) rand H').
  - rewrite Cn. unfold least_move, col_count. rewrite (Z.rem_mod_nonneg rand) by lia. pose proof (Z.mod_pos_bound rand _ Pos). rewrite Z.rem_mod_nonneg by lia. fold c.
    rewrite (shows_heights _ _ S c) by (unfold c; pose proof (Z.mod_pos_bound (1 + rand mod Z.of_nat (length (c_free ms))) 7); lia). reflexivity.
  - apply all_eq. exact H'.
  - lia.
Qed.
Lemma max_choice : forall k ms b rand, ~ finished ms -> 0 <= rand -> (exists m, legal ms m /\ c_score k ms m = 100) ->
  exists m, choice b k ms rand = Chosen m /\ legal ms m /\ c_score k ms m = 100.
Proof.
  intros k ms b rand N R (m & L & V). destruct (choice_max c_max c_mid c_min range is_valid (c_score k ms) all_least (least_move b) (row ms) rand R) as (m' & E & I & F & V').
  - exists m. apply (row_legal ms m N) in L. destruct L. auto.
  - exists m'. split; [exact E|]. split; [apply (row_legal ms m' N); auto|exact V'].
Qed.
Lemma weighted_choice : forall k ms b rand m, c_known k -> played ms -> ~ finished ms -> 0 <= rand -> (forall m, legal ms m -> c_score k ms m <> 100) ->
  let wt := fun m => weight 50 (c_score k ms m) in
  let sum := total wt (filter (fun m => negb (c_score k ms m =? 1)) (c_free ms)) in
  0 < sum -> (choice b k ms rand = Chosen m <-> In m (c_free ms) /\ before wt (c_free ms) m <= rand mod sum < before wt (c_free ms) m + wt m).
Proof.
  intros k ms b rand m K P N R H wt sum Pos.
  assert (E : total (w1 c_mid c_min is_valid (c_score k ms)) (row ms) = sum).
  { unfold sum. rewrite free_eq by exact P. rewrite filter_filter. apply total_filter. intros x _. reflexivity. }
  assert (Wm : legal ms m -> w c_mid is_valid (c_score k ms) m = wt m).
  { intros L. apply (row_legal ms m N) in L. destruct L as [_ V]. unfold w. rewrite V. reflexivity. }
  rewrite (choice_weighted c_max c_mid c_min range is_valid (c_score k ms) (open_ok k ms K) all_least (least_move b) (row ms) rand m (nodup ms) R).
  - rewrite E. rewrite (free_in ms m P N). rewrite (row_legal ms m N), free_eq by exact P. split.
    + intros (I & V & B). split; [auto|]. rewrite <- (before_filter is_valid wt (w c_mid is_valid (c_score k ms))); [|exact V|reflexivity].
      rewrite Wm in B by (apply (row_legal ms m N); auto). exact B.
    + intros ([I V] & B). split; [exact I|]. split; [exact V|]. rewrite <- (before_filter is_valid wt (w c_mid is_valid (c_score k ms))) in B; [|exact V|reflexivity].
      rewrite Wm by (apply (row_legal ms m N); auto). exact B.
  - intros x I F. apply H. apply (row_legal ms x N). auto.
  - destruct (existsb (fun x => is_valid x && negb (c_score k ms x =? 1)) (row ms)) eqn:X.
    + apply existsb_exists in X. destruct X as (x & I & X). apply andb_prop in X. destruct X as [V X]. apply negb_true_iff, Z.eqb_neq in X.
      apply (not_all_row k ms N). exists x. split; [apply (row_legal ms x N); auto|exact X].
    + exfalso. assert (Z : sum = 0); [|lia]. unfold sum. rewrite free_eq by exact P. rewrite filter_filter.
      replace (filter (fun x => is_valid x && negb (c_score k ms x =? 1)) (row ms)) with (@nil move); [reflexivity|]. symmetry.
      clear - X. revert X. generalize (row ms). induction l as [|x l IH]; intros X; [reflexivity|]. simpl in *. apply orb_false_iff in X. destruct X as [-> X]. auto.
  - rewrite E. exact Pos.
Qed.

(** ** Learning *)
Lemma key_same : forall a b, played a -> played b -> c_key a = c_key b -> (forall c, 0 <= c <= 6 -> height a c = height b c) /\ (forall m, on_board m -> owner a m = owner b m).
Proof.
  intros a b Pa Pb E. destruct (at_rep a Pa) as (ba & _ & (Sa & _) & Ea). destruct (at_rep b Pb) as (bb & _ & (Sb & _) & Eb).
  assert (St : state ba = state bb) by congruence. split.
  - intros c C. rewrite <- (shows_heights _ _ Sa c C), <- (shows_heights _ _ Sb c C). unfold col_size. rewrite St. reflexivity.
  - intros m B. rewrite <- (shows_cells _ _ Sa m B), <- (shows_cells _ _ Sb m B). unfold get_move, get_move_bits, col_size. rewrite St. reflexivity.
Qed.
Lemma height_owner : forall a b, played a -> played b -> (forall m, on_board m -> owner a m = owner b m) -> forall c, 0 <= c <= 6 -> height a c = height b c.
Proof.
  assert (One : forall a b, played a -> played b -> (forall m, on_board m -> owner a m = owner b m) -> forall c, 0 <= c <= 6 -> height a c <= height b c).
  { intros a b Pa Pb E c C. destruct (Z_le_dec (height a c) (height b c)); [assumption|]. exfalso. pose proof (height_nonneg b c). pose proof (played_height a Pa c).
    assert (B : on_board (height b c, c)) by (split; simpl; lia). specialize (E _ B).
    assert (Hb : owner b (height b c, c) = 2) by (apply (played_owner b Pb); lia). rewrite Hb in E. apply (played_owner a Pa) in E. lia. }
  intros a b Pa Pb E c C. apply Z.le_antisymm; apply One; auto. intros m B. symmetry. auto.
Qed.
Lemma owner_key : forall a b, played a -> played b -> (forall m, on_board m -> owner a m = owner b m) -> c_key a = c_key b.
Proof.
  intros a b Pa Pb E. pose proof (height_owner a b Pa Pb E) as Hh.
  destruct (at_rep a Pa) as (ba & _ & (_ & _ & (Ra & Ha & Oa)) & ->). destruct (at_rep b Pb) as (bb & _ & (_ & _ & (Rb & Hb & Ob)) & ->).
  apply Z.bits_inj'. intros n Hn. destruct (Z_lt_dec n 21) as [L|L].
  - set (c := n / 3). assert (C : 0 <= c <= 6) by (unfold c; split; [apply Z.div_pos; lia|]; enough (n / 3 < 7) by lia; apply Z.div_lt_upper_bound; lia).
    assert (M : n = n mod 3 + c * 3) by (unfold c; pose proof (Z.div_mod n 3); lia). pose proof (Z.mod_pos_bound n 3 ltac:(lia)) as Mb.
    pose proof (eq_trans (Ha c C) (eq_trans (Hh c C) (eq_sym (Hb c C)))) as F. rewrite <- !fld_land in F by lia.
    apply (f_equal (fun x => Z.testbit x (n mod 3))) in F. rewrite !Z.land_spec, !Z.shiftr_spec, Z.ones_spec_low, !andb_true_r in F by lia.
    rewrite <- M in F. exact F.
  - destruct (Z_lt_dec n 63) as [L'|L'].
    + set (j := n - 21). set (c := j / 6). set (r := j mod 6). assert (J : j = 6 * c + r) by (apply Z.div_mod; lia). pose proof (Z.mod_pos_bound j 6 ltac:(lia)) as Mb. fold r in Mb.
      assert (C : 0 <= c <= 6) by (unfold j in *; lia). assert (B : on_board (r, c)) by (split; simpl; lia).
      assert (N : n = 21 + c * 6 + r) by (unfold j in *; lia). rewrite N. rewrite !bit_fld by lia. rewrite Oa, Ob by exact B. rewrite E by exact B. reflexivity.
    + assert (Hi : forall x, 0 <= x < 2 ^ 63 -> Z.testbit x n = false).
      { intros x Hx. destruct (Z.eq_dec x 0) as [->|]; [apply Z.bits_0|]. apply Z.bits_above_log2; [lia|]. assert (Z.log2 x < 63) by (apply Z.log2_lt_pow2; lia). lia. }
      rewrite !Hi by assumption. reflexivity.
Qed.
Lemma played_tl : forall a b, played (a ++ b) -> played b.
Proof. induction a as [|x a IH]; intros b P; [exact P|]. apply IH. inversion P. assumption. Qed.
Lemma height_app : forall a b c, height (a ++ b) c = height a c + height b c.
Proof. induction a as [|x a IH]; intros b c; simpl; [lia|]. rewrite IH. lia. Qed.
Lemma key_later : forall l m post, played (l ++ m :: post) -> c_key (l ++ m :: post) <> c_key post.
Proof.
  intros l m post P E. pose proof (played_tl _ _ P) as P1. inversion P1 as [|m' ms' P2 L]; subst.
  destruct (key_same _ _ P P2 E) as [H _]. specialize (H (snd m) ltac:(apply L)). rewrite height_app in H. cbn [height] in H. rewrite Z.eqb_refl in H. pose proof (height_nonneg l (snd m)). lia.
Qed.
Lemma wrap8 : forall x, -128 <= x < 128 -> wrap_s8 x = x.
Proof. intros x H. unfold wrap_s8. rewrite Z.mod_small; change (2 ^ 7) with 128; change (2 ^ 8) with 256; lia. Qed.
Definition gained (gain s : Z) : Z := Z.max 1 (Z.min 100 (weight 50 s + gain)).
Lemma new_eq : forall gain s, -1 <= gain <= 10 -> score_ok 1 100 s -> c_new_score gain s = gained gain s.
Proof.
  intros gain s G H. unfold c_new_score, gained, old_score, weight, score_none, c_max, c_min, c_mid.
  assert (R : 1 <= (if s =? -1 then 50 else s) <= 100) by (destruct (Z.eqb_spec s (-1)); destruct H; lia).
  rewrite !wrap8 by lia. destruct (Z.ltb_spec 0 ((if s =? -1 then 50 else s) + gain)); lia.
Qed.
Lemma gained_ok : forall gain s, 1 <= gained gain s <= 100.
Proof. intros. unfold gained. lia. Qed.
Lemma step_learn : forall room k k' key v m gain, -1 <= gain <= 10 -> c_known k -> 0 <= snd m <= 6 -> ensure room 7 k key = (Some v, k') ->
  exists v', set_score v (Z.to_nat (snd m)) (c_new_score gain (c_value v m)) = Some v' /\ c_known (store k' key v') /\
    (score (store k' key v') key (snd m) = gained gain (score k key (snd m))) /\
    (forall key' i, 0 <= i < 7 -> (key' <> key \/ i <> snd m) -> score (store k' key v') key' i = score k key' i).
Proof.
  intros room k k' key v m gain G K B E. destruct (ensure_ok room 7 100 k key v k' K E) as ([L R] & K' & F & V & Sc). destruct (idx (snd m) B) as [I J].
  assert (Old : c_value v m = score k key (snd m)) by (unfold c_value; rewrite V by exact I; rewrite J; reflexivity).
  assert (Ok : score_ok 1 100 (c_value v m)) by (unfold c_value; apply (proj1 (Forall_forall _ _) R), nth_In; rewrite L; exact I).
  destruct (set_ok v (Z.to_nat (snd m)) (c_new_score gain (c_value v m))) as (v' & S & L' & N); [rewrite L; exact I|].
  exists v'. split; [exact S|]. split; [|split].
  - apply (store_forall (fun u => length u = 7%nat /\ Forall (score_ok 1 100) u)); [exact K'|]. split; [lia|]. apply Forall_forall. intros x Ix.
    apply (In_nth _ _ 0) in Ix. destruct Ix as (j & Hj & <-). rewrite N. destruct (j =? _)%nat.
    + rewrite new_eq by assumption. right. apply gained_ok.
    + apply (proj1 (Forall_forall _ _) R), nth_In. lia.
  - unfold score at 1. rewrite find_store, Z.eqb_refl. rewrite N. rewrite Nat.eqb_refl. rewrite new_eq by assumption. rewrite Old. reflexivity.
  - intros key' i Hi D. unfold score at 1. rewrite find_store. destruct (Z.eqb_spec key' key) as [->|].
    + rewrite N. destruct (Nat.eqb_spec (Z.to_nat i) (Z.to_nat (snd m))) as [Eq|]; [exfalso; destruct D; [congruence|lia]|].
      rewrite (nth_indep v (-1) 0) by lia. rewrite V by lia. rewrite Z2Nat.id by lia. reflexivity.
    + fold (score k' key' i). apply Sc. lia.
Qed.
Definition made (pid : Z) (post l : list move) (at_ : list move) (m : move) : Prop :=
  exists l1 l2, l = l1 ++ m :: l2 /\ at_ = rev l1 ++ post /\ turn (length at_) = pid.
Lemma made_cons : forall pid post x l q m, made pid post (x :: l) q m <-> (q = post /\ m = x /\ turn (length post) = pid) \/ made pid (x :: post) l q m.
Proof.
  intros. unfold made. split.
  - intros ([|y l1] & l2 & E & Q & T); simpl in *; injection E as Ex El.
    + left. subst. auto.
    + right. exists l1, l2. split; [exact El|]. split; [rewrite Q, Ex, <- app_assoc; reflexivity|exact T].
  - intros [(-> & -> & T)|(l1 & l2 & -> & -> & T)].
    + exists [], l. auto.
    + exists (x :: l1), l2. split; [reflexivity|]. split; [simpl; rewrite <- app_assoc; reflexivity|exact T].
Qed.
Lemma made_long : forall pid post l q m, made pid post l q m -> exists l', q = l' ++ post /\ exists l'', rev l ++ post = l'' ++ m :: q.
Proof.
  intros pid post l q m (l1 & l2 & -> & -> & _). exists (rev l1). split; [reflexivity|]. exists (rev l2). rewrite rev_app_distr. simpl. rewrite <- !app_assoc. reflexivity.
Qed.
Lemma at_next : forall post x b, played (x :: post) -> c_at post b -> exists b', accept_move b x = Some (true, b') /\ c_at (x :: post) b'.
Proof.
  intros post x b P A. inversion P as [|x' post' P2 L]; subst. destruct (at_fun post b P2 A) as [R _].
  destruct (accept_legal b post x R L) as (b' & E & _). exists b'. split; [exact E|]. unfold c_at in *. simpl. rewrite attempts_app, A, E. reflexivity.
Qed.
Lemma loop_ok : forall room pid gain l post b k, -1 <= gain <= 10 -> played (rev l ++ post) -> c_at post b -> c_known k -> forall k', c_learn_loop room pid gain b l k = Some k' ->
  c_known k' /\ (forall q m, made pid post l q m -> c_score k' q m = gained gain (c_score k q m)) /\
  (forall key i, 0 <= i < 7 -> (forall q m, made pid post l q m -> c_key q = key -> snd m <> i) -> score k' key i = score k key i).
Proof.
  intros room pid gain. induction l as [|x l IH]; intros post b k G P At K k' E.
  - simpl in E. injection E as <-. split; [exact K|]. split; [|reflexivity]. intros q m (l1 & l2 & H & _). destruct l1; discriminate.
  - simpl in P. rewrite <- app_assoc in P. simpl in P. pose proof (played_tl _ _ P) as P1. inversion P1 as [|x' post' P2 L]; subst.
    destruct (at_fun post b P2 At) as [[S _] Key]. destruct (at_next post x b P1 At) as (b' & Ac & At'). cbn [c_learn_loop] in E. rewrite Ac in E.
    rewrite (current_turn _ _ S ltac:(apply L)) in E. rewrite <- Key in E.
    destruct (Z.eqb_spec (turn (length post)) pid) as [T|T].
    + destruct (ensure room 7 k (c_key post)) as [[v|] k1] eqn:En; [|discriminate].
      destruct (step_learn room k k1 (c_key post) v x gain G K ltac:(apply L) En) as (v' & Se & K2 & New & Same). rewrite Se in E.
      destruct (IH (x :: post) b' _ G P At' K2 k' E) as (K' & A & B). split; [exact K'|]. split.
      * intros q m M. apply made_cons in M. destruct M as [(-> & -> & _)|M].
        -- unfold c_score. rewrite B.
           ++ exact New.
           ++ destruct L as [[_ L] _]. lia.
           ++ intros q m M Eq. exfalso. destruct (made_long _ _ _ _ _ M) as (l' & -> & l'' & H). rewrite H in P. apply played_tl in P. inversion P. exact (key_later l' x post H2 Eq).
        -- rewrite A by exact M. f_equal. unfold c_score.
           destruct (made_long _ _ _ _ _ M) as (l' & -> & l'' & H). rewrite H in P. apply played_tl in P. inversion P as [|? ? Pq Lm]; subst.
           apply Same; [destruct Lm as [[_ Lm] _]; lia|left]. exact (key_later l' x post Pq).
      * intros key i Hi N. rewrite B; [|exact Hi|].
        -- apply Same; [exact Hi|]. destruct (Z.eq_dec key (c_key post)) as [->|D]; [right|left; exact D]. intros ->. apply (N post x); auto. apply made_cons. left. auto.
        -- intros q m M. apply N. apply made_cons. right. exact M.
    + destruct (IH (x :: post) b' k G P At' K k' E) as (K' & A & B). split; [exact K'|]. split.
      * intros q m M. apply made_cons in M. destruct M as [(_ & _ & T')|M]; [contradiction|]. apply A. exact M.
      * intros key i Hi N. apply B; [exact Hi|]. intros q m M. apply N. apply made_cons. right. exact M.
Qed.
Lemma loop_some : forall pid gain l post b k, -1 <= gain <= 10 -> played (rev l ++ post) -> c_at post b -> c_known k -> exists k', c_learn_loop plenty pid gain b l k = Some k'.
Proof.
  intros pid gain. induction l as [|x l IH]; intros post b k G P At K; [simpl; eauto|].
  simpl in P. rewrite <- app_assoc in P. simpl in P. pose proof (played_tl _ _ P) as P1. inversion P1 as [|x' post' P2 L]; subst.
  destruct (at_next post x b P1 At) as (b' & Ac & At'). cbn [c_learn_loop]. rewrite Ac. destruct (_ =? pid); [|eapply IH; eassumption].
  destruct (proj1 (ensure_available plenty 7 k (state b)) (or_intror eq_refl)) as (v & k1 & En). rewrite En.
  destruct (step_learn plenty k k1 (state b) v x gain G K ltac:(apply L) En) as (v' & Se & K2 & _). rewrite Se. eapply IH; eassumption.
Qed.
Lemma gain_range : forall pid w n, -1 <= c_gain pid w n <= 10.
Proof.
  intros pid w n. unfold c_gain, c_win, c_draw, c_loss. destruct (w =? pid); simpl; [lia|]. destruct (w =? p_none); destruct (32 <? n); [|destruct (24 <? n); [|destruct (18 <? n)]|destruct (32 <? n)|]; rewrite ?wrap8 by lia; try lia;
  destruct (24 <? n); rewrite ?wrap8 by lia; try lia; destruct (18 <? n); rewrite ?wrap8 by lia; lia.
Qed.
Lemma learn_eq : forall room pid ms b k, played ms -> c_at ms b -> c_learn room pid b (rev ms) k = c_learn_loop room pid (c_gain pid (winner b) (Z.of_nat (length ms))) reset (rev ms) k.
Proof.
  intros room pid ms b k P At. destruct (at_fun ms b P At) as [[S _] _]. unfold c_learn. rewrite (shows_count _ _ S), Nat2Z.id.
  replace (firstn (length ms) (rev ms)) with (rev ms) by (rewrite <- (rev_length ms), firstn_all; reflexivity). reflexivity.
Qed.
Lemma made_split : forall pid ms q m, made pid [] (rev ms) q m <-> exists pre, ms = pre ++ m :: q /\ turn (length q) = pid.
Proof.
  intros pid ms q m. unfold made. split.
  - intros (l1 & l2 & E & Q & T). rewrite app_nil_r in Q. exists (rev l2). split; [|exact T]. rewrite <- (rev_involutive ms), E, rev_app_distr. simpl. rewrite <- app_assoc, Q. reflexivity.
  - intros (pre & -> & T). exists (rev q), (rev pre). split; [rewrite rev_app_distr; simpl; rewrite <- app_assoc; reflexivity|]. split; [rewrite app_nil_r, rev_involutive; reflexivity|exact T].
Qed.
Lemma learn_ok : forall room pid ms b k k', played ms -> c_at ms b -> c_known k -> c_learn room pid b (rev ms) k = Some k' ->
  c_known k' /\ (forall pre m q, ms = pre ++ m :: q -> turn (length q) = pid -> c_score k' q m = gained (c_gain pid (winner b) (Z.of_nat (length ms))) (c_score k q m)) /\
  (forall key i, 0 <= i < 7 -> (forall pre m q, ms = pre ++ m :: q -> turn (length q) = pid -> c_key q = key -> snd m <> i) -> score k' key i = score k key i).
Proof.
  intros room pid ms b k k' P At K E. rewrite (learn_eq room pid ms b k P At) in E.
  destruct (loop_ok room pid _ (rev ms) [] reset k (gain_range _ _ _) ltac:(rewrite rev_involutive, app_nil_r; exact P) eq_refl K k' E) as (K' & A & B).
  split; [exact K'|]. split.
  - intros pre m q Q T. apply A. apply made_split. eauto.
  - intros key i Hi N. apply B; [exact Hi|]. intros q m M. apply made_split in M. destruct M as (pre & Q & T). eapply N; eauto.
Qed.
Lemma learn_some : forall pid ms b k, played ms -> c_at ms b -> c_known k -> exists k', c_learn plenty pid b (rev ms) k = Some k'.
Proof. intros pid ms b k P At K. rewrite (learn_eq plenty pid ms b k P At). apply (loop_some pid _ (rev ms) [] reset k (gain_range _ _ _)); [rewrite rev_involutive, app_nil_r; exact P|reflexivity|exact K]. Qed.

(** ** Sessions *)
Definition game_at (g : c_game) (ms : list move) : Prop := played ms /\ c_at ms (c_board g) /\ c_moves g = rev ms.
Lemma accept_step : forall room xt ot g ms pid m k g' k', game_at g ms -> c_known k -> c_game_accept room xt ot g pid m k = Some (true, g', k') ->
  legal ms m /\ game_at g' (m :: ms) /\ c_known k'.
Proof.
  intros room xt ot g ms pid m k g' k' (P & Bd & Mv) K E. unfold c_game_accept in E. destruct (negb _); [discriminate|]. rewrite Mv in E.
  destruct (accept_move (c_board g) m) as [[ok b]|] eqn:A; [|discriminate]. assert (H : ok = true).
  { destruct (over b); [|congruence]. destruct xt, ot; try congruence; destruct (c_learn _ _ _ _ _); congruence. }
  subst ok. destruct (at_fun ms _ P Bd) as [R0 _]. destruct (accept_true _ ms m b R0 A) as [L R]. assert (P' : played (m :: ms)) by (constructor; assumption).
  assert (Eb : c_at (m :: ms) b) by (unfold c_at in *; simpl; rewrite attempts_app, Bd, A; reflexivity). destruct R as [S _].
  assert (Ms : firstn (Z.to_nat (count b - 1)) (rev ms) ++ [m] = rev (m :: ms)).
  { rewrite (shows_count _ _ S). simpl. replace (Z.to_nat _) with (length (rev ms)) by (rewrite rev_length; lia). rewrite firstn_all. reflexivity. }
  rewrite Ms in E. split; [exact L|].
  assert (G : game_at {| c_board := b; c_moves := rev (m :: ms) |} (m :: ms)) by (split; [exact P'|split; [exact Eb|reflexivity]]).
  assert (Le : forall pid k2, c_learn room pid b (rev (m :: ms)) k = Some k2 -> c_known k2).
  { intros q k2 H. exact (proj1 (learn_ok room q (m :: ms) b k k2 P' Eb K H)). }
  destruct (over b); [|injection E as <- <-; auto].
  destruct xt, ot; try (injection E as <- <-; auto); destruct (c_learn _ _ _ _ _) eqn:EL; try discriminate; injection E as <- <-; eauto.
Qed.
Lemma session_ok : forall room s g k, c_session room s g k -> c_known k /\ exists ms, game_at g ms.
Proof.
  intros room s g k H. induction H as [|g k H IH O|g k rand m k' g' k'' H IH O C R F A|g k m g' k'' H IH O C F A].
  - split; [constructor|]. exists []. split; [constructor|]. split; reflexivity.
  - split; [apply IH|]. exists []. split; [constructor|]. split; reflexivity.
  - destruct IH as (K & ms & G). assert (K' : c_known k').
    { unfold c_fast in F. destruct (ensure room 7 k (state (c_board g))) as [[v|] k1] eqn:En; [|discriminate].
      apply (f_equal snd) in F. cbn [snd] in F. rewrite <- F. exact (proj1 (proj2 (ensure_ok room 7 100 k _ v k1 K En))). }
    destruct (accept_step _ _ _ _ ms _ _ _ _ _ G K' A) as (L & G' & K''). split; [exact K''|eauto].
  - destruct IH as (K & ms & G). destruct (accept_step _ _ _ _ ms _ _ _ _ _ G K A) as (L & G' & K''). split; [exact K''|eauto].
Qed.
