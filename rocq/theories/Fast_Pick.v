(** How the fast engines pick a move, for any scores in range; and the ideal map. *)

From Coq Require Import ZArith List Bool Lia.
From Verif Require Import Base Fast_Model Fast_Spec.
Import ListNotations.
Open Scope Z_scope.
Local Arguments Z.add : simpl never.
Local Arguments Z.sub : simpl never.
Local Arguments Z.mul : simpl never.

Section pick.
Variables smax smid smin : Z.
Hypothesis range : 1 <= smin /\ smin < smid /\ smid < smax.
Variable free : move -> bool.
Variable value : move -> Z.
Definition cnt (P : move -> bool) (l : list move) : Z := total (fun m => if P m then 1 else 0) l.
Definition is (s : Z) (m : move) : bool := free m && (value m =? s).
Definition part (m : move) : Z :=
  if free m && negb (value m =? smax) && negb (value m =? smin) && negb (value m =? score_none) then value m else 0.
Definition w (m : move) : Z := if free m then weight smid (value m) else 0.

Lemma analyze_eq : forall l t, analyze smax smin free value l t =
  {| max_count := max_count t + cnt (is smax) l; min_count := min_count t + cnt (is smin) l; none_count := none_count t + cnt (is score_none) l;
     valid_count := valid_count t + cnt free l; score_sum := score_sum t + total part l |}.
Proof.
  unfold cnt. induction l as [|m l IH]; intros t; simpl.
  - destruct t; simpl. f_equal; lia.
  - rewrite IH. unfold is, part. destruct (free m); simpl.
    + unfold score_none in *. destruct (Z.eqb_spec (value m) smax); [|destruct (Z.eqb_spec (value m) smin); [|destruct (Z.eqb_spec (value m) (-1))]]; simpl;
        repeat match goal with |- context [?a =? ?b] => destruct (Z.eqb_spec a b); try lia end; simpl; f_equal; lia.
    + f_equal; lia.
Qed.
Lemma cnt_nonneg : forall P l, 0 <= cnt P l.
Proof. intros P. unfold cnt. induction l as [|m l IH]; simpl; [lia|destruct (P m); lia]. Qed.
Lemma cnt_0 : forall P l, cnt P l = 0 <-> forall m, In m l -> P m = false.
Proof.
  intros P. unfold cnt. induction l as [|m l IH]; simpl; [split; [intros _ m []|reflexivity]|].
  pose proof (cnt_nonneg P l) as N. unfold cnt in N. destruct (P m) eqn:E.
  - split; [lia|]. intros H. rewrite (H m (or_introl eq_refl)) in E. discriminate.
  - split; [intros H x [->|I]; [exact E|apply IH; [lia|exact I]]|]. intros H. enough (total (fun m => if P m then 1 else 0) l = 0) by lia. apply IH. auto.
Qed.
Lemma cnt_le : forall (P Q : move -> bool) l, (forall m, P m = true -> Q m = true) -> cnt P l <= cnt Q l.
Proof. intros P Q l H. unfold cnt. induction l as [|m l IH]; simpl; [lia|]. specialize (H m). destruct (P m), (Q m); try lia. Qed.

Lemma cnt_length : forall P l, cnt P l <= Z.of_nat (length l).
Proof. intros P. unfold cnt. induction l as [|m l IH]; simpl; [lia|destruct (P m); lia]. Qed.
Lemma cnt_all : forall P l, cnt P l = Z.of_nat (length l) <-> forall m, In m l -> P m = true.
Proof.
  intros P. induction l as [|m l IH]; [split; [intros _ m []|reflexivity]|]. pose proof (cnt_length P l) as N. unfold cnt in *. simpl.
  destruct (P m) eqn:E; split; intros H.
  - intros x [->|I]; [exact E|apply IH; [lia|exact I]].
  - enough (total (fun m => if P m then 1 else 0) l = Z.of_nat (length l)) by lia. apply IH. auto.
  - lia.
  - rewrite (H m (or_introl eq_refl)) in E. discriminate.
Qed.
Lemma pick_max_ok : forall l i, 1 <= i <= cnt (is smax) l -> exists m, pick_max smax free value l i = Some m /\ In m l /\ free m = true /\ value m = smax.
Proof.
  unfold cnt. induction l as [|m l IH]; simpl; intros i H; [lia|].
  fold (is smax m). destruct (is smax m) eqn:E.
  - destruct (Z.eqb_spec (i - 1) 0).
    + exists m. unfold is in E. apply andb_prop in E. destruct E as [F V]. apply Z.eqb_eq in V. auto.
    + destruct (IH (i - 1)) as (m' & P & I & R); [lia|]. exists m'. auto.
  - destruct (IH i) as (m' & P & I & R); [lia|]. exists m'. auto.
Qed.

Hypothesis scores_ok : forall m, free m = true -> score_ok smin smax (value m).
Lemma weight_pos : forall m, free m = true -> 1 <= weight smid (value m).
Proof. intros m F. unfold weight. destruct (Z.eqb_spec (value m) (-1)); [lia|]. destruct (scores_ok m F); lia. Qed.
Lemma w_nonneg : forall m, 0 <= w m.
Proof. intros m. unfold w. destruct (free m) eqn:F; [pose proof (weight_pos m F)|]; lia. Qed.
Lemma before_nonneg : forall l m, 0 <= before w l m.
Proof. induction l as [|x l IH]; intros m; simpl; [lia|]. specialize (IH m). pose proof (w_nonneg x). destruct (_ && _); lia. Qed.
Lemma total_split : forall l, total w l = total part l + cnt (is score_none) l * smid + cnt (is smin) l * smin + cnt (is smax) l * smax.
Proof.
  unfold cnt. induction l as [|m l IH]; simpl; [lia|]. rewrite IH. unfold w, part, is, weight, score_none. destruct (free m) eqn:F; simpl; [|lia].
  destruct (scores_ok m F); destruct (Z.eqb_spec (value m) (-1)); destruct (Z.eqb_spec (value m) smax); destruct (Z.eqb_spec (value m) smin); simpl; lia.
Qed.
Lemma part_nonneg : forall l, 0 <= total part l.
Proof.
  induction l as [|m l IH]; simpl; [lia|]. unfold part at 1. destruct (free m) eqn:F; simpl; [|lia].
  destruct (scores_ok m F) as [-> | R]; destruct (_ =? smax), (_ =? smin); simpl; try lia; destruct (_ =? score_none) eqn:E; simpl; try lia.
Qed.
(** The sum the engine rolls for: the weights of the moves whose score is not the least. *)
Definition w1 (m : move) : Z := if free m && negb (value m =? smin) then weight smid (value m) else 0.
Lemma total_w1 : forall l, cnt (is smax) l = 0 -> total w1 l = total part l + cnt (is score_none) l * smid.
Proof.
  unfold cnt. induction l as [|m l IH]; simpl; intros N; [lia|]. pose proof (cnt_nonneg (is smax) l) as N'. unfold cnt in N'.
  rewrite IH by (destruct (is smax m); lia). assert (E : is smax m = false) by (destruct (is smax m); [lia|reflexivity]).
  unfold w1, part, is, weight, score_none in *. destruct (free m) eqn:F; simpl in *; [|lia]. rewrite E. simpl.
  destruct (scores_ok m F); destruct (Z.eqb_spec (value m) (-1)); destruct (Z.eqb_spec (value m) smin); simpl; lia.
Qed.
Lemma w1_pos : forall l m, In m l -> free m = true -> value m <> smin -> 1 <= total w1 l.
Proof.
  assert (N : forall l, 0 <= total w1 l).
  { induction l as [|x l IH]; simpl; [lia|]. unfold w1 at 1. destruct (free x) eqn:F; simpl; [|lia]. pose proof (weight_pos x F). destruct (negb _); lia. }
  induction l as [|x l IH]; intros m [] F V; simpl.
  - subst x. specialize (N l). unfold w1 at 1. rewrite F. destruct (Z.eqb_spec (value m) smin); [contradiction|]. simpl. pose proof (weight_pos m F). lia.
  - specialize (IH m H F V). unfold w1 at 1. destruct (free x) eqn:F'; simpl; [|lia]. pose proof (weight_pos x F'). destruct (negb _); lia.
Qed.
Lemma w1_zero : forall l, (forall m, In m l -> free m = true -> value m = smin) -> total w1 l = 0.
Proof.
  induction l as [|x l IH]; intros H; simpl; [reflexivity|]. rewrite IH by auto with datatypes. unfold w1. destruct (free x) eqn:F; simpl; [|lia].
  rewrite (H x (or_introl eq_refl) F), Z.eqb_refl. reflexivity.
Qed.
Lemma w1_le : forall l, total w1 l <= total w l.
Proof.
  induction l as [|x l IH]; simpl; [lia|]. unfold w1 at 1, w at 1. destruct (free x) eqn:F; simpl; [|lia]. pose proof (weight_pos x F). destruct (negb _); lia.
Qed.

(** The pick: the move in whose stretch the roll falls. *)
Lemma step_eq : forall m l r sm, free m = true ->
  pick_weighted smax smid smin free value (m :: l) r sm =
  if r - weight smid (value m) <=? 0 then Some m else pick_weighted smax smid smin free value l (r - weight smid (value m)) (Some m).
Proof.
  intros m l r sm F. simpl. rewrite F. unfold weight, score_none. destruct (scores_ok m F) as [-> | R].
  - destruct (Z.leb_spec smin (-1)); [lia|]. simpl. reflexivity.
  - destruct (Z.leb_spec smin (value m)); [|lia]. destruct (Z.leb_spec (value m) smax); [|lia]. simpl. destruct (Z.eqb_spec (value m) (-1)); [lia|]. reflexivity.
Qed.
Lemma pick_some : forall l r sm, (sm <> None \/ exists m, In m l /\ free m = true) -> exists m, pick_weighted smax smid smin free value l r sm = Some m /\ (sm = Some m \/ In m l /\ free m = true).
Proof.
  induction l as [|x l IH]; intros r sm H.
  - simpl. destruct sm as [m|]; [exists m; auto|]. destruct H as [H|(m & [] & _)]. contradiction.
  - destruct (free x) eqn:F.
    + rewrite step_eq by exact F. destruct (_ <=? 0); [exists x; split; [reflexivity|right; simpl; auto]|].
      destruct (IH (r - weight smid (value x)) (Some x)) as (m & P & Q); [left; discriminate|]. exists m. split; [exact P|].
      right. destruct Q as [[= <-]|[I F']]; simpl; auto.
    + simpl. rewrite F. destruct (IH r sm) as (m & P & Q).
      { destruct H as [H|(m & [->|I] & F')]; [left; exact H|congruence|right; eauto]. }
      exists m. split; [exact P|]. destruct Q as [Q|[I F']]; [left; exact Q|right; simpl; auto].
Qed.
Definition same (a b : move) : bool := (fst a =? fst b) && (snd a =? snd b).
Lemma same_iff : forall a b, same a b = true <-> a = b.
Proof. intros [a1 a2] [b1 b2]. unfold same. simpl. rewrite andb_true_iff, !Z.eqb_eq. split; [intros [-> ->]; reflexivity|intros [= -> ->]; auto]. Qed.
Lemma pick_in : forall l r sm m, In m l -> free m = true -> before w l m < r <= before w l m + w m -> pick_weighted smax smid smin free value l r sm = Some m.
Proof.
  induction l as [|x l IH]; intros r sm m I F H; [destruct I|]. cbn [before] in H. fold (same x m) in H. destruct (same x m) eqn:E.
  - apply same_iff in E. subst x. rewrite step_eq by exact F. unfold w in H. rewrite F in H. destruct (Z.leb_spec (r - weight smid (value m)) 0); [reflexivity|lia].
  - destruct I as [->|I]; [rewrite (proj2 (same_iff m m) eq_refl) in E; discriminate|]. pose proof (before_nonneg l m).
    destruct (free x) eqn:Fx; unfold w in H at 1 3; rewrite Fx in H.
    + rewrite step_eq by exact Fx. pose proof (weight_pos x Fx). destruct (Z.leb_spec (r - weight smid (value x)) 0); [lia|]. apply IH; auto. lia.
    + simpl. rewrite Fx. apply IH; [assumption|assumption|]. lia.
Qed.
Lemma pick_where : forall l r, NoDup l -> 0 < r <= total w l -> exists m, In m l /\ free m = true /\ before w l m < r <= before w l m + w m.
Proof.
  induction l as [|x l IH]; intros r D H; simpl in H; [lia|]. inversion D as [|y l' N D']; subst. cbn [before].
  destruct (Z_le_dec r (w x)) as [L|L].
  - exists x. fold (same x x). rewrite (proj2 (same_iff x x) eq_refl). split; [left; reflexivity|]. split; [|lia]. unfold w in L. destruct (free x); [reflexivity|lia].
  - destruct (IH (r - w x)) as (m & I & F & R); [exact D'|lia|]. exists m. split; [right; exact I|]. split; [exact F|]. fold (same x m). destruct (same x m) eqn:E; [|lia].
    apply same_iff in E. subst m. contradiction.
Qed.
Lemma pick_iff : forall l r m, NoDup l -> 0 < r <= total w l ->
  (pick_weighted smax smid smin free value l r None = Some m <-> In m l /\ free m = true /\ before w l m < r <= before w l m + w m).
Proof.
  intros l r m D H. split; [|intros (I & F & R); apply pick_in; auto].
  intros P. destruct (pick_where l r D H) as (m' & I & F & R). rewrite (pick_in l r None m' I F R) in P. injection P as <-. auto.
Qed.

(** ** The choice *)
Variable all_min : tally -> bool.
Variable min_move : Z -> move.
Variable slots : list move.
Notation choice := (fast_pick smax smid smin slots free value all_min min_move).
Lemma rem_range : forall a b, 0 <= a -> 0 < b -> 0 <= Z.rem a b < b.
Proof. intros. apply Z.rem_bound_pos; lia. Qed.
Definition tallied : tally := analyze smax smin free value slots no_tally.
(** the best are taken *)
Lemma choice_max : forall rand, 0 <= rand -> (exists m, In m slots /\ free m = true /\ value m = smax) ->
  exists m, choice rand = Chosen m /\ In m slots /\ free m = true /\ value m = smax.
Proof.
  intros rand R (m & I & F & V). unfold fast_pick. rewrite analyze_eq. simpl. rewrite ?Z.add_0_l.
  assert (P : 0 < cnt (is smax) slots).
  { pose proof (cnt_nonneg (is smax) slots). destruct (Z.eq_dec (cnt (is smax) slots) 0) as [E|]; [|lia].
    pose proof (proj1 (cnt_0 _ _) E m I) as N. unfold is in N. rewrite F, V, Z.eqb_refl in N. discriminate. }
  destruct (Z.ltb_spec 0 (cnt (is smax) slots)); [|lia].
  destruct (pick_max_ok slots (1 + Z.rem rand (cnt (is smax) slots))) as (m' & E & Q); [pose proof (rem_range rand (cnt (is smax) slots) R P); lia|].
  rewrite E. exists m'. auto.
Qed.
Lemma none_max : (forall m, In m slots -> free m = true -> value m <> smax) -> cnt (is smax) slots = 0.
Proof. intros H. apply cnt_0. intros m I. unfold is. destruct (free m) eqn:F; [|reflexivity]. simpl. apply Z.eqb_neq. auto. Qed.
Definition not_all : Prop := forall t, t = tallied -> all_min t = false.
Lemma choice_sum : forall rand, 0 <= rand -> (forall m, In m slots -> free m = true -> value m <> smax) -> not_all ->
  choice rand = if total w1 slots =? 0 then DivZero
                else match pick_weighted smax smid smin free value slots (1 + Z.rem rand (total w1 slots)) None with Some m => Chosen m | None => Unset end.
Proof.
  intros rand R N A. pose proof (none_max N) as C. pose proof (A _ eq_refl) as A'. unfold tallied in A'. unfold fast_pick. rewrite A'.
  rewrite analyze_eq. simpl. rewrite ?Z.add_0_l. rewrite C, Z.ltb_irrefl. rewrite <- (total_w1 slots C). reflexivity.
Qed.
Lemma choice_ok : forall rand, 0 <= rand -> not_all -> (exists m, In m slots /\ free m = true /\ value m <> smin) ->
  exists m, choice rand = Chosen m /\ In m slots /\ free m = true.
Proof.
  intros rand R A (m & I & F & V). destruct (Z.eq_dec (cnt (is smax) slots) 0) as [C|C].
  - assert (N : forall m, In m slots -> free m = true -> value m <> smax).
    { intros x Ix Fx E. pose proof (proj1 (cnt_0 _ _) C x Ix) as H. unfold is in H. rewrite Fx, E, Z.eqb_refl in H. discriminate. }
    rewrite choice_sum by assumption. pose proof (w1_pos slots m I F V). destruct (Z.eqb_spec (total w1 slots) 0); [lia|].
    destruct (pick_some slots (1 + Z.rem rand (total w1 slots)) None) as (m' & P & [Q|Q]); [right; eauto|discriminate|]. rewrite P. exists m'. auto.
  - destruct (choice_max rand R) as (m' & P & I' & F' & _); [|exists m'; auto].
    assert (E : existsb (is smax) slots = true).
    { destruct (existsb (is smax) slots) eqn:E; [reflexivity|]. exfalso. apply C. apply cnt_0. intros x Ix. destruct (is smax x) eqn:Ex; [|reflexivity].
      rewrite (proj2 (existsb_exists _ _)) in E; [discriminate|eauto]. }
    apply existsb_exists in E. destruct E as (x & Ix & E). unfold is in E. apply andb_prop in E. destruct E as [Fx E]. apply Z.eqb_eq in E. eauto.
Qed.
Lemma choice_weighted : forall rand m, NoDup slots -> 0 <= rand -> (forall m, In m slots -> free m = true -> value m <> smax) -> not_all ->
  0 < total w1 slots ->
  (choice rand = Chosen m <-> In m slots /\ free m = true /\ before w slots m <= rand mod total w1 slots < before w slots m + w m).
Proof.
  intros rand m D R N A P. rewrite choice_sum by assumption. destruct (Z.eqb_spec (total w1 slots) 0); [lia|].
  rewrite (Z.rem_mod_nonneg rand (total w1 slots) R P). pose proof (Z.mod_pos_bound rand (total w1 slots) P). pose proof (w1_le slots).
  pose proof (pick_iff slots (1 + rand mod total w1 slots) m D ltac:(lia)) as Q.
  destruct (pick_weighted _ _ _ _ _ slots (1 + rand mod total w1 slots) None) as [x|].
  - split; [intros [= ->]; destruct (proj1 Q eq_refl) as (I & F & B); repeat split; auto; lia|intros (I & F & B)].
    destruct Q as [_ Q]. rewrite (f_equal (fun o => match o with Some x => Chosen x | None => Unset end) (Q ltac:(repeat split; auto; lia))). reflexivity.
  - split; [discriminate|]. intros (I & F & B). destruct Q as [_ Q]. discriminate (Q ltac:(repeat split; auto; lia)).
Qed.
Lemma choice_zero : forall rand, 0 <= rand -> not_all -> (forall m, In m slots -> free m = true -> value m = smin) -> choice rand = DivZero.
Proof.
  intros rand R A H. rewrite choice_sum; auto.
  - rewrite w1_zero by exact H. reflexivity.
  - intros m I F E. rewrite (H m I F) in E. lia.
Qed.
Lemma choice_min : forall rand, (forall m, In m slots -> free m = true -> value m = smin) -> all_min tallied = true -> 0 < cnt free slots ->
  choice rand = Chosen (min_move (1 + Z.rem rand (cnt free slots))).
Proof.
  intros rand H A P. assert (C : cnt (is smax) slots = 0) by (apply none_max; intros m I F E; rewrite (H m I F) in E; lia).
  unfold tallied in A. unfold fast_pick. rewrite A. rewrite analyze_eq. simpl. rewrite ?Z.add_0_l. rewrite C, Z.ltb_irrefl.
  assert (M : cnt (is smin) slots = cnt free slots).
  { clear - H. unfold cnt. induction slots as [|x l IH]; simpl; [reflexivity|]. rewrite IH by auto with datatypes. unfold is. destruct (free x) eqn:F; [|reflexivity].
    rewrite (H x (or_introl eq_refl) F), Z.eqb_refl. reflexivity. }
  rewrite M. destruct (Z.eqb_spec (cnt free slots) 0); [lia|]. reflexivity.
Qed.
End pick.

(** ** The map *)
Lemma find_store : forall k key v key', find (store k key v) key' = if key' =? key then Some v else find k key'.
Proof.
  induction k as [|[x y] k IH]; intros key v key'; simpl.
  - destruct (key' =? key); reflexivity.
  - destruct (Z.eqb_spec key x); simpl.
    + subst x. destruct (key' =? key) eqn:E; reflexivity.
    + rewrite IH. destruct (Z.eqb_spec key' x); [|reflexivity]. destruct (Z.eqb_spec key' key); [congruence|reflexivity].
Qed.
Lemma find_in : forall k key v, find k key = Some v -> In (key, v) k.
Proof. induction k as [|[x y] k IH]; intros key v; simpl; [discriminate|]. destruct (Z.eqb_spec key x); [intros [= ->]; subst; auto|intros H; right; auto]. Qed.
Lemma store_forall : forall (P : list Z -> Prop) k key v, Forall (fun e => P (snd e)) k -> P v -> Forall (fun e => P (snd e)) (store k key v).
Proof. induction k as [|[x y] k IH]; intros key v H Hv; simpl; [constructor; auto|]. inversion H; subst. destruct (key =? x); constructor; auto. Qed.
Definition shape (n : nat) (hi : Z) (v : list Z) : Prop := length v = n /\ Forall (score_ok 1 hi) v.
Lemma fresh_shape : forall n hi, shape n hi (repeat score_none n).
Proof. intros. split; [apply repeat_length|]. apply Forall_forall. intros x I. apply repeat_spec in I. left. exact I. Qed.
Lemma nth_fresh : forall n i d, (i < n)%nat -> nth i (repeat score_none n) d = -1.
Proof. induction n; intros [|i] d H; simpl; try lia; [reflexivity|]. apply IHn. lia. Qed.
(** what the engines find *)
Lemma ensure_ok : forall room n hi k key v k', Forall (fun e => shape n hi (snd e)) k -> ensure room n k key = (Some v, k') ->
  shape n hi v /\ Forall (fun e => shape n hi (snd e)) k' /\ find k' key = Some v /\ (forall i, (i < n)%nat -> nth i v 0 = score k key (Z.of_nat i)) /\
  (forall key' i, (Z.to_nat i < n)%nat -> score k' key' i = score k key' i).
Proof.
  intros room n hi k key v k' K E. unfold ensure in E. destruct (find k key) as [u|] eqn:F.
  - injection E as <- <-. pose proof (proj1 (Forall_forall _ _) K _ (find_in _ _ _ F)) as Hs. simpl in Hs. split; [exact Hs|]. split; [exact K|]. split; [exact F|]. split; [|reflexivity].
    intros i Hi. unfold score. rewrite F, Nat2Z.id. apply nth_indep. destruct Hs as [-> _]. exact Hi.
  - destruct (room k key); [|discriminate]. injection E as <- <-. split; [apply fresh_shape|]. split; [apply store_forall; [exact K|apply fresh_shape]|].
    split; [rewrite find_store, Z.eqb_refl; reflexivity|]. split.
    + intros i Hi. unfold score. rewrite F. apply nth_fresh. exact Hi.
    + intros key' i Hi. unfold score. rewrite find_store. destruct (Z.eqb_spec key' key); [|reflexivity]. subst. rewrite F. apply nth_fresh. exact Hi.
Qed.
Lemma ensure_available : forall room n k key, available room k key <-> exists v k', ensure room n k key = (Some v, k').
Proof.
  intros. unfold available, ensure. destruct (find k key); [split; [eauto|left; discriminate]|]. destruct (room k key); [split; [eauto|auto]|].
  split; [intros [H|H]; [contradiction|discriminate]|intros (v & k' & [=])].
Qed.
Lemma set_ok : forall v i s, (i < length v)%nat -> exists v', set_score v i s = Some v' /\ length v' = length v /\ (forall j d, nth j v' d = if (j =? i)%nat then s else nth j v d).
Proof.
  induction v as [|x v IH]; intros [|i] s H; simpl in *; try lia.
  - eexists. split; [reflexivity|]. split; [reflexivity|]. intros [|j] d; reflexivity.
  - destruct (IH i s) as (v' & E & L & N); [lia|]. rewrite E. eexists. split; [reflexivity|]. split; [simpl; lia|]. intros [|j] d; simpl; [reflexivity|apply N].
Qed.
Lemma set_none : forall v i s, (length v <= i)%nat -> set_score v i s = None.
Proof. induction v as [|x v IH]; intros [|i] s H; simpl in *; try lia; auto. rewrite IH by lia. reflexivity. Qed.

(** ** The pick depends on the slots only *)
Section ext.
Variables smax smid smin : Z.
Variable slots : list move.
Variables free free' : move -> bool.
Variables value value' : move -> Z.
Definition agree (l : list move) : Prop := forall m, In m l -> free m = free' m /\ (free' m = true -> value m = value' m).
Lemma agree_tl : forall x l, agree (x :: l) -> agree l.
Proof. intros x l A m I. apply A. right. exact I. Qed.
Lemma analyze_ext : forall l t, agree l -> analyze smax smin free value l t = analyze smax smin free' value' l t.
Proof.
  induction l as [|x l IH]; intros t A; simpl; [reflexivity|]. destruct (A x (or_introl eq_refl)) as [F V]. rewrite F.
  destruct (free' x); [rewrite (V eq_refl)|]; apply IH; eapply agree_tl; eauto.
Qed.
Lemma pick_max_ext : forall l i, agree l -> pick_max smax free value l i = pick_max smax free' value' l i.
Proof.
  induction l as [|x l IH]; intros i A; simpl; [reflexivity|]. destruct (A x (or_introl eq_refl)) as [F V]. rewrite F. pose proof (agree_tl _ _ A).
  destruct (free' x); simpl; [rewrite (V eq_refl)|]; rewrite ?IH by assumption; reflexivity.
Qed.
Lemma pick_weighted_ext : forall l r sm, agree l -> pick_weighted smax smid smin free value l r sm = pick_weighted smax smid smin free' value' l r sm.
Proof.
  induction l as [|x l IH]; intros r sm A; simpl; [reflexivity|]. destruct (A x (or_introl eq_refl)) as [F V]. rewrite F. pose proof (agree_tl _ _ A).
  destruct (free' x); [rewrite (V eq_refl)|apply IH; assumption].
  destruct (_ && _); [|destruct (_ =? score_none)]; rewrite IH by assumption; reflexivity.
Qed.
Lemma fast_pick_ext : forall all_min min_move rand, agree slots ->
  fast_pick smax smid smin slots free value all_min min_move rand = fast_pick smax smid smin slots free' value' all_min min_move rand.
Proof.
  intros all_min min_move rand A. unfold fast_pick. rewrite (analyze_ext slots no_tally A). destruct (0 <? _).
  - rewrite pick_max_ext by exact A. reflexivity.
  - destruct (all_min _); [reflexivity|]. destruct (_ =? 0); [reflexivity|]. rewrite pick_weighted_ext by exact A. reflexivity.
Qed.
End ext.
Lemma before_filter : forall (p : move -> bool) (f g : move -> Z) l m, p m = true -> (forall x, In x l -> g x = if p x then f x else 0) -> before g l m = before f (filter p l) m.
Proof.
  intros p f g. induction l as [|x l IH]; intros m P H; [reflexivity|]. simpl. rewrite (H x (or_introl eq_refl)). rewrite (IH m P) by auto with datatypes.
  destruct (p x) eqn:E; simpl; [reflexivity|]. destruct ((fst x =? fst m) && (snd x =? snd m)) eqn:S; [|lia].
  fold (same x m) in S. apply same_iff in S. congruence.
Qed.
Lemma total_filter : forall (p : move -> bool) (f g : move -> Z) l, (forall x, In x l -> g x = if p x then f x else 0) -> total g l = total f (filter p l).
Proof.
  intros p f g. induction l as [|x l IH]; intros H; [reflexivity|]. simpl. rewrite (H x (or_introl eq_refl)), IH by auto with datatypes. destruct (p x); simpl; lia.
Qed.
Lemma filter_filter : forall (p q : move -> bool) l, filter q (filter p l) = filter (fun x => p x && q x) l.
Proof. intros p q. induction l as [|x l IH]; [reflexivity|]. simpl. destruct (p x); simpl; rewrite IH; reflexivity. Qed.
