From Coq Require Import ZArith List Bool Lia ZifyBool.
From Verif Require Import Base Ascii_Model Ascii_Spec.
Import ListNotations.
Open Scope Z_scope.

Ltac dif := match goal with |- context [if ?x then true else false] => destruct x end.

Definition fold (cs : bool) (c : Z) : Z := if cs then c else lower c.

Lemma to_lower_lower : forall c, to_lower c = lower c.
Proof. intros; unfold to_lower, lower, is_upperalpha, is_between. destruct (_ && _); lia. Qed.

Lemma lower_zero : forall c, lower c = 0 -> c = 0.
Proof. intros c; unfold lower. destruct (_ && _) eqn:E; lia. Qed.

Lemma eq_fold : forall (cs : bool) c d,
  (if cs then c =? d else to_lower c =? to_lower d) = (fold cs c =? fold cs d).
Proof. intros [] c d; unfold fold; rewrite ?to_lower_lower; reflexivity. Qed.

Lemma fold_zero : forall cs c, fold cs c = 0 -> c = 0.
Proof. intros [] c; simpl; auto using lower_zero. Qed.

Lemma fold_zero' : forall cs, fold cs 0 = 0.
Proof. intros []; reflexivity. Qed.

Lemma char_at_app : forall p m i,
  char_at (p ++ m) (List.length p + i) = char_at m i.
Proof. intros; unfold char_at. rewrite nth_error_app2 by lia. f_equal; lia. Qed.

Lemma loop_shift : forall cs fuel p1 p2 m1 m2 i,
  List.length p1 = List.length p2 ->
  are_equal_loop cs (p1 ++ m1) (p2 ++ m2) (List.length p1 + i) fuel = are_equal_loop cs m1 m2 i fuel.
Proof.
  induction fuel; intros; simpl; auto.
  rewrite char_at_app, H, char_at_app.
  destruct (char_at m1 i); auto. destruct (char_at m2 i); auto.
  destruct (negb _); auto. destruct (_ && _); auto.
  replace (S (List.length p2 + i)) with (List.length p1 + S i)%nat by lia.
  apply IHfuel; auto.
Qed.

(** The loop compares the folded prefixes. *)
Lemma loop_spec : forall cs n a b ra rb,
  no_nul a -> no_nul b ->
  are_equal_loop cs (c_string a ra) (c_string b rb) 0 n
  = Some (if list_eq_dec Z.eq_dec (map (fold cs) (firstn n a)) (map (fold cs) (firstn n b)) then true else false).
Proof.
  intros cs; induction n; intros a b ra rb Ha Hb.
  - reflexivity.
  - unfold c_string. destruct a as [|x a]; destruct b as [|y b]; cbn [are_equal_loop app char_at nth_error].
    + rewrite eq_fold, Z.eqb_refl. reflexivity.
    + rewrite eq_fold. inversion Hb; subst.
      destruct (fold cs 0 =? fold cs y) eqn:E; cbn [negb].
      * apply Z.eqb_eq in E. rewrite fold_zero' in E. symmetry in E. apply fold_zero in E. contradiction.
      * cbn [firstn map]; dif; congruence.
    + rewrite eq_fold. inversion Ha; subst.
      destruct (fold cs x =? fold cs 0) eqn:E; cbn [negb].
      * apply Z.eqb_eq in E. rewrite fold_zero' in E. apply fold_zero in E. contradiction.
      * cbn [firstn map]; dif; congruence.
    + rewrite eq_fold. inversion Ha; inversion Hb; subst.
      destruct (fold cs x =? fold cs y) eqn:E; cbn [negb].
      * apply Z.eqb_eq in E.
        replace ((x =? 0) && (y =? 0)) with false by (symmetry; lia).
        pose proof (loop_shift cs n [x] [y] (a ++ 0 :: ra) (b ++ 0 :: rb) 0 eq_refl) as L.
        cbn [app List.length Nat.add] in L. rewrite L. clear L.
        fold (c_string a ra). fold (c_string b rb). rewrite IHn by assumption.
        cbn [firstn map]. rewrite E.
        destruct (list_eq_dec Z.eq_dec (map _ (firstn n a)) _), (list_eq_dec Z.eq_dec (fold cs y :: _) _); congruence.
      * apply Z.eqb_neq in E. cbn [firstn map].
        dif; congruence.
Qed.

Lemma map_fold_true : forall l, map (fold true) l = l.
Proof. induction l; simpl; unfold fold in *; congruence. Qed.

Lemma are_equal_i_n_spec : forall a b ra rb n,
  no_nul a -> no_nul b ->
  are_equal_i_n (Some (c_string a ra)) (Some (c_string b rb)) n = Some true
  <-> map lower (firstn n a) = map lower (firstn n b).
Proof.
  intros. unfold are_equal_i_n, are_equal4. rewrite loop_spec by assumption.
  dif; split; intro; first [assumption | congruence | (exfalso; auto)].
Qed.

Lemma are_equal_n_spec : forall a b ra rb n,
  no_nul a -> no_nul b ->
  are_equal_n (Some (c_string a ra)) (Some (c_string b rb)) n = Some true
  <-> firstn n a = firstn n b.
Proof.
  intros. unfold are_equal_n, are_equal4. rewrite loop_spec by assumption.
  rewrite !map_fold_true.
  dif; split; intro; first [assumption | congruence | (exfalso; auto)].
Qed.

Lemma firstn_unbounded : forall a r, firstn (unbounded (Some (c_string a r))) a = a.
Proof. intros; apply firstn_all2. unfold unbounded, c_string. rewrite app_length. simpl. lia. Qed.

Lemma firstn_eq_long : forall (f : Z -> Z) n (a b : list Z),
  (List.length a < n)%nat -> map f a = map f (firstn n b) -> map f a = map f b.
Proof.
  induction n; intros; [lia|]. destruct a, b; simpl in *; try congruence.
  injection H0; intros. rewrite H2. f_equal. apply IHn; auto. lia.
Qed.

Lemma unbounded_iff : forall cs a b ra,
  (map (fold cs) (firstn (unbounded (Some (c_string a ra))) a) = map (fold cs) (firstn (unbounded (Some (c_string a ra))) b))
  <-> map (fold cs) a = map (fold cs) b.
Proof.
  intros. rewrite firstn_unbounded. set (n := unbounded _).
  assert (List.length a < n)%nat by (unfold n, unbounded, c_string; rewrite app_length; simpl; lia).
  split; intro.
  - eapply firstn_eq_long; eauto.
  - rewrite H0. f_equal. symmetry. apply firstn_all2.
    apply (f_equal (@List.length Z)) in H0. rewrite !map_length in H0. lia.
Qed.

Lemma are_equal_i_spec : forall a b ra rb,
  no_nul a -> no_nul b ->
  are_equal_i (Some (c_string a ra)) (Some (c_string b rb)) = Some true
  <-> map lower a = map lower b.
Proof.
  intros. unfold are_equal_i, are_equal4. rewrite loop_spec by assumption.
  rewrite <- (unbounded_iff false a b ra).
  dif; split; intro; first [assumption | congruence | (exfalso; auto)].
Qed.

Lemma are_equal_spec : forall a b ra rb,
  no_nul a -> no_nul b ->
  are_equal (Some (c_string a ra)) (Some (c_string b rb)) = Some true <-> a = b.
Proof.
  intros. unfold are_equal, are_equal4. rewrite loop_spec by assumption.
  pose proof (unbounded_iff true a b ra) as U. rewrite !map_fold_true in *.
  rewrite <- U. dif; split; intro; first [assumption | congruence | (exfalso; auto)].
Qed.

(** No read outside the allocations. *)
Lemma are_equal_no_oob : forall cs a b ra rb n,
  no_nul a -> no_nul b ->
  exists r, are_equal4 (Some (c_string a ra)) (Some (c_string b rb)) cs n = Some r.
Proof. intros; unfold are_equal4; rewrite loop_spec by assumption; eauto. Qed.

(** With a bound, only the first [n] characters are looked at: the rest of the
    memory (even a missing terminator) is irrelevant. *)
Lemma loop_bounded : forall cs n p1 p2 q1 q2 i,
  (i + n <= List.length p1)%nat -> (i + n <= List.length p2)%nat ->
  are_equal_loop cs (p1 ++ q1) (p2 ++ q2) i n = are_equal_loop cs p1 p2 i n
  /\ are_equal_loop cs p1 p2 i n <> None.
Proof.
  induction n; intros; simpl; [split; congruence|].
  unfold char_at. rewrite !nth_error_app1 by lia.
  destruct (nth_error p1 i) eqn:E1; [|apply nth_error_None in E1; lia].
  destruct (nth_error p2 i) eqn:E2; [|apply nth_error_None in E2; lia].
  destruct (negb _); [split; congruence|]. destruct (_ && _); [split; congruence|].
  apply IHn; lia.
Qed.

Lemma lower_same_letter : forall c d, lower c = lower d <-> same_letter c d.
Proof.
  intros. unfold lower, same_letter.
  destruct (_ && _) eqn:E1; destruct (Z.leb 65 d && Z.leb d 90) eqn:E2; lia.
Qed.
