(** Arrays of bytes as lists with checked reads and writes: an access outside
    the array is [None]. *)

From Coq Require Import ZArith List Bool Lia ZifyBool.
From Verif Require Import Base.
Import ListNotations.
Open Scope Z_scope.

Definition take {A} (n : Z) (l : list A) : list A := firstn (Z.to_nat n) l.
Definition drop {A} (n : Z) (l : list A) : list A := skipn (Z.to_nat n) l.

(** Write the bytes [w] at index [p]. *)
Definition write_at (b : list Z) (p : Z) (w : list Z) : option (list Z) :=
  if (0 <=? p) && (p + zlen w <=? zlen b)
  then Some (take p b ++ w ++ drop (p + zlen w) b) else None.

(** Read [n] bytes at index [p]. *)
Definition read_at (b : list Z) (p n : Z) : option (list Z) :=
  if (0 <=? p) && (0 <=? n) && (p + n <=? zlen b) then Some (take n (drop p b)) else None.

Lemma zlen_app : forall A (a b : list A), zlen (a ++ b) = zlen a + zlen b.
Proof. intros; unfold zlen. rewrite app_length. lia. Qed.
Lemma zlen_cons : forall A (x : A) l, zlen (x :: l) = zlen l + 1.
Proof. intros; unfold zlen. cbn [length]. lia. Qed.
Lemma zlen_nil : forall A, @zlen A [] = 0.
Proof. reflexivity. Qed.
Lemma zlen_nonneg : forall A (l : list A), 0 <= zlen l.
Proof. intros; unfold zlen; lia. Qed.
Lemma zlen_take : forall A n (l : list A), 0 <= n <= zlen l -> zlen (take n l) = n.
Proof. intros; unfold zlen, take in *. rewrite firstn_length. lia. Qed.
Lemma zlen_drop : forall A n (l : list A), 0 <= n <= zlen l -> zlen (drop n l) = zlen l - n.
Proof. intros; unfold zlen, drop in *. rewrite skipn_length. lia. Qed.
Lemma take_drop : forall A n (l : list A), take n l ++ drop n l = l.
Proof. intros. apply firstn_skipn. Qed.
Lemma take_app_exact : forall A (a b : list A), take (zlen a) (a ++ b) = a.
Proof. intros; unfold take, zlen. rewrite Nat2Z.id, firstn_app, Nat.sub_diag, firstn_all. cbn. apply app_nil_r. Qed.
Lemma drop_app_exact : forall A (a b : list A), drop (zlen a) (a ++ b) = b.
Proof. intros; unfold drop, zlen. rewrite Nat2Z.id, skipn_app, Nat.sub_diag, skipn_all. reflexivity. Qed.
Lemma take_all : forall A (l : list A) n, zlen l <= n -> take n l = l.
Proof. intros; unfold take, zlen in *. apply firstn_all2. lia. Qed.
Lemma drop_0 : forall A (l : list A), drop 0 l = l.
Proof. reflexivity. Qed.
Lemma take_take : forall A n m (l : list A), take n (take m l) = take (Z.min n m) l.
Proof. intros; unfold take. rewrite firstn_firstn. f_equal. lia. Qed.
Lemma drop_drop : forall A n m (l : list A), 0 <= n -> 0 <= m -> drop n (drop m l) = drop (n + m) l.
Proof.
  intros; unfold drop. rewrite Z2Nat.inj_add by lia. generalize (Z.to_nat n), (Z.to_nat m); intros a b. clear.
  revert l; induction b; intros; [rewrite Nat.add_0_r; reflexivity|].
  rewrite Nat.add_succ_r. destruct l; [rewrite !skipn_nil; reflexivity|]. apply IHb.
Qed.
Lemma split_at : forall A n (l : list A), 0 <= n <= zlen l -> exists a b, l = a ++ b /\ zlen a = n.
Proof. intros. exists (take n l), (drop n l). split; [symmetry; apply take_drop|apply zlen_take; assumption]. Qed.

Lemma write_at_app : forall a b c w, zlen b = zlen w -> write_at (a ++ b ++ c) (zlen a) w = Some (a ++ w ++ c).
Proof.
  intros. unfold write_at. pose proof (zlen_nonneg _ a). pose proof (zlen_nonneg _ c).
  rewrite !zlen_app. rewrite <- H.
  replace (0 <=? zlen a) with true by lia. replace (zlen a + zlen b <=? zlen a + (zlen b + zlen c)) with true by lia.
  cbn [andb]. rewrite take_app_exact. rewrite <- zlen_app. rewrite (app_assoc a b c), drop_app_exact. reflexivity.
Qed.
Lemma read_at_app : forall a b c, read_at (a ++ b ++ c) (zlen a) (zlen b) = Some b.
Proof.
  intros. unfold read_at. pose proof (zlen_nonneg _ a). pose proof (zlen_nonneg _ c). pose proof (zlen_nonneg _ b).
  rewrite !zlen_app.
  replace (0 <=? zlen a) with true by lia. replace (0 <=? zlen b) with true by lia.
  replace (zlen a + zlen b <=? zlen a + (zlen b + zlen c)) with true by lia.
  cbn [andb]. rewrite drop_app_exact, take_app_exact. reflexivity.
Qed.
Lemma write_at_len : forall b p w b', write_at b p w = Some b' -> zlen b' = zlen b.
Proof.
  unfold write_at; intros. destruct ((0 <=? p) && (p + zlen w <=? zlen b)) eqn:E; [|discriminate].
  injection H as <-. pose proof (zlen_nonneg _ w). rewrite !zlen_app, zlen_take, zlen_drop by lia. lia.
Qed.
Lemma write_at_some : forall b p w, 0 <= p -> p + zlen w <= zlen b -> exists b', write_at b p w = Some b'.
Proof.
  intros. unfold write_at. replace (0 <=? p) with true by lia. replace (p + zlen w <=? zlen b) with true by lia.
  eexists; reflexivity.
Qed.
Lemma write_at_prefix : forall a b w, zlen w <= zlen b -> write_at (a ++ b) (zlen a) w = Some (a ++ w ++ drop (zlen w) b).
Proof.
  intros. rewrite <- (take_drop _ (zlen w) b) at 1. apply write_at_app. apply zlen_take. pose proof (zlen_nonneg _ w). lia.
Qed.
Lemma read_at_prefix : forall a b, read_at (a ++ b) 0 (zlen a) = Some a.
Proof. intros. exact (read_at_app [] a b). Qed.

#[export] Hint Rewrite zlen_app zlen_cons zlen_nil : zl.
#[export] Hint Rewrite zlen_drop zlen_take using (autorewrite with zl; lia) : zl.
Ltac zl := autorewrite with zl in *; try lia.
