(** C54: the 2x2 solver of samples/basic/equations.h. *)

From Coq Require Import ZArith Bool Field_theory Field QArith Qcanon SpecFloat.
From Verif Require Import Equations_Model.
Open Scope Z_scope.

Section over_a_field.
(** Any field in which equality with zero can be tested. *)
Variable F : Type.
Variables (f0 f1 : F) (add mul sub : F -> F -> F) (opp : F -> F) (div : F -> F -> F) (inv : F -> F).
Hypothesis fld : field_theory f0 f1 add mul sub opp div inv (@eq F).
Variable eq0 : F -> bool.
Hypothesis eq0_ok : forall x, eq0 x = true <-> x = f0.
Add Field the_field : fld.
Declare Scope field_scope.
Delimit Scope field_scope with F.
Notation "x + y" := (add x y) : field_scope.
Notation "x * y" := (mul x y) : field_scope.
Notation "x - y" := (sub x y) : field_scope.
Local Open Scope field_scope.

Definition exact : arith F := {| Equations_Model.zero := f0; Equations_Model.sub := sub; Equations_Model.mul := mul; Equations_Model.div := div; is_zero := eq0 |}.
(** (x, y) solves the system *)
Definition solves (a00 a01 a10 a11 b0 b1 x y : F) : Prop := a00 * x + a01 * y = b0 /\ a10 * x + a11 * y = b1.
Definition status (r : Z * F * F) : Z := fst (fst r).

Lemma eq0_false : forall x, eq0 x = false <-> x <> f0.
Proof. intro x. rewrite <- eq0_ok. destruct (eq0 x); split; congruence. Qed.
Lemma dec0 : forall x : F, x = f0 \/ x <> f0.
Proof. intro x. destruct (eq0 x) eqn:E; [left; apply eq0_ok, E|right; apply eq0_false, E]. Qed.
Lemma one_zero : f1 <> f0.
Proof. exact (F_1_neq_0 fld). Qed.
Lemma mul_zero : forall x y, x * y = f0 -> x = f0 \/ y = f0.
Proof.
  intros x y H. destruct (dec0 x) as [E|N]; [left; exact E|right].
  transitivity (div (x * y) x); [field; exact N|]. rewrite H. field. exact N.
Qed.
Lemma sub_zero : forall x y, x - y = f0 <-> x = y.
Proof. intros x y. split; intro H; [|rewrite H; ring]. replace x with ((x - y) + y) by ring. rewrite H. ring. Qed.

Section system.
Variables a00 a01 a10 a11 b0 b1 : F.
Notation sol := (solves a00 a01 a10 a11 b0 b1).
Notation det := (a00 * a11 - a01 * a10).
Notation det_x := (b0 * a11 - a01 * b1).
Notation det_y := (a00 * b1 - b0 * a10).

Lemma cramer_x : forall x y, sol x y -> det * x = det_x.
Proof. intros x y (<- & <-). ring. Qed.
Lemma cramer_y : forall x y, sol x y -> det * y = det_y.
Proof. intros x y (<- & <-). ring. Qed.
(** a direction in which the left-hand sides do not change *)
Lemma kernel : det = f0 -> exists u v, (u <> f0 \/ v <> f0) /\ a00 * u + a01 * v = f0 /\ a10 * u + a11 * v = f0.
Proof.
  intro D. destruct (dec0 a00) as [E00|N]; [|exists a01, (f0 - a00); split; [right|split; [ring|]]].
  - destruct (dec0 a01) as [E01|N]; [|exists a01, (f0 - a00); split; [auto|split; [ring|]]].
    + destruct (dec0 a10) as [E10|N]; [|exists a11, (f0 - a10); split; [right|split; [rewrite E00, E01; ring|ring]]].
      * destruct (dec0 a11) as [E11|N]; [|exists a11, (f0 - a10); split; [auto|split; [rewrite E00, E01; ring|ring]]].
        exists f1, f0. split; [left; apply one_zero|]. rewrite E00, E01, E10, E11. split; ring.
      * intro H. apply N. replace a10 with (f0 - (f0 - a10)) by ring. rewrite H. ring.
    + transitivity (f0 - det); [ring|rewrite D; ring].
  - intro H. apply N. replace a00 with (f0 - (f0 - a00)) by ring. rewrite H. ring.
  - transitivity (f0 - det); [ring|rewrite D; ring].
Qed.
(** a solution when the determinants vanish and the matrix does not *)
Lemma some_solution : det = f0 -> det_x = f0 -> det_y = f0 -> (a00 <> f0 \/ a01 <> f0 \/ a10 <> f0 \/ a11 <> f0) -> exists x y, sol x y.
Proof.
  intros D X Y N. apply (proj1 (sub_zero _ _)) in D. apply (proj1 (sub_zero _ _)) in X. apply (proj1 (sub_zero _ _)) in Y.
  destruct N as [N|[N|[N|N]]].
  - exists (div b0 a00), f0. split; [field; exact N|].
    transitivity (div (b0 * a10) a00); [field; exact N|]. rewrite <- Y. field. exact N.
  - exists f0, (div b0 a01). split; [field; exact N|].
    transitivity (div (b0 * a11) a01); [field; exact N|]. rewrite X. field. exact N.
  - exists (div b1 a10), f0. split; [|field; exact N].
    transitivity (div (a00 * b1) a10); [field; exact N|]. rewrite Y. field. exact N.
  - exists f0, (div b1 a11). split; [|field; exact N].
    transitivity (div (a01 * b1) a11); [field; exact N|]. rewrite <- X. field. exact N.
Qed.

Lemma solve_cases :
  let r := solve exact a00 a01 a10 a11 b0 b1 in
  (det <> f0 /\ r = (1%Z, div det_x det, div det_y det)) \/
  (det = f0 /\ (det_x <> f0 \/ det_y <> f0) /\ r = (0%Z, f0, f0)) \/
  (det = f0 /\ det_x = f0 /\ det_y = f0 /\ r = (2%Z, f0, f0)).
Proof.
  unfold solve. cbn. destruct (eq0 det) eqn:D; cbn [negb].
  - apply eq0_ok in D. right. destruct (eq0 det_x) eqn:X; cbn [negb orb].
    + destruct (eq0 det_y) eqn:Y; cbn [negb].
      * apply eq0_ok in X, Y. right. auto.
      * apply eq0_false in Y. left. auto.
    + apply eq0_false in X. left. auto.
  - apply eq0_false in D. left. auto.
Qed.

(** Status 1 exactly when there is exactly one solution, and it is the answer. *)
Theorem C54_one : let r := solve exact a00 a01 a10 a11 b0 b1 in
  (status r = 1%Z <-> exists x y, sol x y /\ forall x' y', sol x' y' -> x' = x /\ y' = y) /\
  (status r = 1%Z -> sol (snd (fst r)) (snd r)).
Proof.
  intro r. unfold r. destruct solve_cases as [(D & E)|[(D & N & E)|(D & X & Y & E)]]; rewrite E; cbn [status fst snd].
  - assert (S : sol (div det_x det) (div det_y det)) by (split; field; exact D).
    split; [|auto]. split; [|reflexivity]. intros _. exists (div det_x det), (div det_y det). split; [exact S|].
    intros x y H. rewrite <- (cramer_x _ _ H), <- (cramer_y _ _ H). split; field; exact D.
  - split; [|discriminate]. split; [discriminate|]. intros (x & y & S & _). exfalso.
    pose proof (cramer_x _ _ S) as X. pose proof (cramer_y _ _ S) as Y. rewrite D in X, Y.
    destruct N as [N|N]; apply N; [rewrite <- X|rewrite <- Y]; ring.
  - split; [|discriminate]. split; [discriminate|]. intros (x & y & (S1 & S2) & U). exfalso.
    destruct (kernel D) as (u & v & N & K1 & K2).
    destruct (U (x + u) (y + v)) as (Ex & Ey).
    { split; [rewrite <- S1|rewrite <- S2]; [transitivity ((a00 * x + a01 * y) + (a00 * u + a01 * v))|transitivity ((a10 * x + a11 * y) + (a10 * u + a11 * v))]; [ring|rewrite K1; ring|ring|rewrite K2; ring]. }
    destruct N as [N|N]; apply N; [transitivity ((x + u) - x)|transitivity ((y + v) - y)]; [ring|rewrite Ex; ring|ring|rewrite Ey; ring].
Qed.
(** Status 0 only when there is no solution; and always then, unless the matrix is zero.  Missing:
    the zero matrix (C54_zero_matrix_refuted). *)
Theorem C54_none_partial : let r := solve exact a00 a01 a10 a11 b0 b1 in
  (status r = 0%Z -> ~ exists x y, sol x y) /\
  (a00 <> f0 \/ a01 <> f0 \/ a10 <> f0 \/ a11 <> f0 -> (~ exists x y, sol x y) -> status r = 0%Z).
Proof.
  intro r. unfold r. destruct solve_cases as [(D & E)|[(D & N & E)|(D & X & Y & E)]]; rewrite E; cbn [status fst snd].
  - split; [discriminate|]. intros _ H. exfalso. apply H. exists (div det_x det), (div det_y det). split; field; exact D.
  - split; [|reflexivity]. intros _ (x & y & S). pose proof (cramer_x _ _ S) as X. pose proof (cramer_y _ _ S) as Y. rewrite D in X, Y.
    destruct N as [N|N]; apply N; [rewrite <- X|rewrite <- Y]; ring.
  - split; [discriminate|]. intros M H. exfalso. apply H, some_solution; assumption.
Qed.
(** Status 2 exactly when there is more than one solution -- and then a whole line of them --
    unless the matrix is zero and the right-hand side is not. *)
Theorem C54_many_partial : a00 <> f0 \/ a01 <> f0 \/ a10 <> f0 \/ a11 <> f0 \/ (b0 = f0 /\ b1 = f0) ->
  let r := solve exact a00 a01 a10 a11 b0 b1 in
  (status r = 2%Z <-> exists x y x' y', sol x y /\ sol x' y' /\ (x <> x' \/ y <> y')) /\
  (status r = 2%Z -> exists x y u v, (u <> f0 \/ v <> f0) /\ forall t, sol (x + t * u) (y + t * v)).
Proof.
  intros M r. unfold r. destruct solve_cases as [(D & E)|[(D & N & E)|(D & X & Y & E)]]; rewrite E; cbn [status fst snd].
  - split; [|discriminate]. split; [discriminate|]. intros (x & y & x' & y' & S & S' & N). exfalso.
    assert (U : forall x y, sol x y -> x = div det_x det /\ y = div det_y det)
      by (intros ? ? H; rewrite <- (cramer_x _ _ H), <- (cramer_y _ _ H); split; field; exact D).
    destruct (U _ _ S), (U _ _ S'). destruct N as [N|N]; apply N; congruence.
  - split; [|discriminate]. split; [discriminate|]. intros (x & y & _ & _ & S & _). exfalso.
    pose proof (cramer_x _ _ S) as X. pose proof (cramer_y _ _ S) as Y. rewrite D in X, Y.
    destruct N as [N|N]; apply N; [rewrite <- X|rewrite <- Y]; ring.
  - assert (L : exists x y u v, (u <> f0 \/ v <> f0) /\ forall t, sol (x + t * u) (y + t * v)).
    { destruct (kernel D) as (u & v & N & K1 & K2).
      assert (S : exists x y, sol x y).
      { destruct (dec0 a00) as [E0|N0]; [|apply some_solution; auto]. destruct (dec0 a01) as [E1|N1]; [|apply some_solution; auto].
        destruct (dec0 a10) as [E2|N2]; [|apply some_solution; auto]. destruct (dec0 a11) as [E3|N3]; [|apply some_solution; auto].
        destruct M as [M|[M|[M|[M|(B0 & B1)]]]]; try contradiction. exists f0, f0. rewrite B0, B1. split; ring. }
      destruct S as (x & y & S1 & S2). exists x, y, u, v. split; [exact N|]. intro t.
      split; [transitivity ((a00 * x + a01 * y) + t * (a00 * u + a01 * v)); [ring|rewrite K1, S1; ring]|].
      transitivity ((a10 * x + a11 * y) + t * (a10 * u + a11 * v)); [ring|rewrite K2, S2; ring]. }
    split; [|auto]. split; [|reflexivity]. intros _. destruct L as (x & y & u & v & N & S).
    exists (x + f0 * u), (y + f0 * v), (x + f1 * u), (y + f1 * v). split; [apply S|]. split; [apply S|].
    destruct N as [N|N]; [left|right]; intro H; apply N; [transitivity ((x + f1 * u) - (x + f0 * u))|transitivity ((y + f1 * v) - (y + f0 * v))]; [ring|rewrite H; ring|ring|rewrite H; ring].
Qed.
End system.
End over_a_field.
Print Assumptions C54_one.
Print Assumptions C54_none_partial.
Print Assumptions C54_many_partial.

(** The rationals are such a field. *)
Definition rationals : arith Qc := exact Qc 0%Qc Qcmult Qcminus Qcdiv (fun x => if Qc_eq_dec x 0%Qc then true else false).
Definition q (n : Z) : Qc := Q2Qc (inject_Z n).
Example C54_ex : (forall x : Qc, (if Qc_eq_dec x 0%Qc then true else false) = true <-> x = 0%Qc) /\
  solve rationals (q 1) (q 2) (q 3) (q 4) (q 5) (q 6) = (1, q (-4), Q2Qc (9 # 2)) /\
  status Qc (solve rationals (q 1) (q 2) (q 2) (q 4) (q 5) (q 6)) = 0 /\ status Qc (solve rationals (q 1) (q 2) (q 2) (q 4) (q 5) (q 10)) = 2.
Proof.
  split; [|split; [|split]].
  - intro x. destruct (Qc_eq_dec x 0%Qc); split; congruence.
  - vm_compute. apply (f_equal2 pair); [apply (f_equal2 pair); [reflexivity|]|]; apply Qc_is_canon; reflexivity.
  - vm_compute. reflexivity.
  - vm_compute. reflexivity.
Qed.
(** The zero matrix with a right-hand side: no solution, but the answer is that there are many. *)
Theorem C54_zero_matrix_refuted : exists b0 b1 : Qc, status Qc (solve rationals (q 0) (q 0) (q 0) (q 0) b0 b1) = 2 /\
  ~ exists x y, solves Qc Qcplus Qcmult (q 0) (q 0) (q 0) (q 0) b0 b1 x y.
Proof.
  exists (q 1), (q 0). split; [vm_compute; reflexivity|]. intros (x & y & S & _).
  assert (E : (q 0 * x + q 0 * y)%Qc = q 0) by (change (q 0) with 0%Qc; ring). rewrite E in S. discriminate S.
Qed.
Print Assumptions C54_zero_matrix_refuted.
(** With double: the identity matrix scaled by 2^-600 and the right-hand side (2^-600, 2^-600) have
    the solution (1, 1) and no other, but the determinants are rounded to zero. *)
Definition tiny : spec_float := SFldexp 53 1024 (SFone 53 1024) (-600).
Theorem C54_double_refuted : fst (fst (solve double_arith tiny (S754_zero false) (S754_zero false) tiny tiny tiny)) = 2 /\
  SFdiv 53 1024 tiny tiny = SFone 53 1024 /\ SFeqb tiny (S754_zero false) = false.
Proof. vm_compute. repeat split; reflexivity. Qed.
Print Assumptions C54_double_refuted.
