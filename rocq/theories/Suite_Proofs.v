(** Proofs about test_suite::run. *)

From Coq Require Import String ZArith List Bool Lia.
From Verif Require Import Suite_Model Suite_Spec.
Import ListNotations.
Open Scope Z_scope.

Section Proofs.
Variable W : Type.

Lemma called_app : forall ms1 ms2 w1 rs1 w2 rs2 w3, called W ms1 w1 rs1 w2 -> called W ms2 w2 rs2 w3 -> called W (ms1 ++ ms2) w1 (rs1 ++ rs2) w3.
Proof. intros ms1 ms2 w1 rs1 w2 rs2 w3 H. induction H; intro K; cbn; [exact K|]. econstructor; eauto. Qed.
Lemma called_length : forall ms w rs w', called W ms w rs w' -> length rs = length ms.
Proof. intros ms w rs w' H. induction H; cbn; congruence. Qed.
Lemma mv_app : forall a b, method_verdicts (a ++ b) = method_verdicts a ++ method_verdicts b.
Proof. intros. apply flat_map_app. Qed.
Lemma cv_app : forall a b, category_verdicts (a ++ b) = category_verdicts a ++ category_verdicts b.
Proof. intros. apply flat_map_app. Qed.

Lemma run_methods_spec : forall ms p w l, 
  match run_methods W ms p w l with
  | Ended v w' l' => exists rs l1, called W (map snd ms) w rs w' /\ v = p && forallb passes rs /\ (forall r, In r rs -> r <> Throws_other) /\
      l' = l ++ l1 /\ method_verdicts l1 = combine (map fst ms) (map passes rs) /\ category_verdicts l1 = []
  | Died l' => exists done m rest rs w1 w2, map snd ms = done ++ m :: rest /\ called W done w rs w1 /\ m w1 = (Throws_other, w2) /\ (forall r, In r rs -> r <> Throws_other)
  end.
Proof.
  induction ms as [|(n, m) ms IH]; intros p w l; cbn [run_methods].
  - exists [], []. split; [constructor|]. split; [cbn; now rewrite andb_true_r|]. split; [intros r []|]. split; [now rewrite app_nil_r|]. split; reflexivity.
  - destruct (m w) as (r, w1) eqn:E. destruct r as [b| |].
    + specialize (IH (p && b) w1 (l ++ [LMethod n b])). destruct (run_methods W ms (p && b) w1 (l ++ [LMethod n b])) as [v w' l'|l'].
      * destruct IH as (rs & l1 & C & V & T & L & M & K). exists (Returns b :: rs), (LMethod n b :: l1).
        split; [econstructor; eauto|]. split; [cbn; subst v; destruct b, p; cbn; reflexivity|]. split; [intros r [<-|I]; [discriminate|auto]|].
        split; [subst l'; now rewrite <- app_assoc|]. split; [cbn; unfold method_verdicts in M; rewrite M; destruct b; reflexivity|exact K].
      * destruct IH as (d & x & rest & rs & u1 & u2 & A & C & D & T). exists (m :: d), x, rest, (Returns b :: rs), u1, u2. cbn. rewrite A.
        split; [reflexivity|]. split; [econstructor; eauto|]. split; [exact D|]. intros r [<-|I]; [discriminate|auto].
    + specialize (IH (p && false) w1 (l ++ [LException; LMethod n false])). destruct (run_methods W ms (p && false) w1 (l ++ [LException; LMethod n false])) as [v w' l'|l'].
      * destruct IH as (rs & l1 & C & V & T & L & M & K). exists (Throws_std :: rs), (LException :: LMethod n false :: l1).
        split; [econstructor; eauto|]. split; [cbn; subst v; destruct p; cbn; reflexivity|]. split; [intros r [<-|I]; [discriminate|auto]|].
        split; [subst l'; now rewrite <- app_assoc|]. split; [cbn; unfold method_verdicts in M; rewrite M; reflexivity|exact K].
      * destruct IH as (d & x & rest & rs & u1 & u2 & A & C & D & T). exists (m :: d), x, rest, (Throws_std :: rs), u1, u2. cbn. rewrite A.
        split; [reflexivity|]. split; [econstructor; eauto|]. split; [exact D|]. intros r [<-|I]; [discriminate|auto].
    + exists [], m, (map snd ms), [], w, w1. split; [reflexivity|]. split; [constructor|]. split; [exact E|]. intros r [].
Qed.

Lemma combine_app : forall {A B} (a1 a2 : list A) (b1 b2 : list B), length a1 = length b1 -> combine (a1 ++ a2) (b1 ++ b2) = combine a1 b1 ++ combine a2 b2.
Proof. induction a1 as [|x a1 IH]; intros a2 [|y b1] b2 L; cbn in *; try discriminate; [reflexivity|]. rewrite IH by lia. reflexivity. Qed.

Lemma methods_of_cons : forall n ms cs, methods_of W ((n, ms) :: cs) = map snd ms ++ methods_of W cs.
Proof. intros. unfold methods_of. cbn. apply map_app. Qed.
Lemma run_categories_spec : forall cs p w l, 
  match run_categories W cs p w l with
  | Ended v w' l' => exists rs l1, called W (methods_of W cs) w rs w' /\ v = p && forallb passes rs /\ (forall r, In r rs -> r <> Throws_other) /\
      l' = l ++ l1 /\ method_verdicts l1 = combine (names_of W cs) (map passes rs) /\
      category_verdicts l1 = map (fun c => (fst c, forallb passes (snd c))) (by_category W cs rs)
  | Died l' => exists done m rest rs w1 w2, methods_of W cs = done ++ m :: rest /\ called W done w rs w1 /\ m w1 = (Throws_other, w2) /\ (forall r, In r rs -> r <> Throws_other)
  end.
Proof.
  induction cs as [|(n, ms) cs IH]; intros p w l; cbn [run_categories].
  - exists [], []. split; [constructor|]. split; [cbn; now rewrite andb_true_r|]. split; [intros r []|]. split; [now rewrite app_nil_r|]. split; reflexivity.
  - assert (R := run_methods_spec ms true w l). destruct (run_methods W ms true w l) as [v1 w1 l1|l1].
    + destruct R as (rs1 & k1 & C1 & V1 & T1 & L1 & M1 & K1).
      specialize (IH (p && v1) w1 (l1 ++ [LCategory n v1])). destruct (run_categories W cs (p && v1) w1 (l1 ++ [LCategory n v1])) as [v w' l'|l'].
      * destruct IH as (rs & k & C & V & T & L & M & K). exists (rs1 ++ rs), (k1 ++ LCategory n v1 :: k).
        assert (N := called_length _ _ _ _ C1). rewrite map_length in N.
        split; [rewrite methods_of_cons; eapply called_app; eauto|].
        split; [subst v v1; rewrite forallb_app; cbn; now rewrite andb_assoc|].
        split; [intros r I; apply in_app_or in I; destruct I; auto|].
        split; [subst l' l1; now rewrite <- !app_assoc|].
        split.
        -- rewrite mv_app, M1. unfold names_of. cbn. rewrite !map_app, combine_app by (rewrite !map_length; exact (eq_sym N)).
           cbn. f_equal. exact M.
        -- rewrite cv_app, K1. cbn. replace (@length (named_method W) ms) with (length rs1) by exact N. rewrite firstn_app, firstn_all, Nat.sub_diag. cbn. rewrite app_nil_r, skipn_app, skipn_all, Nat.sub_diag. cbn.
           unfold category_verdicts in K. rewrite K. subst v1. reflexivity.
      * destruct IH as (d & x & rest & rs & u1 & u2 & A & C & D & T). exists (map snd ms ++ d), x, rest, (rs1 ++ rs), u1, u2.
        split; [rewrite methods_of_cons, A; now rewrite <- app_assoc|].
        split; [eapply called_app; eauto|]. split; [exact D|]. intros r I. apply in_app_or in I. destruct I; auto.
    + destruct R as (d & x & rest & rs & u1 & u2 & A & C & D & T). exists d, x, (rest ++ methods_of W cs), rs, u1, u2.
      split; [rewrite methods_of_cons, A, <- app_assoc; reflexivity|]. auto.
Qed.

Lemma called_det : forall ms w rs w', called W ms w rs w' -> forall rs2 w2, called W ms w rs2 w2 -> rs = rs2 /\ w' = w2.
Proof.
  intros ms w rs w' H. induction H as [w|m ms w r w1 rs w2 E C IH]; intros rs3 w3 K; inversion K as [|? ? ? r' u' rs' ? E' C']; subst; [auto|].
  rewrite E in E'. injection E' as <- <-. destruct (IH _ _ C') as (-> & ->). auto.
Qed.
Lemma called_split : forall d ms w rs w', called W (d ++ ms) w rs w' -> exists rs1 w1 rs2, rs = rs1 ++ rs2 /\ called W d w rs1 w1 /\ called W ms w1 rs2 w'.
Proof.
  induction d as [|m d IH]; intros ms w rs w' H; cbn in H.
  - exists [], w, rs. repeat split; auto; constructor.
  - inversion H as [|? ? ? r u' rs' ? E' C']; subst. destruct (IH _ _ _ _ C') as (rs1 & u & rs2 & -> & A & B). exists (r :: rs1), u, rs2. repeat split; auto. econstructor; eauto.
Qed.
Lemma called_some : forall ms w, exists rs w', called W ms w rs w'.
Proof.
  induction ms as [|m ms IH]; intro w; [do 2 eexists; constructor|]. destruct (m w) as (r, w1) eqn:E. destruct (IH w1) as (rs & w' & C). do 2 eexists. econstructor; eauto.
Qed.
Lemma forallb_passes : forall rs, forallb passes rs = true <-> Forall (eq (Returns true)) rs.
Proof.
  induction rs as [|r rs IH]; cbn; [split; auto|]. rewrite andb_true_iff, IH. split.
  - intros (A & B). constructor; [destruct r as [[|]| |]; try discriminate; reflexivity|exact B].
  - intro F. inversion F; subst. split; [reflexivity|assumption].
Qed.
Lemma suite_srand_form : forall (lib : libc W) seed w, exists sd u, suite_srand W lib seed w = (sd, seed_with lib sd u) /\ (seed <> 0 -> sd = seed).
Proof.
  intros lib seed w. unfold suite_srand. destruct (Z.eqb_spec seed 0) as [Z0|Z0].
  - destruct (next_rand lib _) as (r, w1). do 2 eexists. split; [reflexivity|]. intro N. contradiction.
  - do 2 eexists. split; [reflexivity|]. reflexivity.
Qed.
End Proofs.
