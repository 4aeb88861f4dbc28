(** The theorems about test_suite: C106 (the verdict), C107 (the seed). *)

From Coq Require Import String ZArith List Bool Lia.
From Verif Require Import Suite_Model Suite_Spec Suite_Proofs.
Import ListNotations.
Local Open Scope string_scope.
Open Scope Z_scope.

(** ** C106 *)
(** If run() returns, then every method was called once, in the order listed, whatever the others did; none threw anything but
    std::exceptions; the answer is true exactly if all of them returned true; the verdicts in the log are those of the methods,
    of the categories and of the suite. *)
Theorem C106_verdict : forall W lib cs seed w v s w' l, run W lib cs seed w = Ended (v, s) w' l ->
  exists w0 rs, called W (methods_of W cs) w0 rs w' /\ (v = true <-> Forall (eq (Returns true)) rs) /\ ~ In Throws_other rs /\
    method_verdicts l = combine (names_of W cs) (List.map passes rs) /\
    category_verdicts l = List.map (fun c => (fst c, forallb passes (snd c))) (by_category W cs rs) /\
    exists l0, l = (l0 ++ [LSeed s; LSummary v])%list.
Proof.
  intros W lib cs seed w v s w' l E. unfold run in E. destruct (suite_srand W lib seed w) as (s0, w0). assert (R := run_categories_spec W cs true w0 []).
  destruct (run_categories W cs true w0 []) as [v1 w1 l1|l1]; [|discriminate]. injection E as <- <- <- <-. destruct R as (rs & k & C & V & T & L & M & K). cbn in V, L. subst l1.
  exists w0, rs. split; [exact C|]. split; [subst v1; apply forallb_passes|]. split; [intro I; exact (T _ I eq_refl)|].
  split; [rewrite mv_app, M; cbn; apply app_nil_r|]. split; [rewrite cv_app, K; cbn; apply app_nil_r|]. exists k. reflexivity.
Qed.
(** A program with a counter: the methods count their calls; one returns false, one throws. *)
Definition lib0 : libc Z := {| seed_with := fun s _ => s; next_rand := fun w => (w + 5, w + 1); ticks := 17 |}.
Definition m_true : method Z := fun w => (Returns true, w + 1).
Definition m_even : method Z := fun w => (Returns (Z.even w), w + 1).
Definition m_throw : method Z := fun w => (Throws_std, w + 1).
Definition m_int : method Z := fun w => (Throws_other, w).
Definition suite1 : list (named_category Z) := [("a", [("a1", m_true); ("a2", m_even)]); ("b", []); ("c", [("c1", m_throw); ("c2", m_true)])].
Example C106_verdict_ex : run Z lib0 suite1 4 0 =
  Ended (false, 4) 8 [LMethod "a1" true; LMethod "a2" false; LCategory "a" false; LCategory "b" true; LException; LMethod "c1" false; LMethod "c2" true; LCategory "c" false; LSeed 4; LSummary false]
  /\ run Z lib0 [("a", [("a1", m_true); ("a2", m_even)])] 5 0 = Ended (true, 5) 7 [LMethod "a1" true; LMethod "a2" true; LCategory "a" true; LSeed 5; LSummary true].
Proof. split; vm_compute; reflexivity. Qed.
(** The process reports success exactly if the suite has run to its end and every method returned true. *)
Theorem C106_status : forall W lib cs seed w, exit_status W (run W lib cs seed w) = 0 <->
  exists w' l, run W lib cs seed w = Ended (true, fst (suite_srand W lib seed w)) w' l /\
    exists rs, called W (methods_of W cs) (snd (suite_srand W lib seed w)) rs w' /\ Forall (eq (Returns true)) rs.
Proof.
  intros W lib cs seed w. unfold run. destruct (suite_srand W lib seed w) as (s0, w0). cbn [fst snd]. assert (R := run_categories_spec W cs true w0 []).
  destruct (run_categories W cs true w0 []) as [v1 w1 l1|l1]; cbn [exit_status].
  - destruct R as (rs & k & C & V & _). cbn in V. destruct v1.
    + split; [|reflexivity]. intros _. do 2 eexists. split; [reflexivity|]. exists rs. split; [exact C|]. apply forallb_passes. symmetry. exact V.
    + split; [discriminate|]. intros (w' & l & E & _). discriminate.
  - split; [discriminate|]. intros (w' & l & E & _). discriminate.
Qed.
Example C106_status_ex : exit_status Z (run Z lib0 suite1 4 0) = 1 /\ exit_status Z (run Z lib0 [("a", [("a1", m_true); ("a2", m_even)])] 5 0) = 0.
Proof. split; vm_compute; reflexivity. Qed.
(** The only way not to get a verdict: the first method that throws something else than a std::exception ends the program; the methods before it were called as above. *)
Theorem C106_no_verdict : forall W lib cs seed w, 
  (exists l, run W lib cs seed w = Died l) <->
  exists done m rest rs w1 w2, methods_of W cs = (done ++ m :: rest)%list /\ called W done (snd (suite_srand W lib seed w)) rs w1 /\ m w1 = (Throws_other, w2).
Proof.
  intros W lib cs seed w. unfold run. destruct (suite_srand W lib seed w) as (s0, w0). cbn [snd]. assert (R := run_categories_spec W cs true w0 []).
  destruct (run_categories W cs true w0 []) as [v1 w1 l1|l1].
  - split; [intros (l & E); discriminate|]. intros (d & m & rest & rs & u1 & u2 & A & C & D). destruct R as (rs2 & k & C2 & _ & T & _). exfalso.
    rewrite A in C2. destruct (called_split _ _ _ _ _ _ C2) as (ra & wa & rb & -> & Ca & Cb). destruct (called_det _ _ _ _ _ C _ _ Ca) as (-> & ->).
    inversion Cb as [|? ? ? r' u' rs' ? E' C']; subst. rewrite D in E'. injection E' as <- <-. apply (T Throws_other); [apply in_or_app; right; left; reflexivity|reflexivity].
  - split; [|eauto]. intros _. destruct R as (d & x & rest & rs & u1 & u2 & A & C & D & _). exists d, x, rest, rs, u1, u2. auto.
Qed.
Example C106_no_verdict_ex : run Z lib0 [("a", [("a1", m_true); ("a2", m_int); ("a3", m_true)])] 5 0 = Died [LMethod "a1" true].
Proof. vm_compute. reflexivity. Qed.
(** False: "a method that throws is a method that fails".  One that throws a number ends the program: the methods after it are not called and there is no summary. *)
Theorem C106_refuted : exists (cs : list (named_category Z)) l, run Z lib0 cs 5 0 = Died l /\ methods_of Z cs = [m_int; m_true] /\ method_verdicts l = [] /\ ~ In (LSummary false) l.
Proof. exists [("a", [("a1", m_int); ("a2", m_true)])]. eexists. split; [vm_compute; reflexivity|]. split; [reflexivity|]. split; [reflexivity|]. intros []. Qed.

(** ** C107 *)
(** A run with the seed an earlier run has printed repeats the earlier run, if that seed is not 0 and the methods
    depend on nothing that std::srand does not set. *)
Theorem C107_repeat_partial : forall W lib lib2 cs seed w w2 v s w' l,
  (forall x u u2, seed_with lib x u = seed_with lib2 x u2) ->
  run W lib cs seed w = Ended (v, s) w' l -> s <> 0 -> run W lib2 cs s w2 = Ended (v, s) w' l.
Proof.
  intros W lib lib2 cs seed w w2 v s w' l S E N. unfold run in *. destruct (suite_srand_form W lib seed w) as (sd & u & X & _). rewrite X in E.
  destruct (run_categories W cs true (seed_with lib sd u) []) as [v1 w1 l1|l1] eqn:R; [|discriminate]. injection E as <- <- <- <-.
  unfold suite_srand. destruct (Z.eqb_spec sd 0); [contradiction|]. rewrite <- (S sd u w2), R. reflexivity.
Qed.
Example C107_repeat_ex : exists w' l, run Z lib0 suite1 0 3 = Ended (false, 22) w' l /\ run Z lib0 suite1 22 8 = Ended (false, 22) w' l.
Proof. do 2 eexists. split; vm_compute; reflexivity. Qed.
(** The seed a run prints is the one std::srand was given last before the methods. *)
Theorem C107_printed : forall W lib cs seed w v s w' l, run W lib cs seed w = Ended (v, s) w' l ->
  In (LSeed s) l /\ (seed <> 0 -> s = seed) /\ exists u rs, called W (methods_of W cs) (seed_with lib s u) rs w'.
Proof.
  intros W lib cs seed w v s w' l E. unfold run in E. destruct (suite_srand_form W lib seed w) as (sd & u & X & N). rewrite X in E.
  assert (R := run_categories_spec W cs true (seed_with lib sd u) []).
  destruct (run_categories W cs true (seed_with lib sd u) []) as [v1 w1 l1|l1]; [|discriminate]. injection E as <- <- <- <-. destruct R as (rs & k & C & _).
  split; [apply in_or_app; right; left; reflexivity|]. split; [exact N|]. exists u, rs. exact C.
Qed.
Example C107_printed_ex : exists w' l, run Z lib0 suite1 0 3 = Ended (false, 22) w' l /\ In (LSeed 22) l.
Proof. do 2 eexists. split; [vm_compute; reflexivity|]. cbn. tauto. Qed.
(** False: "every run can be repeated with the seed it printed".  std::rand may return 0, and 0 asks for another random seed. *)
Definition lib_zero : libc Z := {| seed_with := fun s _ => s; next_rand := fun w => (w - 17, w + 1); ticks := 17 |}.
Definition lib_later : libc Z := {| seed_with := fun s _ => s; next_rand := fun w => (w - 17, w + 1); ticks := 18 |}.
Theorem C107_repeat_refuted : exists w1 l1 w2 l2, run Z lib_zero [("a", [("a1", m_even)])] 0 3 = Ended (true, 0) w1 l1 /\ run Z lib_later [("a", [("a1", m_even)])] 0 3 = Ended (false, 1) w2 l2.
Proof. do 4 eexists. split; vm_compute; reflexivity. Qed.

Print Assumptions C106_verdict.
Print Assumptions C106_status.
Print Assumptions C106_no_verdict.
Print Assumptions C106_refuted.
Print Assumptions C107_repeat_partial.
Print Assumptions C107_printed.
Print Assumptions C107_repeat_refuted.
