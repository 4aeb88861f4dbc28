(** Lemmas for C28, C29 and C65. *)

From Coq Require Import ZArith List Bool Lia.
From Verif Require Import Shutdown_Model Shutdown_Spec.
Import ListNotations.
Open Scope Z_scope.

Lemma run_app : forall l1 l2 s, run s (l1 ++ l2) = match run s l1 with Some s' => run s' l2 | None => None end.
Proof. induction l1; intros; cbn [run app]; [reflexivity|]. destruct (step s a); [apply IHl1|reflexivity]. Qed.
Lemma run_snoc : forall l a s s', run s (l ++ [a]) = Some s' <-> exists s1, run s l = Some s1 /\ step s1 a = Some s'.
Proof.
  intros. rewrite run_app. destruct (run s l) as [s1|]; cbn [run].
  - split; [destruct (step s1 a) eqn:E; [intros [= <-]; exists s1; split; [reflexivity|exact E]|discriminate]|]. intros (? & [= <-] & E). rewrite E. reflexivity.
  - split; [discriminate|]. intros (? & H & _). discriminate H.
Qed.

(** number of threads whose place satisfies [f] *)
Definition num (f : rpc -> bool) (l : list thread) : Z := Z.of_nat (length (filter (fun t => f (t_pc t)) l)).
Definition b2z (b : bool) : Z := if b then 1 else 0.
Lemma num_nonneg : forall f l, 0 <= num f l.
Proof. intros. unfold num. lia. Qed.
Lemma num_cons : forall f t l, num f (t :: l) = b2z (f (t_pc t)) + num f l.
Proof. intros. unfold num. cbn [filter]. destruct (f (t_pc t)); cbn [length b2z]; lia. Qed.
Lemma num_app1 : forall f l t, num f (l ++ [t]) = num f l + b2z (f (t_pc t)).
Proof. induction l; intros; cbn [app]; rewrite ?num_cons, ?IHl; [unfold num; cbn; lia|lia]. Qed.
Lemma num_upd : forall f l i t p b, nth_error l i = Some t -> num f (upd l i {| t_pc := p; t_shut := b |}) = num f l - b2z (f (t_pc t)) + b2z (f p).
Proof. induction l as [|u l IH]; intros [|i] t p b H; cbn in H; try discriminate; cbn [upd]; rewrite !num_cons; [injection H as ->; cbn [t_pc]; lia|rewrite (IH i t p b H); lia]. Qed.
Lemma num_ge : forall f l i t, nth_error l i = Some t -> f (t_pc t) = true -> 1 <= num f l.
Proof. induction l as [|u l IH]; intros [|i] t H F; cbn in H; try discriminate; rewrite num_cons; [injection H as ->; rewrite F; pose proof (num_nonneg f l); cbn [b2z]; lia|]. specialize (IH i t H F). unfold b2z. destruct (f (t_pc u)); lia. Qed.
Lemma num_zero : forall f l, num f l = 0 -> Forall (fun t => f (t_pc t) = false) l.
Proof. induction l as [|u l IH]; intros H; [constructor|]. rewrite num_cons in H. pose proof (num_nonneg f l). destruct (f (t_pc u)) eqn:E; cbn [b2z] in H; [lia|]. constructor; [exact E|apply IH; lia]. Qed.
Lemma num_none : forall f l, Forall (fun t => f (t_pc t) = false) l -> num f l = 0.
Proof. induction 1; [reflexivity|]. rewrite num_cons, H. cbn. exact IHForall. Qed.

Definition at_busy (p : rpc) := match p with RWork | RAnswer => true | _ => false end.
Definition at_inc (p : rpc) := match p with RInc => true | _ => false end.
Definition at_load (p : rpc) := match p with RLoad => true | _ => false end.
Definition at_set (p : rpc) := match p with RSet => true | _ => false end.

Ltac pr := cbn [s_count s_flag s_sets s_threads s_listener t_pc t_shut] in *.
(** All steps at once: the new state in terms of the old. *)
Ltac steps s a H :=
  destruct a as [| |i]; cbn [step] in H; unfold listen_step, connect in H;
  [destruct (s_listener s) eqn:?; try discriminate H; injection H as <-
  |destruct (s_listener s) eqn:?; try discriminate H; injection H as <-
  |destruct (nth_error (s_threads s) i) as [t|] eqn:?Ht; try discriminate H; unfold thread_step in H;
   destruct (t_pc t) eqn:?Hp; try discriminate H; injection H as <-]; pr.
Ltac nums := repeat match goal with
  | Ht : nth_error (s_threads ?s) ?i = Some ?t, Hp : t_pc ?t = _ |- context [num ?f (upd (s_threads ?s) ?i {| t_pc := ?p; t_shut := ?b |})] =>
      rewrite (num_upd f (s_threads s) i t p b Ht), Hp
  end; rewrite ?num_app1; cbn [t_pc at_busy at_inc at_load at_set b2z].

(** The counter is the number of requests in progress after the increment; nobody sets the promise
    without the flag. *)
Definition inv (s : sys) : Prop :=
  s_count s = num at_busy (s_threads s) /\ (s_flag s = false -> num at_set (s_threads s) = 0 /\ s_sets s = 0%nat) /\
  (s_flag s = true -> 1 <= Z.of_nat (s_sets s) + num at_busy (s_threads s) + num at_load (s_threads s) + num at_set (s_threads s)).
Lemma inv_new : inv sys_new.
Proof. repeat split; try discriminate. Qed.
Lemma inv_step : forall s a s', inv s -> step s a = Some s' -> inv s'.
Proof.
  intros s a s' (C & F & T) H.
  pose proof (num_nonneg at_busy (s_threads s)). pose proof (num_nonneg at_load (s_threads s)). pose proof (num_nonneg at_set (s_threads s)).
  steps s a H; unfold inv; pr; (split; [|split]);
    try (intros Hf; try (apply orb_false_iff in Hf; destruct Hf as [Hf Hs']; rewrite Hf in F)).
  all: try (rewrite Hf in *); try (destruct (s_flag s) eqn:Fl); try discriminate; try specialize (F eq_refl); try specialize (T eq_refl);
       try (destruct (s_count s - 1 =? 0) eqn:Z0; [apply Z.eqb_eq in Z0|apply Z.eqb_neq in Z0]); nums; try lia.
  all: try (pose proof (num_ge at_set (s_threads s) i t Ht) as G; rewrite Hp in G; specialize (G eq_refl); lia).
  all: pose proof (num_ge at_busy (s_threads s) i t Ht) as G; rewrite Hp in G; specialize (G eq_refl); lia.
Qed.
Lemma inv_run : forall l s, run sys_new l = Some s -> inv s.
Proof.
  induction l as [|a l IH] using rev_ind; intros s H; [injection H as <-; apply inv_new|].
  apply run_snoc in H. destruct H as (s1 & H1 & H2). exact (inv_step s1 a s (IH s1 H1) H2).
Qed.

(** The flag is set by a handler. *)
Lemma flag_set : forall s a s', step s a = Some s' -> s_flag s = false -> s_flag s' = true -> exists i, a = AThread i /\ requests_shutdown s i.
Proof.
  intros s a s' H F T. steps s a H; try congruence.
  rewrite F in T. cbn in T. exists i. split; [reflexivity|]. exists t. repeat split; assumption.
Qed.
Lemma requested : forall l s, run sys_new l = Some s -> s_flag s = true -> shutdown_requested l.
Proof.
  induction l as [|a l IH] using rev_ind; intros s H T; [injection H as <-; discriminate T|].
  apply run_snoc in H. destruct H as (s1 & H1 & H2). destruct (s_flag s1) eqn:F.
  - destruct (IH s1 H1 F) as (l1 & i & l2 & s0 & E & R & Q). exists l1, i, (l2 ++ [a]), s0. rewrite E, <- app_assoc. repeat split; assumption.
  - destruct (flag_set s1 a s H2 F T) as (i & -> & Q). exists l, i, [], s1. repeat split; assumption.
Qed.
Lemma after_shutdown : forall l s, run sys_new l = Some s -> (0 < s_sets s)%nat -> shutdown_requested l.
Proof.
  intros l s H P. apply (requested l s H). destruct (inv_run l s H) as (_ & F & _). destruct (s_flag s); [reflexivity|]. destruct (F eq_refl). lia.
Qed.

Lemma ended : forall s, reachable s -> s_flag s = true -> Forall (fun t => t_pc t = REnd) (s_threads s) -> (1 <= s_sets s)%nat.
Proof.
  intros s (l & H) T E. destruct (inv_run l s H) as (_ & _ & I). specialize (I T).
  assert (forall f, f REnd = false -> num f (s_threads s) = 0) as N.
  { intros f Hf. apply num_none. eapply Forall_impl; [|exact E]. intros u ->. exact Hf. }
  rewrite !N in I by reflexivity. lia.
Qed.

(** In a quiet interleaving. *)
Definition quiet_inv (s : sys) : Prop :=
  s_flag s = true -> num at_inc (s_threads s) = 0 /\
    (num at_busy (s_threads s) = 0 -> Z.of_nat (s_sets s) + num at_load (s_threads s) + num at_set (s_threads s) <= 1) /\
    (1 <= num at_busy (s_threads s) -> Z.of_nat (s_sets s) + num at_load (s_threads s) + num at_set (s_threads s) = 0).
Lemma quiet_step : forall s a s', inv s -> quiet_inv s -> step s a = Some s' ->
  (s_flag s = false -> s_flag s' = true -> Forall (fun t => t_pc t <> RInc /\ t_pc t <> RLoad) (s_threads s)) -> quiet_inv s'.
Proof.
  intros s a s' (C & F & _) Q H K.
  pose proof (num_nonneg at_busy (s_threads s)). pose proof (num_nonneg at_load (s_threads s)). pose proof (num_nonneg at_set (s_threads s)).
  pose proof (num_nonneg at_inc (s_threads s)).
  destruct (s_flag s) eqn:Fl.
  - specialize (Q Fl). clear K F.
    steps s a H; unfold quiet_inv; pr; rewrite ?Fl; intros _;
      try (destruct (s_count s - 1 =? 0) eqn:Z0; [apply Z.eqb_eq in Z0|apply Z.eqb_neq in Z0]); nums;
      try (pose proof (num_ge at_busy (s_threads s) i t Ht) as G; rewrite Hp in G; try specialize (G eq_refl); cbn in G);
      try (pose proof (num_ge at_inc (s_threads s) i t Ht) as G'; rewrite Hp in G'; try specialize (G' eq_refl); cbn in G');
      try (pose proof (num_ge at_load (s_threads s) i t Ht) as G''; rewrite Hp in G''; try specialize (G'' eq_refl); cbn in G'');
      try (pose proof (num_ge at_set (s_threads s) i t Ht) as G3; rewrite Hp in G3; try specialize (G3 eq_refl); cbn in G3); lia.
  - intros T. specialize (K eq_refl T). destruct (F eq_refl) as (N & S0).
    assert (num at_inc (s_threads s) = 0) as NI. { apply num_none. eapply Forall_impl; [|exact K]. intros u (A & _). destruct (t_pc u); try reflexivity. congruence. }
    assert (num at_load (s_threads s) = 0) as NL. { apply num_none. eapply Forall_impl; [|exact K]. intros u (_ & A). destruct (t_pc u); try reflexivity. congruence. }
    destruct (flag_set s a s' H Fl T) as (i & -> & u & Hu & Pu & Su).
    cbn [step] in H. rewrite Hu in H. unfold thread_step in H. rewrite Pu in H. injection H as <-. pr.
    pose proof (num_ge at_busy (s_threads s) i u Hu) as G. rewrite Pu in G. specialize (G eq_refl).
    rewrite !(num_upd _ _ _ _ _ _ Hu), Pu. cbn [at_busy at_inc at_load at_set b2z]. lia.
Qed.
Lemma quiet_prefix : forall l a, quiet (l ++ [a]) -> quiet l.
Proof. intros l a Q l1 i l2 s E. apply (Q l1 i (l2 ++ [a]) s). rewrite E, <- app_assoc. reflexivity. Qed.
Lemma quiet_run : forall l s, quiet l -> run sys_new l = Some s -> quiet_inv s.
Proof.
  induction l as [|a l IH] using rev_ind; intros s Q H; [injection H as <-; discriminate|].
  apply run_snoc in H. destruct H as (s1 & H1 & H2).
  apply (quiet_step s1 a s (inv_run l s1 H1) (IH s1 (quiet_prefix l a Q) H1) H2).
  intros F T. destruct (flag_set s1 a s H2 F T) as (i & -> & R). exact (Q l i [] s1 eq_refl H1 F R).
Qed.
Lemma quiet_once : forall l s, quiet l -> run sys_new l = Some s -> (s_sets s <= 1)%nat.
Proof.
  intros l s Q H. destruct (inv_run l s H) as (_ & F & _). pose proof (quiet_run l s Q H) as I.
  pose proof (num_nonneg at_busy (s_threads s)). pose proof (num_nonneg at_load (s_threads s)). pose proof (num_nonneg at_set (s_threads s)).
  destruct (s_flag s) eqn:E; [|destruct (F eq_refl); lia]. destruct (I E) as (_ & A & B).
  destruct (Z.eq_dec (num at_busy (s_threads s)) 0); [specialize (A e); lia|]. assert (1 <= num at_busy (s_threads s)) as P by lia. specialize (B P). lia.
Qed.
Lemma quiet_done : forall l s, quiet l -> run sys_new l = Some s -> (0 < s_sets s)%nat -> Forall (fun t => ~ in_progress t) (s_threads s).
Proof.
  intros l s Q H P. destruct (inv_run l s H) as (_ & F & _). pose proof (quiet_run l s Q H) as I.
  pose proof (num_nonneg at_busy (s_threads s)). pose proof (num_nonneg at_load (s_threads s)). pose proof (num_nonneg at_set (s_threads s)).
  destruct (s_flag s) eqn:E; [|destruct (F eq_refl); lia]. destruct (I E) as (N & A & B).
  assert (num at_busy (s_threads s) = 0) as Z0. { destruct (Z.eq_dec (num at_busy (s_threads s)) 0); [assumption|]. assert (1 <= num at_busy (s_threads s)) as P1 by lia. specialize (B P1). lia. }
  apply num_zero in Z0. apply num_zero in N. rewrite Forall_forall in *. intros t Ht [K|[K|K]]; specialize (Z0 t Ht); specialize (N t Ht); rewrite K in Z0, N; discriminate.
Qed.
Lemma sequential_quiet : forall l, sequential l -> quiet l.
Proof.
  intros l S l1 i l2 s E R _ (t & Ht & Pt & _). apply Forall_forall. intros u Hu. apply In_nth_error in Hu. destruct Hu as (j & Hj).
  specialize (S l1 (AThread i :: l2) s i j t u E R Ht Hj). rewrite Pt in S.
  split; intros K; rewrite K in S; specialize (S ltac:(discriminate) ltac:(discriminate) ltac:(discriminate) ltac:(discriminate)); subst j; rewrite Ht in Hj; injection Hj as <-; congruence.
Qed.

(** The listener. *)
Lemma next_connection : forall s shut, reachable s -> s_flag s = true -> Forall (fun t => t_pc t = REnd) (s_threads s) -> s_listener s = LAccept ->
  exists s', run s [AConnect shut; AListen; AListen] = Some s' /\ s_listener s' = LEnd /\
    step s' (AThread (length (s_threads s))) = Some {| s_count := s_count s; s_flag := true; s_sets := s_sets s; s_threads := s_threads s ++ [{| t_pc := REnd; t_shut := shut |}]; s_listener := LEnd |}.
Proof.
  intros s shut (l & R) T E L. destruct (inv_run l s R) as (C & _).
  assert (s_count s = 0) as C0. { rewrite C. apply num_none. eapply Forall_impl; [|exact E]. intros u ->. reflexivity. }
  cbn [run step connect]. unfold connect. rewrite L. unfold listen_step. pr. rewrite C0. cbn [Z.eqb negb]. rewrite T. cbn [negb].
  eexists. split; [reflexivity|]. split; [reflexivity|].
  cbn [step]. pr. rewrite nth_error_app2, PeanoNat.Nat.sub_diag by lia. cbn [nth_error]. unfold thread_step. pr.
  f_equal. f_equal.
  clear. induction (s_threads s); cbn [app upd length]; [reflexivity|]. f_equal. exact IHl.
Qed.
Lemma blocked : forall s a s', s_listener s = LAccept -> Forall (fun t => t_pc t = REnd) (s_threads s) -> step s a = Some s' -> exists shut, a = AConnect shut.
Proof.
  intros s a s' L E H. destruct a as [|b|i]; cbn [step] in H; [unfold listen_step in H; rewrite L in H; discriminate H|exists b; reflexivity|].
  destruct (nth_error (s_threads s) i) as [t|] eqn:Ht; [|discriminate H]. apply nth_error_In in Ht. rewrite Forall_forall in E.
  unfold thread_step in H. rewrite (E t Ht) in H. discriminate H.
Qed.
Definition late_inv (s : sys) : Prop :=
  inv s /\ s_flag s = true /\ num at_inc (s_threads s) = 0 /\ (s_listener s = LFlag \/ s_listener s = LEnd -> num at_busy (s_threads s) = 0).
Lemma late_step : forall s a s', late_inv s -> step s a = Some s' -> late_inv s'.
Proof.
  intros s a s' (I & T & N & B) H. split; [exact (inv_step s a s' I H)|]. destruct I as (C & _).
  pose proof (num_nonneg at_busy (s_threads s)).
  steps s a H; rewrite ?T; (split; [reflexivity|]);
    try (destruct (s_count s - 1 =? 0)); nums;
    try (pose proof (num_ge at_busy (s_threads s) i t Ht) as G; rewrite Hp in G; try specialize (G eq_refl); cbn in G);
    try (pose proof (num_ge at_inc (s_threads s) i t Ht) as G'; rewrite Hp in G'; try specialize (G' eq_refl); cbn in G');
    (split; [lia|]); intros K; try (destruct K; congruence); try (specialize (B K); lia).
  all: try (destruct (s_count s =? 0) eqn:E; cbn [negb] in K; [apply Z.eqb_eq in E; lia|destruct K; discriminate]).
  all: apply B; left; reflexivity.
Qed.
Lemma no_early : forall s l s', reachable s -> s_flag s = true -> Forall (fun t => t_pc t <> RInc) (s_threads s) -> s_listener s = LCount \/ s_listener s = LAccept ->
  run s l = Some s' -> s_listener s' = LEnd -> Forall (fun t => ~ in_progress t) (s_threads s').
Proof.
  intros s l s' (l0 & R) T N L H E.
  assert (late_inv s) as I.
  { split; [exact (inv_run l0 s R)|]. split; [exact T|]. split; [apply num_none; eapply Forall_impl; [|exact N]; intros u Hu; cbn beta in *; destruct (t_pc u) eqn:?; try reflexivity; congruence|].
    intros [K|K]; rewrite K in L; destruct L; discriminate. }
  assert (late_inv s') as (_ & _ & NI & B).
  { clear R T N L. revert s I H. clear. induction l as [|a l IH]; intros s I H; [injection H as <-; exact I|]. cbn [run] in H. destruct (step s a) as [s1|] eqn:S1; [|discriminate H].
    exact (IH s1 (late_step s a s1 I S1) H). }
  specialize (B (or_intror E)). apply num_zero in B. apply num_zero in NI. rewrite Forall_forall in *.
  intros t Ht [K|[K|K]]; specialize (B t Ht); specialize (NI t Ht); rewrite K in B, NI; discriminate.
Qed.
