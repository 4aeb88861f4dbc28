(** C28, C29, C65: shutting an endpoint down. *)

From Coq Require Import ZArith List Bool Lia.
From Verif Require Import Shutdown_Model Shutdown_Spec Shutdown_Proofs.
Import ListNotations.
Open Scope Z_scope.

(** A POST /shutdown is received and answered, alone; then two more requests are turned away. *)
Definition alone : list action :=
  [AListen; AListen; AConnect true; AThread 0; AListen; AListen; AThread 0; AConnect false; AThread 0; AThread 0; AThread 0; AThread 0; AThread 1; AListen; AListen].
(** Two requests: the second has passed the test of the flag when the first asks for the shutdown, and
    increments the counter after the first has set the promise. *)
Definition late : list action :=
  [AListen; AListen; AConnect true; AListen; AListen; AConnect false; AThread 0; AThread 1; AThread 0; AThread 0; AThread 0; AThread 0; AThread 0].
(** The first has decremented the counter to zero; the second comes, asks for the shutdown and ends; then both read the flag. *)
Definition twice : list action :=
  [AListen; AListen; AConnect false; AListen; AListen; AConnect true; AThread 0; AThread 0; AThread 0; AThread 0;
   AThread 1; AThread 1; AThread 1; AThread 1; AThread 1; AThread 1; AThread 0; AThread 0].
Definition end_of (l : list action) : sys := match run sys_new l with Some s => s | None => sys_new end.

(** C28: the future becomes ready only after a handler has requested the shutdown, in every interleaving. *)
Theorem C28_after_shutdown : forall l s, run sys_new l = Some s -> (0 < s_sets s)%nat -> shutdown_requested l.
Proof. exact after_shutdown. Qed.
Print Assumptions C28_after_shutdown.
(** It is ready when the shutdown was requested and all requests have ended, in every interleaving. *)
Theorem C28_signalled : forall s, reachable s -> s_flag s = true -> Forall (fun t => t_pc t = REnd) (s_threads s) -> (1 <= s_sets s)%nat.
Proof. exact ended. Qed.
Print Assumptions C28_signalled.
(** set_value is called at most once if, at the moment of the first shutdown request, no other request is
    between the test of the flag and the increment of the counter, or between a decrement to zero and the
    reading of the flag.  Missing: the other interleavings, for which it is false (C28_refuted). *)
Theorem C28_once_partial : forall l s, quiet l -> run sys_new l = Some s -> (s_sets s <= 1)%nat.
Proof. exact quiet_once. Qed.
Print Assumptions C28_once_partial.
(** In particular when requests come one after the other. *)
Theorem C28_sequential : forall l s, sequential l -> run sys_new l = Some s -> (s_sets s <= 1)%nat.
Proof. exact (fun l s H => quiet_once l s (sequential_quiet l H)). Qed.
Print Assumptions C28_sequential.
Example C28_ex : run sys_new alone = Some (end_of alone) /\ s_sets (end_of alone) = 1%nat /\ s_flag (end_of alone) = true /\
  Forall (fun t => t_pc t = REnd) (s_threads (end_of alone)) /\ s_listener (end_of alone) = LEnd.
Proof. vm_compute. repeat split; repeat constructor. Qed.
Lemma prefix_in : forall (l l1 l2 : list action), l = l1 ++ l2 -> In l1 (map (fun n => firstn n l) (seq 0 (S (length l)))).
Proof.
  intros l l1 l2 E. apply in_map_iff. exists (length l1). split; [rewrite E, firstn_app, PeanoNat.Nat.sub_diag, firstn_all; apply app_nil_r|].
  apply in_seq. rewrite E, app_length. lia.
Qed.
Lemma prefix_and_rest : forall (l l1 l2 : list action), l = l1 ++ l2 -> In (l1, l2) (map (fun n => (firstn n l, skipn n l)) (seq 0 (S (length l)))).
Proof.
  intros l l1 l2 E. apply in_map_iff. exists (length l1). rewrite E, firstn_app, skipn_app, PeanoNat.Nat.sub_diag, firstn_all, skipn_all. cbn [firstn skipn app]. split; [rewrite app_nil_r; reflexivity|].
  apply in_seq. rewrite app_length. lia.
Qed.
Example C28_ex_quiet : sequential alone /\ quiet alone.
Proof.
  assert (sequential alone) as S; [|split; [exact S|exact (sequential_quiet _ S)]].
  intros l1 l2 s i j t u E R. apply prefix_in in E. cbn in E.
  repeat (destruct E as [<-|E]; [vm_compute in R; injection R as <-; cbn [s_threads];
    destruct i as [|[|i]]; destruct j as [|[|j]]; cbn [nth_error]; intros Ht Hu; try reflexivity;
    try discriminate Ht; try discriminate Hu; try (destruct i; discriminate Ht); try (destruct j; discriminate Hu);
    try (injection Ht as <-); try (injection Hu as <-); cbn [t_pc]; congruence|]).
  destruct E.
Qed.
(** The promise is set twice, which throws std::future_error in a thread: the process terminates. *)
Theorem C28_refuted : exists l s, run sys_new l = Some s /\ s_sets s = 2%nat.
Proof. exists twice, (end_of twice). vm_compute. split; reflexivity. Qed.
Print Assumptions C28_refuted.

(** C29: when the future is ready, no request that passed the test of the flag is unanswered, under the
    same condition.  Missing: the other interleavings (C29_refuted). *)
Theorem C29_answered_partial : forall l s, quiet l -> run sys_new l = Some s -> (0 < s_sets s)%nat -> Forall (fun t => ~ in_progress t) (s_threads s).
Proof. exact quiet_done. Qed.
Print Assumptions C29_answered_partial.
Theorem C29_sequential : forall l s, sequential l -> run sys_new l = Some s -> (0 < s_sets s)%nat -> Forall (fun t => ~ in_progress t) (s_threads s).
Proof. exact (fun l s H => quiet_done l s (sequential_quiet l H)). Qed.
Print Assumptions C29_sequential.
(** Two requests at the same time, both already counted, are an example for quiet that is not sequential. *)
Definition overlapping : list action :=
  [AListen; AListen; AConnect true; AListen; AListen; AConnect false; AThread 0; AThread 0; AThread 1; AThread 1; AThread 0; AThread 0; AThread 1; AThread 1; AThread 1; AThread 1].
Example C29_ex : quiet overlapping /\ run sys_new overlapping = Some (end_of overlapping) /\ s_sets (end_of overlapping) = 1%nat.
Proof.
  split; [|vm_compute; split; reflexivity].
  intros l1 i l2 s E R F (t & Ht & Hp & Hs). apply prefix_and_rest in E. cbn in E.
  repeat (destruct E as [E|E]; [try discriminate E; injection E as <- <- <-; vm_compute in R; injection R as <-; cbn [s_threads s_flag] in *; try discriminate F;
    cbn [nth_error] in Ht; try discriminate Ht; try (injection Ht as <-); cbn [t_pc t_shut] in *; try discriminate Hp; try discriminate Hs;
    repeat constructor; discriminate|]).
  destruct E.
Qed.
(** The future is ready while a request that passed the test has not been answered: the process may exit. *)
Theorem C29_refuted : exists l s t, run sys_new l = Some s /\ (0 < s_sets s)%nat /\ In t (s_threads s) /\ in_progress t.
Proof.
  exists late, (end_of late), {| t_pc := RInc; t_shut := false |}. vm_compute.
  split; [reflexivity|]. split; [lia|]. split; [right; left; reflexivity|left; reflexivity].
Qed.
Print Assumptions C29_refuted.

(** C65: start() returns after a shutdown.  It does not: with the shutdown requested, the future ready and
    every request ended, the listener is blocked in accept(); nothing can happen but another connection. *)
Theorem C65_start_refuted : exists s, reachable s /\ s_flag s = true /\ s_sets s = 1%nat /\ Forall (fun t => t_pc t = REnd) (s_threads s) /\
  s_listener s = LAccept /\ forall a s', step s a = Some s' -> exists shut, a = AConnect shut.
Proof.
  set (l := [AListen; AListen; AConnect true; AListen; AListen; AThread 0; AThread 0; AThread 0; AThread 0; AThread 0; AThread 0]).
  assert (Forall (fun t => t_pc t = REnd) (s_threads (end_of l))) as E by (vm_compute; repeat constructor).
  exists (end_of l). split; [exists l; vm_compute; reflexivity|]. split; [vm_compute; reflexivity|]. split; [vm_compute; reflexivity|].
  split; [exact E|]. split; [vm_compute; reflexivity|]. intros a s' H. exact (blocked (end_of l) a s' eq_refl E H).
Qed.
Print Assumptions C65_start_refuted.
(** With one more connection start() returns; that connection is closed without an answer. *)
Theorem C65_next_connection_partial : forall s shut, reachable s -> s_flag s = true -> Forall (fun t => t_pc t = REnd) (s_threads s) -> s_listener s = LAccept ->
  exists s', run s [AConnect shut; AListen; AListen] = Some s' /\ s_listener s' = LEnd /\
    step s' (AThread (length (s_threads s))) =
      Some {| s_count := s_count s; s_flag := true; s_sets := s_sets s;
              s_threads := s_threads s ++ [{| t_pc := REnd; t_shut := shut |}]; s_listener := LEnd |}.
Proof. exact next_connection. Qed.
Print Assumptions C65_next_connection_partial.
Example C65_ex : exists s, reachable s /\ s_flag s = true /\ Forall (fun t => t_pc t = REnd) (s_threads s) /\ s_listener s = LAccept /\ s_threads s <> [].
Proof.
  set (l := [AListen; AListen; AConnect true; AListen; AListen; AThread 0; AThread 0; AThread 0; AThread 0; AThread 0; AThread 0]).
  exists (end_of l). split; [exists l; vm_compute; reflexivity|]. vm_compute. repeat split; repeat constructor. discriminate.
Qed.
(** start() does not return before the requests in progress are answered, if it tests its loop condition after the
    shutdown was requested and no request is between the test of the flag and the increment. *)
Theorem C65_no_early_partial : forall s l s', reachable s -> s_flag s = true -> Forall (fun t => t_pc t <> RInc) (s_threads s) ->
  s_listener s = LCount \/ s_listener s = LAccept -> run s l = Some s' -> s_listener s' = LEnd -> Forall (fun t => ~ in_progress t) (s_threads s').
Proof. exact no_early. Qed.
Print Assumptions C65_no_early_partial.
Definition busy : list action := [AListen; AListen; AConnect false; AListen; AListen; AConnect true; AThread 0; AThread 0; AThread 1; AThread 1; AThread 1; AThread 1].
Definition busy_end : list action := [AThread 0; AThread 0; AListen; AListen].
Example C65_no_early_ex : run sys_new busy = Some (end_of busy) /\ s_flag (end_of busy) = true /\ Forall (fun t => t_pc t <> RInc) (s_threads (end_of busy)) /\
  s_listener (end_of busy) = LCount /\ Exists in_progress (s_threads (end_of busy)) /\
  run (end_of busy) busy_end = Some (end_of (busy ++ busy_end)) /\ s_listener (end_of (busy ++ busy_end)) = LEnd.
Proof.
  set (s := end_of busy). set (s' := end_of (busy ++ busy_end)). vm_compute in s. vm_compute in s'.
  split; [vm_compute; reflexivity|]. split; [reflexivity|]. split; [repeat constructor; discriminate|]. split; [reflexivity|].
  split; [apply Exists_cons_hd; right; left; reflexivity|]. split; [vm_compute; reflexivity|reflexivity].
Qed.
(** Otherwise it can: the counter is read before a request is counted, the flag after that request has set it. *)
Theorem C65_early_refuted : exists s, reachable s /\ s_listener s = LEnd /\ Exists in_progress (s_threads s) /\ s_sets s = 0%nat.
Proof.
  set (l := [AListen; AListen; AConnect true; AListen; AThread 0; AThread 0; AThread 0; AListen]).
  exists (end_of l). split; [exists l; vm_compute; reflexivity|]. split; [reflexivity|]. split; [vm_compute; apply Exists_cons_hd; right; right; reflexivity|reflexivity].
Qed.
Print Assumptions C65_early_refuted.
