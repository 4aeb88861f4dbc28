(** What C28, C29 and C65 speak about. *)

From Coq Require Import ZArith List Bool.
From Verif Require Import Shutdown_Model.
Import ListNotations.
Open Scope Z_scope.

(** A state some interleaving leads to. *)
Definition reachable (s : sys) : Prop := exists l, run sys_new l = Some s.
(** The request has passed the test of the shutdown flag and its answer is not yet complete. *)
Definition in_progress (t : thread) : Prop := t_pc t = RInc \/ t_pc t = RWork \/ t_pc t = RAnswer.
(** Thread i of the state runs the handler that requests the shutdown. *)
Definition requests_shutdown (s : sys) (i : nat) : Prop :=
  exists t, nth_error (s_threads s) i = Some t /\ t_pc t = RWork /\ t_shut t = true.
(** In this interleaving, a handler has requested the shutdown. *)
Definition shutdown_requested (l : list action) : Prop :=
  exists l1 i l2 s, l = l1 ++ AThread i :: l2 /\ run sys_new l1 = Some s /\ requests_shutdown s i.
(** When the shutdown is requested for the first time, no request is between the test of the flag (138)
    and the increment (142), nor between a decrement to zero and the reading of the flag (162). *)
Definition quiet (l : list action) : Prop :=
  forall l1 i l2 s, l = l1 ++ AThread i :: l2 -> run sys_new l1 = Some s -> s_flag s = false -> requests_shutdown s i ->
    Forall (fun t => t_pc t <> RInc /\ t_pc t <> RLoad) (s_threads s).
(** Requests are handled one after the other. *)
Definition sequential (l : list action) : Prop :=
  forall l1 l2 s i j t u, l = l1 ++ l2 -> run sys_new l1 = Some s -> nth_error (s_threads s) i = Some t -> nth_error (s_threads s) j = Some u ->
    t_pc t <> RRead -> t_pc t <> REnd -> u.(t_pc) <> RRead -> u.(t_pc) <> REnd -> i = j.
