(** Specification vocabulary for C83 to C88: TLS sockets. *)

From Coq Require Import ZArith List Bool.
From Verif Require Import Tls_Model.
Import ListNotations.
Open Scope Z_scope.

(** A world that some history of calls, with some answers, leads to. *)
Definition reachable (w : world) : Prop := exists l, steps start l = Some w.

(** C85: a TLS record is on the connection over which its keys were agreed. *)
Definition rightly (e : event) : Prop := match e with Record_on _ found keys => found = Some keys | _ => True end.
(** Nobody calls close() in the history. *)
Definition never_closed (l : list call) : Prop := forall i, ~ In (Close i) l.

(** C86: a trace is proper if a descriptor is opened only while it is not open and closed only while it is
    open, and, if [strict], used only while it is open (-1 is no descriptor: the system reports an error).
    The result is the set of descriptors left open. *)
Fixpoint proper (strict : bool) (open : list Z) (t : list event) : option (list Z) :=
  match t with
  | [] => Some open
  | Opened fd :: t => if existsb (Z.eqb fd) open then None else proper strict (fd :: open) t
  | Closed fd :: t => if existsb (Z.eqb fd) open then proper strict (remove Z.eq_dec fd open) t else None
  | Used fd :: t | Record_on fd _ _ :: t => if negb strict || (fd =? -1) || existsb (Z.eqb fd) open then proper strict open t else None
  end.
(** The descriptor an object has. *)
Definition has_fd (w : world) (i : nat) (fd : Z) : Prop :=
  match objs w i with Some (Client c) => c_fd c = fd | Some (Server v) => v_fd v = fd | None => False end.
(** Every object of the program is gone. *)
Definition all_gone (w : world) : Prop := forall i, objs w i = None.
(** OpenSSL holds no memory for the program. *)
Definition nothing_allocated (w : world) : Prop := (forall x, ctxs w x = None) /\ (forall s, ssls w s = None).
(** No constructor fails after it has obtained something of OpenSSL. *)
Definition constructs (c : call) : Prop :=
  match c with
  | New_client _ _ _ _ s => s = true
  | New_server _ _ _ _ _ c k => c = true /\ k = true
  | Accept _ _ _ f _ => f = true
  | _ => True
  end.

(** C87: the clients at the head of the list that complete the handshake. *)
Fixpoint behaved (l : list (Z * peer * answer)) : nat :=
  match l with (_, _, Completes) :: l => S (behaved l) | _ => O end.
(** The system can answer ::accept so: descriptors that are not open, each once, with peers that the server
    may accept (C83). *)
Definition may_come (w : world) (v : server) (l : list (Z * peer * answer)) : Prop :=
  NoDup (map (fun '(fd, _, _) => fd) l) /\
  Forall (fun '(fd, p, _) => 0 <= fd /\ fds w fd = None /\ (v_verify v = true -> p_cert p = None)) l.
(** What becomes of the listener: the first client that does not complete the handshake decides. *)
Fixpoint ending (l : list (Z * peer * answer)) : listener :=
  match l with
  | [] => Listening
  | (_, _, Completes) :: l => ending l
  | (_, _, Fails _) :: _ => Terminated
  | (_, _, Silent) :: _ => Stuck
  end.

(** C88: a C string. *)
Definition c_string (l : list Z) : Prop := Forall (fun c => c <> 0) l.
