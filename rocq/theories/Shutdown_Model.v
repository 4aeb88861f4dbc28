(** Model of the threads of src/endpoint.h: the listener of start() and one thread per request
    (process_request), with everything they share: _requests_in_progress, _is_shutdown_requested (both
    atomic, src/i/endpoint.i.h:369, 374) and _promise.
    What the requests read and answer is in Endpoint_Model.v; here a request only says whether its
    handler calls set_shutdown_requested().  The counter is unbounded (fewer than 2^31 requests at the
    same time).  accept() always returns a connection (an error thrown by it ends the process). *)

From Coq Require Import ZArith List Bool.
Import ListNotations.
Open Scope Z_scope.

(** src/endpoint.h:105-170: where a request thread is: up to the test at 138; at 142; in the handler,
    before it may call set_shutdown_requested (146-151, 242); sending the answer (151-155); after a
    decrement to zero, before reading the flag (162); at set_value (168); returned. *)
Inductive rpc := RRead | RInc | RWork | RAnswer | RLoad | RSet | REnd.
(** src/endpoint.h:105, 241-243: a request; [t_shut]: its handler calls set_shutdown_requested() *)
Record thread := { t_pc : rpc; t_shut : bool }.
(** src/endpoint.h:90-94: where the listener is: before reading the counter, before reading the flag,
    in accept(), returned from start() *)
Inductive lpc := LCount | LFlag | LAccept | LEnd.
(** src/i/endpoint.i.h:364-374: _promise (how often set_value was called), _requests_in_progress,
    _is_shutdown_requested; and the threads *)
Record sys := { s_count : Z; s_flag : bool; s_sets : nat; s_threads : list thread; s_listener : lpc }.
(** src/endpoint.h:51-56, 89: the listener has started, no connection yet *)
Definition sys_new : sys := {| s_count := 0; s_flag := false; s_sets := 0; s_threads := []; s_listener := LCount |}.

(** src/endpoint.h:90-94, 105-170: who makes the next step: the listener, a client that connects, a request thread *)
Inductive action := AListen | AConnect (shut : bool) | AThread (i : nat).
(** src/endpoint.h:105-170: thread i has moved on (one element of a list replaced) *)
Fixpoint upd (l : list thread) (n : nat) (x : thread) : list thread :=
  match l, n with
  | [], _ => []
  | _ :: l, O => x :: l
  | y :: l, S n => y :: upd l n x
  end.
(** src/endpoint.h:138-169: a step of request thread i *)
Definition thread_step (s : sys) (i : nat) (t : thread) : option sys :=
  let go p := {| s_count := s_count s; s_flag := s_flag s; s_sets := s_sets s;
                 s_threads := upd (s_threads s) i {| t_pc := p; t_shut := t_shut t |}; s_listener := s_listener s |} in
  match t_pc t with
  | RRead => Some (go (if s_flag s then REnd else RInc))                                          (* 138-140 *)
  | RInc => let s' := go RWork in                                                                (* 142 *)
            Some {| s_count := s_count s + 1; s_flag := s_flag s; s_sets := s_sets s; s_threads := s_threads s'; s_listener := s_listener s |}
  | RWork => let s' := go RAnswer in                                                             (* 147-152, 241-243 *)
             Some {| s_count := s_count s; s_flag := s_flag s || t_shut t; s_sets := s_sets s; s_threads := s_threads s'; s_listener := s_listener s |}
  | RAnswer => let s' := go (if s_count s - 1 =? 0 then RLoad else REnd) in                       (* 155, 162 *)
               Some {| s_count := s_count s - 1; s_flag := s_flag s; s_sets := s_sets s; s_threads := s_threads s'; s_listener := s_listener s |}
  | RLoad => Some (go (if s_flag s then RSet else REnd))                                         (* 162 *)
  | RSet => let s' := go REnd in                                                                 (* 168 *)
            Some {| s_count := s_count s; s_flag := s_flag s; s_sets := S (s_sets s); s_threads := s_threads s'; s_listener := s_listener s |}
  | REnd => None
  end.
(** src/endpoint.h:90: a step of the listener outside of accept() *)
Definition listen_step (s : sys) : option sys :=
  let go p := {| s_count := s_count s; s_flag := s_flag s; s_sets := s_sets s; s_threads := s_threads s; s_listener := p |} in
  match s_listener s with
  | LCount => Some (go (if negb (s_count s =? 0) then LAccept else LFlag))
  | LFlag => Some (go (if negb (s_flag s) then LAccept else LEnd))
  | LAccept | LEnd => None
  end.
(** src/endpoint.h:92-93: a client connects, accept() returns, the thread of the request is started *)
Definition connect (s : sys) (shut : bool) : option sys :=
  match s_listener s with
  | LAccept => Some {| s_count := s_count s; s_flag := s_flag s; s_sets := s_sets s;
                       s_threads := s_threads s ++ [{| t_pc := RRead; t_shut := shut |}]; s_listener := LCount |}
  | _ => None
  end.
(** src/endpoint.h:90-94, 105-170: one step; None = not possible *)
Definition step (s : sys) (a : action) : option sys :=
  match a with
  | AListen => listen_step s
  | AConnect shut => connect s shut
  | AThread i => match nth_error (s_threads s) i with Some t => thread_step s i t | None => None end
  end.
(** src/endpoint.h:90-94, 105-170: an interleaving *)
Fixpoint run (s : sys) (l : list action) : option sys :=
  match l with
  | [] => Some s
  | a :: l => match step s a with Some s => run s l | None => None end
  end.
