(** Specification vocabulary for C58 (and C23: what is written). *)

From Coq Require Import ZArith List Bool.
From Verif Require Import Socket_Model.
Import ListNotations.
Open Scope Z_scope.

(** C58: a trace of the system is proper if a descriptor is opened only while it is not open, and
    closed or used only while it is open (descriptor -1 is no descriptor: using it is an error the
    system reports).  The result is the set of descriptors left open. *)
Fixpoint proper (open : list Z) (t : list event) : option (list Z) :=
  match t with
  | [] => Some open
  | Opened fd :: t => if existsb (Z.eqb fd) open then None else proper (fd :: open) t
  | Closed fd :: t => if existsb (Z.eqb fd) open then proper (remove Z.eq_dec fd open) t else None
  | Used fd :: t => if (fd =? -1) || existsb (Z.eqb fd) open then proper open t else None
  end.
(** How often a descriptor was opened and closed. *)
Definition opens (fd : Z) (t : list event) : nat := length (filter (fun e => match e with Opened f => f =? fd | _ => false end) t).
Definition closes (fd : Z) (t : list event) : nat := length (filter (fun e => match e with Closed f => f =? fd | _ => false end) t).
(** The descriptors held by live objects. *)
Definition held (l : list (option Z)) : list Z := flat_map (fun o => match o with Some fd => if fd =? -1 then [] else [fd] | None => [] end) l.

(** C23: writing calls. *)
Inductive write := Put (c : Z) | Puts (l : list Z) | Flush.
Definition bytes_of (w : write) : list Z := match w with Put c => [c] | Puts l => l | Flush => [] end.
Definition do_write (s : sbuf) (w : write) : sbuf :=
  match w with Put c => snd (sb_sputc s c) | Puts l => snd (sb_xsputn s l) | Flush => sb_sync s end.
Definition do_writes (s : sbuf) (l : list write) : sbuf := fold_left do_write l s.
Definition written (l : list write) : list Z := flat_map bytes_of l.
