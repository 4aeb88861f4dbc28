(** Specification for C02: a tape that is read from left to right and a
    write-once tape of fixed capacity. *)

From Coq Require Import ZArith List Bool.
From Verif Require Import Base Streambuf_Model.
Import ListNotations.
Open Scope Z_scope.

(** [before] (reversed) and [after] the read position; what was written; the room left. *)
Record tapes := { before : list Z; after : list Z; written : list Z; room : nat }.

Definition t_step (t : tapes) (o : sb_op) : tapes * sb_res :=
  match o with
  | Peek => (t, RChar (hd_error (after t)))
  | Bump => match after t with
            | c :: l => ({| before := c :: before t; after := l; written := written t; room := room t |}, RChar (Some c))
            | [] => (t, RChar None)
            end
  | Unget => match before t with
             | c :: l => ({| before := l; after := c :: after t; written := written t; room := room t |}, RChar (Some c))
             | [] => (t, RChar None)
             end
  | Getn n => ({| before := rev (firstn n (after t)) ++ before t; after := skipn n (after t); written := written t; room := room t |},
               RChars (firstn n (after t)))
  | Put c => match room t with
             | O => (t, RChar None)
             | S r => ({| before := before t; after := after t; written := written t ++ [c]; room := r |}, RChar (Some c))
             end
  | Putn w => let fit := firstn (room t) w in
              ({| before := before t; after := after t; written := written t ++ fit; room := room t - length fit |},
               RCount (zlen fit))
  end.
Fixpoint t_run (t : tapes) (ops : list sb_op) : tapes * list sb_res :=
  match ops with
  | [] => (t, [])
  | o :: ops' => let '(t', r) := t_step t o in let '(t'', rs) := t_run t' ops' in (t'', r :: rs)
  end.

(** The bytes of [m] in [a, a+n). *)
Fixpoint bytes_at (m : mem) (a : Z) (n : nat) : list Z :=
  match n with O => [] | S n' => m a :: bytes_at m (a + 1) n' end.
