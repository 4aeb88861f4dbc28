(** Specification vocabulary for C113 and C114: the true motion of a vehicle. *)

From Coq Require Import Reals ZArith List.
From Verif Require Import Track_Model.
Import ListNotations.
Open Scope R_scope.

(** Degrees to radians.  The constant is the one the code uses for pi; it differs from pi by less than 4 / 10^9. *)
Definition radians (d : R) : R := d * (314159265 / 100000000) / 180.

(** Seconds from clock time [t0] to clock time [t] (nanoseconds). *)
Definition seconds (t0 t : Z) : R := IZR (t - t0) / 1000000000.

(** [x], [y], [h] (degrees) and [v] are the position, the heading and the speed as functions of time (seconds) of a vehicle with acceleration [a]
    and rate of turn [g] (degrees per second). *)
Definition motion (x y h v a g : R -> R) : Prop := forall t,
  derivable_pt_lim x t (v t * cos (radians (h t))) /\
  derivable_pt_lim y t (v t * sin (radians (h t))) /\
  derivable_pt_lim h t (g t) /\
  derivable_pt_lim v t (a t).

(** The clock at the rounds: starts after the epoch and then advances by at least the millisecond that the thread sleeps. *)
Fixpoint sleeps (t0 : Z) (ts : list Z) : Prop :=
  match ts with
  | [] => True
  | t :: ts => (t0 + 1000000 <= t)%Z /\ sleeps t ts
  end.
(** ... by whole microseconds. *)
Fixpoint whole (t0 : Z) (ts : list Z) : Prop :=
  match ts with
  | [] => True
  | t :: ts => ((t - t0) mod 1000 = 0)%Z /\ whole t ts
  end.
(** The clock at the last round. *)
Fixpoint last_time (t0 : Z) (ts : list Z) : Z :=
  match ts with [] => t0 | t :: ts => last_time t ts end.

(** What the tracker reads at clock time [t] if it is started at [t0]. *)
Definition reading_at (a g : R -> R) (t0 t : Z) : reading := mkRd t (a (seconds t0 t)) (g (seconds t0 t)).

(** The member that a setter sets. *)
Definition get_field (f : field) (p : place) : R :=
  match f with FDepth => depth p | FWidth => width p | FDirection => direction p | FSpeed => speed p end.
