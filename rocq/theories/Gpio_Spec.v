(** What is said of lines and of the ultrasonic sensor (C89 to C91), without the functions of the model. *)

From Coq Require Import ZArith List Bool.
From Verif Require Import Gpio_Model.
Import ListNotations.
Open Scope Z_scope.

(** No operation takes longer than d nanoseconds. *)
Definition brisk (d : Z) (e : env) : Prop := forall i, Z.of_N (lag e i) <= d.
(** The clock goes on: every operation takes at least a nanosecond. *)
Definition goes_on (e : env) : Prop := forall i, 1 <= Z.of_N (lag e i).
(** The echo line is high from moment a until moment b, otherwise low, and can be read at all moments.
    (The level is the lowest bit of what is read.) *)
Definition echo (e : env) (a b : Z) : Prop := forall t, exists x, bits e t = Some x /\ Z.odd x = ((a <=? t) && (t <? b))%bool.
(** The timeout of a call with max_distance in microseconds: twice max_distance at 343 meters per second if it is
    the first call, otherwise that of the first call. *)
Definition timeout_is (scale : ratio) (known : option Z) (max_distance T : Z) : Prop :=
  known = Some T \/ (known = None /\ 0 <= max_distance /\ 2 * max_distance * num scale * 1000000 < 2 ^ 64 /\ T = 2 * max_distance * num scale * 1000000 / (343 * den scale)).

(** The number of times a descriptor was handed out, and closed, by the lines. *)
Definition times (given : bool) (fd : Z) (l : list (bool * Z)) : nat := length (filter (fun p => Bool.eqb (fst p) given && (snd p =? fd))%bool l).
(** The programs that move no line, and whose constructors either get past ioctl and close, or fail before. *)
Definition plain (a : act) : Prop :=
  match a with
  | Make chip opened asked closed => chip = true -> opened <> None -> asked <> None /\ closed = true
  | Move_line _ => False
  | Unmake _ => True
  | Other _ => True
  end.
