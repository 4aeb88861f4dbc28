(** What users of the grayscale sensors and of chips rely on. *)

From Coq Require Import String ZArith List Bool.
From Verif Require Import Base ListMem Car_Spec Smbus_Model Smbus_Spec Sensors_Model.
Import ListNotations.
Open Scope list_scope.
Open Scope Z_scope.

(** Every system call on the bus succeeds. *)
Definition healthy (D : nat -> answer) : Prop := forall n, exists r, D n = ADone r.
(** The messages that ask one sensor, and the word in two answers *)
Definition ask (t : target) (reg : Z) : list msg := op_messages (PutWord t reg 0) ++ op_messages (GetNoreg2 t).
(** the word a target means by two bytes *)
Definition word (t : target) (r0 r1 : reply) : Z := if t_swap t then 256 * r_byte r0 + r_byte r1 else 256 * r_byte r1 + r_byte r0.

(** What a program has of open descriptors after these calls: None: it has closed one that was not open. *)
Fixpoint open_after (now : list Z) (l : list call) : option (list Z) :=
  match l with
  | [] => Some now
  | Opened _ fd :: l => open_after (fd :: now) l
  | Asked _ _ :: l => open_after now l
  | Closed fd :: l => if existsb (Z.eqb fd) now then open_after (remove Z.eq_dec fd now) l else None
  end.
(** The system hands out descriptors that are not in use: here, the descriptors in use are those in [now]. *)
Definition fresh_from (now : list Z) (w : world) : Prop := forall k p fd, opens w k p = Some fd -> 0 <= fd /\ ~ In fd now.
