(** What users of the motion sensor rely on (C120). *)

From Coq Require Import ZArith QArith List Bool.
From Verif Require Import Base ListMem Smbus_Model Smbus_Spec.
Import ListNotations.
Open Scope list_scope.
Open Scope Z_scope.

(** The channels are numbered: acceleration x, y, z = 0, 1, 2; gyro x, y, z = 3, 4, 5; temperature = 6.  Their registers (of the MPU-6050) *)
Definition register (k : nat) : Z := nth k [59; 61; 63; 67; 69; 71; 65] 0.
(** the message that asks for a channel *)
Definition question (t : target) (k : nat) : list msg := op_messages (GetWord t (register k)).
(** The channels a mask asks for *)
Definition asked (mask : Z) : list nat := filter (fun k => Z.testbit mask (Z.of_nat k)) (seq 0 7).
(** The number a channel says with a word: 16 bits, two's complement, in the byte order of the target *)
Definition said (t : target) (w : Z) : Z := let w := if t_swap t then swapped w else w in if w <? 32768 then w else w - 65536.
(** The value of a number, given the calibration: 32767 is 16 g or 2000 degrees per second; the temperature as in the data sheet *)
Definition shown (k : nat) (m c : Z) : Q :=
  if (k <? 3)%nat then (16 * (m - c)) # 32767 else if (k <? 6)%nat then (2000 * (m - c)) # 32767 else ((m # 340) + 36 + (53 # 100))%Q.
