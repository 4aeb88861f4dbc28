(** What is said of the PWM emulator (C92 to C95), without the functions of the model. *)

From Coq Require Import ZArith List Bool.
From Verif Require Import Gpio_Model Gpio_Spec Emulator_Model.
Import ListNotations.
Open Scope Z_scope.

(** Widths as the constructor should leave them: microseconds, with a period of at most a second. *)
Definition sane (m : emulator) : Prop := 0 <= min_width m <= max_width m /\ max_width m <= period m <= 1000000.
(** Duty cycles are percentages. *)
Definition percent (c : control) : Prop := forall t, 0 <= duty_at c t <= 100.
(** The longest turn of the loop, in nanoseconds, if no operation takes longer than dl: a period of the signal or 200
    milliseconds, and 10 operations. *)
Definition longest (m : emulator) (dl : Z) : Z := Z.max 200000000 (1000 * period m) + 10 * dl.
(** The width of pulses for a duty cycle: min_width for 0, max_width for 100, in proportion between; rounded down. *)
Definition width_for (m : emulator) (duty w : Z) : Prop := 100 * (w - min_width m) <= duty * (max_width m - min_width m) < 100 * (w - min_width m) + 100.
