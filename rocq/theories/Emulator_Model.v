(** Model of src/x/gpio_pwm_emulator.x.h: the constructors, set_duty_cycle, the destructor, thread_func.
    Time, operations and lines are those of Gpio_Model.v.
    The thread sees the two atomic members as functions of time, and notify_all as a list of moments; what other
    threads do to them is set_duty_cycle, access by access.
    Simplified: logging does nothing; the mutex is taken by nobody else (no other code of the class locks it). *)

From Coq Require Import ZArith List Bool.
From Verif Require Import Gpio_Model.
Import ListNotations.
Open Scope Z_scope.

(** src/i/gpio_pwm_base.i.h:44-45: the duty cycles min and max *)
Definition duty_min : Z := 0.
(** src/i/gpio_pwm_base.i.h:45 *)
Definition duty_max : Z := 100.
(** src/i/gpio_pwm_emulator.i.h:53: const_level_period, in nanoseconds *)
Definition const_level_period : Z := 200000000.

(** ** The constructor *)
(** src/i/gpio_pwm_emulator.i.h:122-141: _min_pulse_width, _max_pulse_width, _period, in microseconds *)
Record emulator := { min_width : Z; max_width : Z; period : Z }.
(** (src/x/gpio_pwm_emulator.x.h:41-72) What becomes of a constructor: the object; an exception; std::terminate; a division by zero. *)
Inductive made := Made (m : emulator) | Thrown | Terminated | Divided_by_zero.
(** gpio_pwm_period (src/i/gpio_pwm_base.i.h:56-58) *)
Definition gpio_pwm_period (frequency : Z) : option Z := if frequency =? 0 then None else Some (1000000 / frequency).
(** gpio_pwm_emulator::gpio_pwm_emulator with widths (src/x/gpio_pwm_emulator.x.h:39-66); the widths in nanoseconds;
    [line_ok], [thread_ok]: the constructors of _line and _thread do not throw.
    An exception in the body destroys the members, among them _thread, which is joinable: std::terminate. *)
Definition new_emulator (line_ok thread_ok : bool) (min_ns max_ns frequency : Z) : made :=
  if negb line_ok then Thrown
  else match gpio_pwm_period frequency with
  | None => Divided_by_zero
  | Some p =>
    if negb thread_ok then Thrown
    else if max_ns <? min_ns then Terminated
    else if 1000 * p <? max_ns then Terminated
    else Made {| min_width := us_of_ns min_ns; max_width := us_of_ns max_ns; period := p |}
  end.
(** gpio_pwm_emulator::gpio_pwm_emulator without widths (src/x/gpio_pwm_emulator.x.h:69-72) *)
Definition new_emulator_full (line_ok thread_ok : bool) (frequency : Z) : made :=
  match gpio_pwm_period frequency with
  | None => Divided_by_zero
  | Some p => new_emulator line_ok thread_ok 0 (1000 * p) frequency
  end.

(** ** The thread *)
(** (src/x/gpio_pwm_emulator.x.h:82-84, 120-123, 145-146, 167-168) What other threads do: the values of _duty_cycle and _quit at every moment, the moments of notify_all;
    how soon the i-th operation, if it is a wait, ends for no reason. *)
Record control := { duty_at : Z -> Z; quit_at : Z -> bool; notes : list Z; spurious : nat -> option N }.
(** std::condition_variable::wait_for (src/x/gpio_pwm_emulator.x.h:165) begun at the moment u: when it ends *)
Definition wake (c : control) (u : Z) (i : nat) : Z :=
  let by_time := u + const_level_period in
  let by_note := fold_left (fun m t => if u <=? t then Z.min m t else m) (notes c) by_time in
  match spurious c i with None => by_note | Some d => Z.min by_note (u + Z.of_N d) end.

(** std::this_thread::sleep_until and the end of a wait (src/x/gpio_pwm_emulator.x.h:165, 187, 195) *)
Definition pass_until (e : env) (tp : Z) (s : st) : st := pass e (Z.max 0 (tp - at_ s)) s.
(** the loads of _quit and _duty_cycle (src/x/gpio_pwm_emulator.x.h:145-146, 167-168, 184-185, 192-193) *)
Definition load (e : env) (c : control) (s : st) : bool * Z * st :=
  let s1 := pass e 0 s in
  let s2 := pass e 0 s1 in
  (quit_at c (at_ s1), duty_at c (at_ s2), s2).

(** std::int64_t, in which durations and time points count (src/x/gpio_pwm_emulator.x.h:174-179): None is undefined *)
Definition i64 (x : Z) : option Z := if (- 2 ^ 63 <=? x) && (x <? 2 ^ 63) then Some x else None.
(** high_duration (src/x/gpio_pwm_emulator.x.h:174) *)
Definition high_duration (m : emulator) (duty : Z) : option Z :=
  match i64 (max_width m - min_width m) with
  | None => None
  | Some d => match i64 (duty * d) with
    | None => None
    | Some d => i64 (min_width m + Z.quot d duty_max)
    end
  end.

(** (src/x/gpio_pwm_emulator.x.h:145-148) The thread: at the head of its loop with its variables quit and duty_cycle, ended, or undefined. *)
Inductive thread := Head (quit : bool) (duty : Z) (s : st) | Ended (s : st) | Undefined.
(** the start of thread_func (src/x/gpio_pwm_emulator.x.h:138-146) *)
Definition begun (e : env) (c : control) (s : st) : thread := let '(q, d, s) := load e c s in Head q d s.
(** one turn of the loop (src/x/gpio_pwm_emulator.x.h:148-197) *)
Definition turn (e : env) (c : control) (m : emulator) (t : thread) : thread :=
  match t with
  | Ended s => Ended s
  | Undefined => Undefined
  | Head quit duty s =>
    if quit then
      let (_, s) := put_level e low s in
      Ended s
    else if (duty =? duty_min) || (duty =? duty_max) then
      let level := if negb (duty =? duty_min) then high else low in
      let (_, s) := put_level e level s in
      let s := pass e 0 s in
      let s := pass_until e (wake c (at_ s) (ops s)) s in
      let '(quit, duty, s) := load e c s in
      Head quit duty s
    else
      match high_duration m duty with
      | None => Undefined
      | Some hd =>
        match i64 (period m - hd) with
        | None => Undefined
        | Some ld =>
          let (start_tp, s) := now e s in
          match i64 (start_tp + 1000 * hd) with
          | None => Undefined
          | Some high_end_tp =>
            match i64 (high_end_tp + 1000 * ld) with
            | None => Undefined
            | Some low_end_tp =>
              let (_, s) := put_level e high s in
              let '(quit, duty, s) := if ld <=? hd then load e c s else (quit, duty, s) in
              let s := pass_until e high_end_tp s in
              let (_, s) := put_level e low s in
              let '(quit, duty, s) := if hd <? ld then load e c s else (quit, duty, s) in
              let s := pass_until e low_end_tp s in
              Head quit duty s
            end
          end
        end
      end
  end.
(** thread_func after n turns (src/x/gpio_pwm_emulator.x.h:138-202) *)
Fixpoint after (n : nat) (e : env) (c : control) (m : emulator) (s : st) : thread :=
  match n with O => begun e c s | S n => turn e c m (after n e c m s) end.

(** ** The threads that call set_duty_cycle *)
(** (src/x/gpio_pwm_emulator.x.h:95-126) A call of set_duty_cycle: not begun, past line 115, past line 117, past line 120, ended. *)
Inductive call := Calling (v : Z) | Compared (v : Z) | Decided (v : Z) (notify : bool) | Stored (notify : bool) | Done_.
(** src/i/gpio_pwm_emulator.i.h:158: _duty_cycle; the calls by number; how many times notify_all was called *)
Record shared := { duty_ : Z; calls : nat -> call; notified : nat }.
(** one access by call number i (src/x/gpio_pwm_emulator.x.h:95-126) *)
Definition advance (h : shared) (i : nat) : shared :=
  let to (k : call) (d : Z) (n : nat) := {| duty_ := d; calls := fun j => if Nat.eqb j i then k else calls h j; notified := n |} in
  match calls h i with
  | Calling v =>
    if v =? duty_ h then to Done_ (duty_ h) (notified h)
    else
      let v := if v <? duty_min then duty_min else if duty_max <? v then duty_max else v in
      to (Compared v) (duty_ h) (notified h)
  | Compared v => to (Decided v ((duty_ h =? duty_min) || (duty_ h =? duty_max))) (duty_ h) (notified h)
  | Decided v n => to (Stored n) v (notified h)
  | Stored n => to Done_ (duty_ h) (if n then S (notified h) else notified h)
  | Done_ => h
  end.
(** any interleaving of calls (src/x/gpio_pwm_emulator.x.h:95-126) *)
Definition advances (h : shared) (l : list nat) : shared := fold_left advance l h.
(** (src/x/gpio_pwm_emulator.x.h:47) before the calls, which are all std::uint16_t values *)
Definition fresh (v : nat -> Z) : shared := {| duty_ := 0; calls := fun i => Calling (v i); notified := 0 |}.
(** set_duty_cycle without other callers (src/x/gpio_pwm_emulator.x.h:95-126): the new value, whether it notified *)
Definition set_duty_cycle (old v : Z) : Z * bool :=
  let h := advances {| duty_ := old; calls := fun _ => Calling v; notified := 0 |} [0%nat; 0%nat; 0%nat; 0%nat] in
  (duty_ h, negb (Nat.eqb (notified h) 0)).
