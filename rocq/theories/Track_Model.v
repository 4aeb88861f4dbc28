(** Model of the calculations of src/x/gpio_smbus_motion_tracker.x.h: how the tracker's thread turns readings into depth,
    width, direction and speed, and how the owner's set_... calls mix with it.  When the thread sleeps and wakes is in
    Smbus_Model (C64).

    double is modelled by the real numbers: rounding and overflow are left out.  A division by zero is the outcome [NotANumber].
    The four loads of a round are one step and its four stores are one step. *)

From Coq Require Import Reals ZArith List Bool.
Import ListNotations.
Open Scope R_scope.

(** src/i/gpio_smbus_motion.i.h:111: g *)
Definition const_g : R := 980665 / 100000.
(** src/i/gpio_smbus_motion.i.h:116: pi *)
Definition const_pi : R := 314159265 / 100000000.
(** src/x/gpio_smbus_motion_tracker.x.h:281-284: deg_to_rad *)
Definition deg_to_rad (deg : R) : R := const_pi * deg / 180.

(** src/x/gpio_smbus_motion.x.h:217-221; src/i/gpio_smbus_motion.i.h:149-151: get_value_from_measurement; [m] is measurement - calibration *)
Definition value_of (max_value m : Z) : R := IZR max_value * IZR m / IZR 32767.
(** src/x/gpio_smbus_motion_tracker.x.h:220: the acceleration in units of DistanceScale = num/den *)
Definition accel_of (num den m : Z) : R := value_of 16 m * const_g * IZR den / IZR num.
(** src/x/gpio_smbus_motion_tracker.x.h:221 *)
Definition gyro_of (m : Z) : R := value_of 2000 m.

(** src/x/gpio_smbus_motion_tracker.x.h:216-224: what a round reads: the clock in nanoseconds since its epoch, the acceleration, the gyro *)
Record reading := mkRd { r_time : Z; r_accel : R; r_gyro : R }.

(** src/i/gpio_smbus_motion_tracker.i.h:153-171: _depth, _width, _direction, _speed *)
Record place := mkP { depth : R; width : R; direction : R; speed : R }.
(** src/x/gpio_smbus_motion_tracker.x.h:250-265: what a round stores; none: it does not store to _direction *)
Record news := mkN { n_depth : R; n_width : R; n_direction : option R; n_speed : R }.
(** src/x/gpio_smbus_motion_tracker.x.h:250-265: after the stores *)
Definition apply_news (n : news) (p : place) : place :=
  mkP (n_depth n) (n_width n) (match n_direction n with Some d => d | None => direction p end) (n_speed n).
(** src/x/gpio_smbus_motion_tracker.x.h:162-164: prev_time_point, prev_accel, prev_gyro; [pending] is what a round has calculated but not
    stored yet *)
Record tracker := mkT { at_ : place; prev : reading; pending : option (option news) }.

(** src/x/gpio_smbus_motion_tracker.x.h:38-48, 162-164: at first the time point is the epoch; the two values are not initialised,
    and not used before they are set *)
Definition tracker_at (p : place) : tracker := mkT p (mkRd 0 0 0) None.

(** src/x/gpio_smbus_motion_tracker.x.h:240, 243: the outcomes: [NotANumber] = a division by zero; [Impossible] = the thread does not do this now. *)
Inductive outcome (A : Type) := Fine (a : A) | NotANumber | Impossible.
Arguments Fine {A}. Arguments NotANumber {A}. Arguments Impossible {A}.

(** src/x/gpio_smbus_motion_tracker.x.h:237: duration_cast drops what is less than a microsecond *)
Definition microsec (t0 t : Z) : Z := Z.quot (t - t0) 1000.

(** src/x/gpio_smbus_motion_tracker.x.h:238-265: what a round stores; on a straight line it leaves _direction alone.  [us] is not 0. *)
Definition moved (p : place) (r0 : reading) (us : Z) (r : reading) : news :=
  let sec := IZR us / 1000000 in                                                                     (* 238 *)
  let accel_accel := (r_accel r - r_accel r0) / sec in                                               (* 240 *)
  let distance := speed p * sec + r_accel r0 * sec * sec / 2 + accel_accel * sec * sec * sec / 6 in  (* 241 *)
  let gyro_accel := (r_gyro r - r_gyro r0) / sec in                                                  (* 243 *)
  let gyro := r_gyro r0 * sec + gyro_accel * sec * sec / 2 in                                        (* 244 *)
  let direction_rad := deg_to_rad (direction p) in                                                   (* 246 *)
  let speed' := speed p + r_accel r0 * sec + accel_accel * sec * sec / 2 in                          (* 265 *)
  if Rlt_dec (Rabs gyro) (1 / 1000000)                                                               (* 248 *)
  then mkN (depth p + distance * cos direction_rad) (width p + distance * sin direction_rad) None speed'
  else
    let gyro_rad := deg_to_rad gyro in                                                               (* 255 *)
    let radius := distance / gyro_rad in
    let straight_depth := radius * sin gyro_rad in
    let straight_width := radius * (1 - cos gyro_rad) in
    mkN (depth p + straight_depth * cos direction_rad - straight_width * sin direction_rad)          (* 260 *)
        (width p + straight_depth * sin direction_rad + straight_width * cos direction_rad)          (* 261 *)
        (Some (direction p + gyro)) speed'.

(** src/x/gpio_smbus_motion_tracker.x.h:216-265: a round up to its stores *)
Definition sense (s : tracker) (r : reading) : outcome tracker :=
  match pending s with
  | Some _ => Impossible
  | None =>
      if Z.eqb (r_time (prev s)) 0 then Fine (mkT (at_ s) (prev s) (Some None))                   (* 232 *)
      else if Z.eqb (microsec (r_time (prev s)) (r_time r)) 0 then NotANumber
      else Fine (mkT (at_ s) (prev s) (Some (Some (moved (at_ s) (prev s) (microsec (r_time (prev s)) (r_time r)) r))))
  end.

(** src/x/gpio_smbus_motion_tracker.x.h:250-270: the stores of a round; in the first round there are none *)
Definition store (s : tracker) (r : reading) : outcome tracker :=
  match pending s with
  | None => Impossible
  | Some n => Fine (mkT (match n with Some n => apply_news n (at_ s) | None => at_ s end) r None)
  end.

(** src/x/gpio_smbus_motion_tracker.x.h:129-150: set_depth, set_width, set_direction, set_speed *)
Inductive field := FDepth | FWidth | FDirection | FSpeed.
(** src/x/gpio_smbus_motion_tracker.x.h:129-150 *)
Definition set_field (f : field) (v : R) (p : place) : place :=
  match f with
  | FDepth => mkP v (width p) (direction p) (speed p)
  | FWidth => mkP (depth p) v (direction p) (speed p)
  | FDirection => mkP (depth p) (width p) v (speed p)
  | FSpeed => mkP (depth p) (width p) (direction p) v
  end.

(** src/x/gpio_smbus_motion_tracker.x.h:166-273: what can happen: the two halves of a round, a call of a setter; the thread finds
    that it is to stop (184-186) and starts anew (212) *)
Inductive event := Sense (r : reading) | Store (r : reading) | SetField (f : field) (v : R) | StopStart.
(** src/x/gpio_smbus_motion_tracker.x.h:166-273: one event *)
Definition step (s : tracker) (e : event) : outcome tracker :=
  match e with
  | Sense r => sense s r
  | Store r => store s r
  | SetField f v => Fine (mkT (set_field f v (at_ s)) (prev s) (pending s))
  | StopStart => match pending s with
                 | Some _ => Impossible
                 | None => Fine (mkT (set_field FSpeed 0 (at_ s)) (mkRd 0 0 0) None)
                 end
  end.
(** src/x/gpio_smbus_motion_tracker.x.h:166-273 *)
Fixpoint run (s : tracker) (l : list event) : outcome tracker :=
  match l with
  | [] => Fine s
  | e :: l => match step s e with Fine s => run s l | NotANumber => NotANumber | Impossible => Impossible end
  end.
(** src/x/gpio_smbus_motion_tracker.x.h:216-273: whole rounds *)
Definition rounds (l : list reading) : list event := flat_map (fun r => [Sense r; Store r]) l.
