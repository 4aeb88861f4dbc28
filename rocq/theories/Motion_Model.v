(** Model of src/x/gpio_smbus_motion.x.h: the motion sensor.  The bus is that of Smbus_Model.  Rational numbers stand for
    double.  The seven members of gpio_smbus_motion_measurements and gpio_smbus_motion_values are lists in the order of their
    declaration (src/i/gpio_smbus_motion.i.h:65-103), which is the order in which the code goes through them.  Left out: sleeping, what is logged. *)

From Coq Require Import ZArith QArith List Bool.
From Verif Require Import Base ListMem Smbus_Model.
Import ListNotations.
Open Scope list_scope.
Open Scope Z_scope.

(** src/i/gpio_smbus_motion.i.h:42-50, 135-143: the bits of the channels, and their registers *)
Definition channels : list (Z * Z) :=
  [(0x0001, 0x3b); (0x0002, 0x3d); (0x0004, 0x3f); (0x0008, 0x43); (0x0010, 0x45); (0x0020, 0x47); (0x0040, 0x41)].
(** src/i/gpio_smbus_motion.i.h:149-151 *)
Definition max_measurement : Z := 0x7fff.
(** src/i/gpio_smbus_motion.i.h:150 *)
Definition max_accel : Z := 16.
(** src/i/gpio_smbus_motion.i.h:151 *)
Definition max_gyro : Z := 2000.

(** src/x/gpio_smbus_motion.x.h:44-66: what the constructor sends; the results of put_byte are not looked at *)
Definition motion_init (D : nat -> answer) (b : bus) (t : target) : bus :=
  let put b reg x := match put_byte D b t reg x with Smbus_Model.Ret _ _ b => b | Undef => b end in
  put (put (put (put b 0x6b 0) 0x1a 3) 0x1c (Z.shiftl 3 3)) 0x1b (Z.shiftl 3 3).

(** src/x/gpio_smbus_motion.x.h:131-164: the seven ifs; [temp] is temp_ui16 (line 129), None: not initialised.
    None: memory was corrupted, or a variable was used that was not initialised. *)
Fixpoint measure (D : nat -> answer) (b : bus) (t : target) (mask : Z) (cs : list (Z * Z)) (temp : option Z) : option (list Z * bus) :=
  match cs with
  | [] => Some ([], b)
  | (bit, reg) :: cs =>
      if Z.land mask bit =? 0 then
        match measure D b t mask cs temp with Some (l, b) => Some (0 :: l, b) | None => None end
      else
        match get_word D b t reg with
        | Undef => None
        | Smbus_Model.Ret _ out b =>
            match (match out with SWord w => Some w | _ => temp end) with
            | None => None
            | Some w => match measure D b t mask cs (Some w) with Some (l, b) => Some (wrap_s16 w :: l, b) | None => None end
            end
        end
  end.
(** src/x/gpio_smbus_motion.x.h:127-170: get_measurements *)
Definition get_measurements (D : nat -> answer) (b : bus) (t : target) (mask : Z) : option (list Z * bus) := measure D b t mask channels None.

(** src/x/gpio_smbus_motion.x.h:213-217: get_value_from_measurement; the difference is an int *)
Definition value_from (m cal max : Z) : Q := (inject_Z max * inject_Z (m - cal) / inject_Z max_measurement)%Q.
(** src/x/gpio_smbus_motion.x.h:202 *)
Definition temperature_from (m : Z) : Q := (inject_Z m / inject_Z 340 + (3653 # 100))%Q.
(** src/x/gpio_smbus_motion.x.h:177-203: what a channel's measurement is converted with *)
Definition conversions : list (Z -> Z -> Q) :=
  [fun m c => value_from m c max_accel; fun m c => value_from m c max_accel; fun m c => value_from m c max_accel;
   fun m c => value_from m c max_gyro; fun m c => value_from m c max_gyro; fun m c => value_from m c max_gyro; fun m _ => temperature_from m].
(** src/x/gpio_smbus_motion.x.h:174-209: get_values_from_measurements *)
Fixpoint values_from (mask : Z) (cs : list (Z * Z)) (fs : list (Z -> Z -> Q)) (ms cal : list Z) : list Q :=
  match cs, fs, ms, cal with
  | (bit, _) :: cs, f :: fs, m :: ms, c :: cal => (if Z.land mask bit =? 0 then 0%Q else f m c) :: values_from mask cs fs ms cal
  | _, _, _, _ => []
  end.
(** src/x/gpio_smbus_motion.x.h:113-123: get_values; [cal] is _calibration *)
Definition get_values (D : nat -> answer) (b : bus) (t : target) (mask : Z) (cal : list Z) : option (list Q * bus) :=
  match get_measurements D b t mask with
  | None => None
  | Some (ms, b) => Some (values_from mask channels conversions ms cal, b)
  end.

(** src/x/gpio_smbus_motion.x.h:75-79: the measurements of the rounds *)
Fixpoint rounds (n : nat) (D : nat -> answer) (b : bus) (t : target) (mask : Z) : option (list (list Z) * bus) :=
  match n with
  | O => Some ([], b)
  | S n =>
      match get_measurements D b t (Z.land mask (Z.lnot 0x0040)) with
      | None => None
      | Some (m, b) => match rounds n D b t mask with Some (l, b) => Some (m :: l, b) | None => None end
      end
  end.
(** src/x/gpio_smbus_motion.x.h:70-109: calibrate: the new _calibration (its temperature stays 0).  Line 85 calls the log without looking whether there is one
    ([log]); None: undefined behaviour.  The sums of 88-103 are Smbus_Model.calibrate, channel by channel. *)
Definition calibrate_all (log : bool) (D : nat -> answer) (b : bus) (t : target) (mask : Z) : option (list Z * bus) :=
  match rounds 25 D b t mask with
  | None => None
  | Some (samples, b) =>
      if log then Some (map (fun k => Smbus_Model.calibrate (map (fun m => nth k m 0) samples)) (seq 0 6) ++ [0], b) else None
  end.
