(** Specification vocabulary for C74-C82: the car as its driver sees it. *)

From Coq Require Import String ZArith QArith List Bool.
From Verif Require Import Base ListMem Ascii_Spec Http_Model Http_Calls Http_Spec Endpoint_Model Endpoint_Spec Rest_Model Rest_Spec RestBody_Spec Car_Model.
From Verif Require Json_Model Json_Spec.
Import ListNotations.
Open Scope string_scope.
Open Scope list_scope.
Open Scope Z_scope.

(** ** Wheels *)
Inductive wheel := FrontLeft | FrontRight | RearLeft | RearRight.
Definition is_left (w : wheel) : bool := match w with FrontLeft | RearLeft => true | _ => false end.
(** The wiring: the line with the direction (high: backwards) and the PWM register (0 to 2000 for 0 to 100 percent). *)
Definition line_of (w : wheel) : Z := match w with FrontLeft => 23 | FrontRight => 24 | RearLeft => 13 | RearRight => 20 end.
Definition reg_of (w : wheel) : Z := match w with FrontLeft => 45 | FrontRight => 44 | RearLeft => 40 | RearRight => 41 end.
(** What was written last. *)
Definition last_level (pin : Z) (os : list output) : option bool :=
  fold_left (fun a o => match o with Level q h => if q =? pin then Some h else a | Word _ _ => a end) os None.
Definition last_word (reg : Z) (os : list output) : option Z :=
  fold_left (fun a o => match o with Word q w => if q =? reg then Some w else a | Level _ _ => a end) os None.
(** The wheel turns with [duty] percent of the power. *)
Definition turns (os : list output) (w : wheel) (fwd : bool) (duty : Z) : Prop :=
  last_level (line_of w) os = Some (negb fwd) /\ last_word (reg_of w) os = Some (20 * duty).
Definition at_rest (os : list output) : Prop := forall w, last_word (reg_of w) os = Some 0.
(** An output that moves nothing: not one of the wheels' registers or lines. *)
Definition for_wheels (o : output) : Prop := exists w, match o with Level q _ => q = line_of w | Word q _ => q = reg_of w end.

(** ** Power and turn *)
Definition five_powers (p : Z) : Prop := p = 0 \/ p = 25 \/ p = 50 \/ p = 75 \/ p = 100.
(** Half of the difference between the two sides. *)
Inductive steering : Z -> Z -> Prop :=
| steer_0 : steering 0 0
| steer_30 : steering 30 11 | steer_60 : steering 60 25 | steer_90 : steering 90 50
| steer_m30 : steering (-30) (-11) | steer_m60 : steering (-60) (-25) | steer_m90 : steering (-90) (-50).
(** The powers of the sides: they differ as the turn says, they are percentages, and their mean is the power unless one of them has
    reached its limit. *)
Definition sides (p t l r : Z) : Prop :=
  exists d, steering t d /\ l - r = 2 * d /\ 0 <= l <= 100 /\ 0 <= r <= 100 /\
    (0 <= p - Z.abs d -> p + Z.abs d <= 100 -> l + r = 2 * p) /\
    (p - Z.abs d < 0 -> p + Z.abs d <= 100 -> Z.min l r = 0) /\ (100 < p + Z.abs d -> Z.max l r = 100).
(** The wheels do what the members of the car say. *)
Definition rolling (c : car) : Prop :=
  exists l r, sides (power c) (turn c) l r /\ forall w, turns (outs c) w (forward c) (if is_left w then l else r).
(** No wheel was ever given anything. *)
Definition unmoved (c : car) : Prop := Forall (fun o => ~ for_wheels o) (outs c) /\ power c = 0 /\ turn c = 0 /\ forward c = true.
(** The hat was reset, and nothing was written since. *)
Definition was_reset (c : car) : Prop := exists os, outs c = os ++ [Level 21 false; Level 21 true].

(** ** Commands *)
Definition fits_steps (n hi step : Z) : Prop := - hi <= n <= hi /\ (step | n).
Definition acceptable (x : command) : Prop :=
  match x with Power p => fits_steps p 100 25 | Turn t => fits_steps t 90 30 | Servo a => fits_steps a 90 30 | Autos | Shutdown => True end.
(** Everything but the driving is left alone. *)
Definition same_rest (c c' : car) : Prop :=
  obstacle c' = obstacle c /\ gray_left c' = gray_left c /\ gray_center c' = gray_center c /\ gray_right c' = gray_right c /\
  depth c' = depth c /\ width c' = width c /\ closing c' = closing c /\ ended c' = ended c /\ joined c' = joined c.
(** The car drives as it was told. *)
Definition powered (p : Z) (c c' : car) : Prop :=
  forward c' = (0 <=? p) /\ power c' = Z.abs p /\ turn c' = (if p =? 0 then 0 else turn c) /\ tracking c' = negb (p =? 0) /\ same_rest c c' /\
  (exists new, outs c' = outs c ++ new) /\ rolling c'.
Definition turned (t : Z) (c c' : car) : Prop :=
  forward c' = forward c /\ power c' = power c /\ turn c' = t /\ tracking c' = tracking c /\ same_rest c c' /\
  (exists new, outs c' = outs c ++ new) /\ rolling c'.
(** The servo: a pulse of [us] microseconds (10 for each unit of the register) for a quarter of a second, then none. *)
Definition aimed (us : Z) (c c' : car) : Prop :=
  exists w, us = 10 * w /\ c' = put (Word 32 0) (put (Word 32 w) c).
(** 1500 microseconds in the middle, 1000 more or less for 92 degrees, up to a resolution of 20. *)
Definition pulse_for (a us : Z) : Prop := 500 <= us <= 2500 /\ - 20 * 184 <= 184 * (us - 1500) + 2000 * a <= 20 * 184.
Definition stopped_serving (c c' : car) : Prop :=
  c' = set_joined (set_ended (put (Level 21 true) (put (Level 21 false) (set_closing c)))).
Definition obeys (x : command) (c c' : car) : Prop :=
  match x with
  | Power p => powered p c c'
  | Turn t => turned t c c'
  | Servo a => exists us, pulse_for a us /\ aimed us c c'
  | Autos => c' = c
  | Shutdown => stopped_serving c c'
  end.

(** ** Texts *)
Definition sign (n : Z) : string := if n <? 0 then "-" else "".
(** The digits of a number without leading zeros. *)
Definition int_text (t : list Z) (n : Z) : Prop := exists d, decimal_text d (Z.abs n) /\ t = b (sign n) ++ d.

(** ** Bodies *)
(** The text of the number: the object starts with the member [s]. *)
Definition number_in (s : string) (v : Json_Spec.jv) : option (list Z) :=
  match v with
  | Json_Spec.JObj ((n, Json_Spec.JNum x) :: _) => if named s (n, Json_Spec.JNull) then Some x else None
  | _ => None
  end.
(** A number of the request, read by std::atof, is within the bounds; the number without its fraction. *)
Definition within (a : option Q) (hi : Z) : Prop := exists q, a = Some q /\ (inject_Z (- hi) <= q <= inject_Z hi)%Q.
Definition whole_part (q : Q) (n : Z) : Prop :=
  ((0 <= q)%Q -> (inject_Z n <= q < inject_Z (n + 1))%Q) /\ ((q <= 0)%Q -> (inject_Z (n - 1) < q <= inject_Z n)%Q).
(** The resources that take a number: the name of the member, the limit and the steps, the command, an example. *)
Inductive takes (r : list Z) : string -> Z -> Z -> (Z -> command) -> string -> Prop :=
| takes_power : same_i r (b "/power") -> takes r "power" 100 25 Power "power"
| takes_turn : same_i r (b "/turn") -> takes r "turn" 90 30 Turn "turn"
| takes_servo : same_i r (b "/servo") -> takes r "angle" 90 30 Servo "servo".
Definition invalid_text (example : string) : string := "An invalid JSON payload was supplied. Must be: {""" ++ example ++ """: 50}.".
(** A complete POST request with a JSON value. *)
Definition asked (cn : conn) (root : list Z) (e : env) (l r : list Z) (v : Json_Spec.jv) : Prop :=
  ready cn root /\ sized e /\ exists m hs body, full_request root l m r hs body /\ ~ file_asked (c_config cn) m r /\ same_i m (b "POST") /\
    Forall header_fits hs /\ json_type hs /\ body_says body v /\ readable v /\ (length body + 4 < e_fuel e)%nat.
(** The response to a command that was carried out: what the car does now. *)
Definition reports (x : command) (c' : car) (text : list Z) : Prop :=
  match x with
  | Power _ => exists p t, int_text p (power c') /\ int_text t (turn c') /\
      text = b "power: forward=" ++ b (if forward c' then "1" else "0") ++ b ", power=" ++ p ++ b ", turn=" ++ t
  | Turn _ => exists p t, int_text p (power c') /\ int_text t (turn c') /\ text = b "turn: power=" ++ p ++ b ", turn=" ++ t
  | Servo a => exists t, int_text t a /\ text = b "servo: angle=" ++ t
  | Autos => False
  | Shutdown => text = b "Server is shuting down..."
  end.
Definition done_reply (out : list Z) (x : command) (c' : car) : Prop :=
  exists text, reports x c' text /\ responds out (b "200") (b "OK") (Some (b "text/plain; charset=utf-8")) text.
(** The resources there are. *)
Definition known (r : list Z) : Prop := same_i r (b "/power") \/ same_i r (b "/turn") \/ same_i r (b "/autos") \/ same_i r (b "/servo") \/ same_i r (b "/shutdown").

(** ** Obstacles *)
(** How fast the car may go towards an obstacle. *)
Definition allowed (cm : Z) : Z := if cm <? 5 then 0 else if cm <? 10 then 25 else if cm <? 20 then 50 else if cm <? 30 then 75 else 100.

(** An event without a request. *)
Definition of_sensors (ev : event) : Prop := match ev with Request _ _ _ => False | _ => True end.
(** A turn of the auto thread with an obstacle before which the car may go with [a] percent at most. *)
Definition near (a : Z) (ev : event) : Prop := match ev with Tick n => allowed (sn_distance n) <= a | _ => False end.

(** ** Threads *)
(** What may be written at all: the five lines; at most 100 percent for a wheel; for the servo no pulse or one of 500 to 2500 microseconds. *)
Definition legal (o : output) : Prop :=
  match o with
  | Level q _ => (exists w, q = line_of w) \/ q = 21
  | Word q x => (exists w, q = reg_of w /\ 0 <= x <= 2000) \/ q = 32 /\ (x = 0 \/ 50 <= x <= 250)
  end.
(** The commands of a run are ones that requests are accepted with. *)
Definition orderly (a : action) : Prop := match a with Arrive _ x => acceptable x | _ => True end.
(** A thread of a request that has ended; one that has not started. *)
Definition finished (p : prog (hres (list (wcall * list Z)))) : Prop := exists r, p = Done r.
Definition not_started (p : prog (hres (list (wcall * list Z)))) : Prop := exists e x, p = handler e x.
(** No arrivals, no new readings of the sensors. *)
Definition goes_on (a : action) : Prop := match a with Auto | Handle _ => True | _ => False end.

(** ** Changes of direction *)
(** A wheel gets another direction while it has power. *)
Definition reversed_under_power (before new : list output) : Prop :=
  exists w a h k u, new = a ++ [Level (line_of w) h] ++ k /\ last_level (line_of w) (before ++ a) = Some (negb h) /\
    last_word (reg_of w) (before ++ a) = Some u /\ 0 < u.

(** ** The report of the sensors *)
Definition sensor_report (c : car) : Json_Spec.jv :=
  let cm (t : Json_Spec.jv) := Json_Spec.JObj [(b "distance", t); (b "units", Json_Spec.JStr (b "cm"))] in
  Json_Spec.JObj
    [(b "obstacle", cm (jint (obstacle c)));
     (b "grayscale", Json_Spec.JObj [(b "left", jint (gray_left c)); (b "center", jint (gray_center c)); (b "right", jint (gray_right c))]);
     (b "depth", cm (Json_Spec.JNum (depth c))); (b "width", cm (Json_Spec.JNum (width c)))].
(** Values as the sensors give them; the position is printed as a number of at most 32 characters. *)
Definition short_number (t : list Z) : Prop := Json_Spec.number_text t /\ zlen t <= 32.
Definition measured (c : car) : Prop :=
  0 <= obstacle c < 10 ^ 15 /\ 0 <= gray_left c < 10 ^ 15 /\ 0 <= gray_center c < 10 ^ 15 /\ 0 <= gray_right c < 10 ^ 15 /\ short_number (depth c) /\ short_number (width c).
