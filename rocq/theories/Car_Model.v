(** Model of car_endpoint in samples/picar_4wd/car.h: the REST server of the four-wheel-drive car: what a
    request does to the members of the car, what is written to the lines and registers of the
    motors and the servo, the thread that slows the car down in front of obstacles, and the interleavings
    of these threads.

    The HTTP streams, JSON streams, the request line, static files and responses are those of
    Http_Model.v, Json_Model.v, Endpoint_Model.v; verify_header_json (car.h:648-697) has the same text as the
    one of the games and is taken from Rest_Model.v.  The words for the registers are those of Smbus_Model.v.
    Every access of a member of the car is a step of its own ([prog]), atomic and in program order: the data races of
    the non-atomic members _forward, _power, _turn are taken as that.
    Left out: the log, failing writes to lines and to the bus (C55, C56 and Smbus_Model.v), the bus
    traffic of the grayscale sensor, the position computed by the motion tracker (any texts), the constructor. *)

From Coq Require Import String ZArith QArith List Bool.
From Verif Require Import Base ListMem Ascii_Model Table_Model Http_Model Http_Calls Endpoint_Model Rest_Model.
From Verif Require Json_Model Smbus_Model.
Import ListNotations.
Open Scope list_scope.
Open Scope Z_scope.

(** ** The car *)
(** What is written: a level of a line (src/x/gpio_line.x.h:123-144), a word of a register of the hat
    (src/x/gpio_smbus.x.h:195-226) *)
Inductive output := Level (pin : Z) (high : bool) | Word (reg w : Z).

(** samples/picar_4wd/car.i.h:106-130: _forward, _power, _turn, _motion_tracker.is_running(), _obstacle_cm, the three grayscale
    values, the texts of the tracker's depth and width; _is_shutdown_requested of the endpoint; whether auto_loop has
    returned and whether its thread was joined; everything written so far, the oldest first. *)
Record car := { forward : bool; power : Z; turn : Z; tracking : bool; obstacle : Z;
                gray_left : Z; gray_center : Z; gray_right : Z; depth : list Z; width : list Z;
                closing : bool; ended : bool; joined : bool; outs : list output }.
(** samples/picar_4wd/car.h:137-140, with the sensors not read yet *)
Definition new_car : car :=
  {| forward := true; power := 0; turn := 0; tracking := false; obstacle := 100; gray_left := 0; gray_center := 0; gray_right := 0;
     depth := bytes_of_string "0"; width := bytes_of_string "0"; closing := false; ended := false; joined := false; outs := [] |}.
(** Assignments: car.h:264, 270 *)
Definition set_forward (x : bool) (c : car) : car :=
  {| forward := x; power := power c; turn := turn c; tracking := tracking c; obstacle := obstacle c; gray_left := gray_left c; gray_center := gray_center c; gray_right := gray_right c; depth := depth c; width := width c; closing := closing c; ended := ended c; joined := joined c; outs := outs c |}.
(** car.h:251, 274, 778 *)
Definition set_power (x : Z) (c : car) : car :=
  {| forward := forward c; power := x; turn := turn c; tracking := tracking c; obstacle := obstacle c; gray_left := gray_left c; gray_center := gray_center c; gray_right := gray_right c; depth := depth c; width := width c; closing := closing c; ended := ended c; joined := joined c; outs := outs c |}.
(** car.h:252, 257, 266, 351 *)
Definition set_turn (x : Z) (c : car) : car :=
  {| forward := forward c; power := power c; turn := x; tracking := tracking c; obstacle := obstacle c; gray_left := gray_left c; gray_center := gray_center c; gray_right := gray_right c; depth := depth c; width := width c; closing := closing c; ended := ended c; joined := joined c; outs := outs c |}.
(** car.h:255, 261, 279: start() and stop() of the tracker set _run (src/x/gpio_smbus_motion_tracker.x.h:89-102) *)
Definition set_tracking (x : bool) (c : car) : car :=
  {| forward := forward c; power := power c; turn := turn c; tracking := x; obstacle := obstacle c; gray_left := gray_left c; gray_center := gray_center c; gray_right := gray_right c; depth := depth c; width := width c; closing := closing c; ended := ended c; joined := joined c; outs := outs c |}.
(** car.h:731 *)
Definition set_obstacle (x : Z) (c : car) : car :=
  {| forward := forward c; power := power c; turn := turn c; tracking := tracking c; obstacle := x; gray_left := gray_left c; gray_center := gray_center c; gray_right := gray_right c; depth := depth c; width := width c; closing := closing c; ended := ended c; joined := joined c; outs := outs c |}.
(** car.h:738 *)
Definition set_gray_left (x : Z) (c : car) : car :=
  {| forward := forward c; power := power c; turn := turn c; tracking := tracking c; obstacle := obstacle c; gray_left := x; gray_center := gray_center c; gray_right := gray_right c; depth := depth c; width := width c; closing := closing c; ended := ended c; joined := joined c; outs := outs c |}.
(** car.h:739 *)
Definition set_gray_center (x : Z) (c : car) : car :=
  {| forward := forward c; power := power c; turn := turn c; tracking := tracking c; obstacle := obstacle c; gray_left := gray_left c; gray_center := x; gray_right := gray_right c; depth := depth c; width := width c; closing := closing c; ended := ended c; joined := joined c; outs := outs c |}.
(** car.h:740 *)
Definition set_gray_right (x : Z) (c : car) : car :=
  {| forward := forward c; power := power c; turn := turn c; tracking := tracking c; obstacle := obstacle c; gray_left := gray_left c; gray_center := gray_center c; gray_right := x; depth := depth c; width := width c; closing := closing c; ended := ended c; joined := joined c; outs := outs c |}.
(** The tracker's thread has moved the position (src/x/gpio_smbus_motion_tracker.x.h:246-259) *)
Definition set_position (d w : list Z) (c : car) : car :=
  {| forward := forward c; power := power c; turn := turn c; tracking := tracking c; obstacle := obstacle c; gray_left := gray_left c; gray_center := gray_center c; gray_right := gray_right c; depth := d; width := w; closing := closing c; ended := ended c; joined := joined c; outs := outs c |}.
(** car.h:512, src/endpoint.h:339: set_shutdown_requested *)
Definition set_closing (c : car) : car :=
  {| forward := forward c; power := power c; turn := turn c; tracking := tracking c; obstacle := obstacle c; gray_left := gray_left c; gray_center := gray_center c; gray_right := gray_right c; depth := depth c; width := width c; closing := true; ended := ended c; joined := joined c; outs := outs c |}.
(** car.h:749: auto_loop returns *)
Definition set_ended (c : car) : car :=
  {| forward := forward c; power := power c; turn := turn c; tracking := tracking c; obstacle := obstacle c; gray_left := gray_left c; gray_center := gray_center c; gray_right := gray_right c; depth := depth c; width := width c; closing := closing c; ended := true; joined := joined c; outs := outs c |}.
(** car.h:514: join has returned *)
Definition set_joined (c : car) : car :=
  {| forward := forward c; power := power c; turn := turn c; tracking := tracking c; obstacle := obstacle c; gray_left := gray_left c; gray_center := gray_center c; gray_right := gray_right c; depth := depth c; width := width c; closing := closing c; ended := ended c; joined := true; outs := outs c |}.
(** A line or a register is written (car.h:57-58, 530-540, 497) *)
Definition put (o : output) (c : car) : car :=
  {| forward := forward c; power := power c; turn := turn c; tracking := tracking c; obstacle := obstacle c; gray_left := gray_left c; gray_center := gray_center c; gray_right := gray_right c; depth := depth c; width := width c; closing := closing c; ended := ended c; joined := joined c; outs := outs c ++ [o] |}.

(** ** Programs over the car *)
(** What a thread does to the car, step by step: a read of one member, an assignment or a write to the hardware, the join of the
    auto thread (car.h:514), the end *)
Inductive prog (A : Type) := Done (a : A) | Read (f : car -> prog A) | Write (f : car -> car) (k : prog A) | Join (k : prog A).
Arguments Done {A}. Arguments Read {A}. Arguments Write {A}. Arguments Join {A}.
(** One after the other (the statements of car.h) *)
Fixpoint next {A B} (p : prog A) (k : A -> prog B) : prog B :=
  match p with
  | Done a => k a
  | Read f => Read (fun c => next (f c) k)
  | Write f p => Write f (next p k)
  | Join p => Join (next p k)
  end.
(** Without other threads.  While a handler joins it, the auto thread leaves its sleep, sees the flag and returns (car.h:728, 745). *)
Fixpoint run {A} (p : prog A) (c : car) : A * car :=
  match p with
  | Done a => (a, c)
  | Read f => run (f c) c
  | Write f p => run p (f c)
  | Join p => run p (set_ended c)
  end.

(** ** Driving *)
(** car.h:67-72, 117-128: the four motors of 72 MHz / 50 Hz: the members of gpio_smbus_pwm after its constructor (Smbus_Model.pwm_new 72000000 0 0 50) *)
Definition wheel_pwm : Smbus_Model.pwm :=
  {| Smbus_Model.min_w := 0; Smbus_Model.max_w := 2000; Smbus_Model.period := 1440000; Smbus_Model.autoreload := 2000; Smbus_Model.prescaler := 720 |}.
(** car.h:99-101, 131-133: the servo (Smbus_Model.pwm_new 72000000 500 2500 50) *)
Definition servo_pwm : Smbus_Model.pwm :=
  {| Smbus_Model.min_w := 50; Smbus_Model.max_w := 250; Smbus_Model.period := 1440000; Smbus_Model.autoreload := 2000; Smbus_Model.prescaler := 720 |}.
(** car.h:76-79, 89-92: the direction lines and the PWM registers *)
Definition line_front_left : Z := 23.
(** samples/picar_4wd/car.h:76-79, 89-92 *)
Definition line_front_right : Z := 24.
(** samples/picar_4wd/car.h:76-79, 89-92 *)
Definition line_rear_left : Z := 13.
(** samples/picar_4wd/car.h:76-79, 89-92 *)
Definition line_rear_right : Z := 20.
(** car.h:69, 72-75 *)
Definition reg_front_left : Z := 45.
(** samples/picar_4wd/car.h:69, 72-75 *)
Definition reg_front_right : Z := 44.
(** samples/picar_4wd/car.h:69, 72-75 *)
Definition reg_rear_left : Z := 40.
(** samples/picar_4wd/car.h:69, 72-75 *)
Definition reg_rear_right : Z := 41.
(** car.h:69, 98 *)
Definition reg_servo : Z := 32.
(** car.h:55 *)
Definition line_reset : Z := 21.

(** car.h:578-612: get_delta_power *)
Definition get_delta_power : prog Z :=
  Read (fun c =>                                                                          (* 581 *)
    let t := turn c in
    let delta := if (t =? -30) || (t =? 30) then 11 else if (t =? -45) || (t =? 45) then 18
                 else if (t =? -60) || (t =? 60) then 25 else if (t =? -90) || (t =? 90) then 50 else 0 in
    Read (fun c => Done (if turn c <? 0 then - delta else delta))).                       (* 603 *)
(** car.h:545-574: get_side_powers *)
Definition get_side_powers : prog (Z * Z) :=
  next get_delta_power (fun delta =>
  Read (fun c => let l := power c + delta in                                              (* 548 *)
  Read (fun c => let r := power c - delta in                                              (* 549 *)
    let adjust := if 100 <? l then 100 - l else if 100 <? r then 100 - r
                  else if l <? 0 then 0 - l else if r <? 0 then 0 - r else 0 in
    Done (l + adjust, r + adjust)))).
(** car.h:530-540, src/x/gpio_smbus_motor.x.h:54-69: set_forward(_forward) and set_duty_cycle of one motor *)
Definition motor (pin reg duty : Z) : prog unit :=
  Read (fun c => let h := negb (forward c) in
    Write (put (Level pin h)) (Write (put (Word reg (Smbus_Model.capture_word wheel_pwm duty))) (Done tt))).
(** car.h:522-541: drive_verified *)
Definition drive : prog unit :=
  next get_side_powers (fun s =>
    let l := wrap_u16 (fst s) in
    let r := wrap_u16 (snd s) in
    next (motor line_front_left reg_front_left l) (fun _ =>
    next (motor line_front_right reg_front_right r) (fun _ =>
    next (motor line_rear_left reg_rear_left l) (fun _ =>
    motor line_rear_right reg_rear_right r)))).

(** ** The commands *)
(** %d of std::snprintf (car.h:284, 356, 501) *)
Definition show (n : Z) : list Z := if n <? 0 then 45 :: decimal (- n) else decimal n.
(** car.h:246-258: stopping before a change of direction *)
Definition stop_first (p : Z) : prog unit :=
  Read (fun c =>
    if p * power c <? 0 then
      Read (fun c => let t := turn c in
        Write (set_power 0) (Write (set_turn 0) (next drive (fun _ =>
          Write (set_tracking false) (Write (set_turn t) (Done tt))))))
    else Done tt).
(** car.h:260-262 *)
Definition start_tracking (p : Z) : prog unit :=
  if p =? 0 then Done tt else Read (fun c => if tracking c then Done tt else Write (set_tracking true) (Done tt)).
(** car.h:246-285: process_power once the power is known; the result is the body of the response *)
Definition do_power (p : Z) : prog (list Z) :=
  next (stop_first p) (fun _ =>
  next (start_tracking p) (fun _ =>
  Write (set_forward true)                                                                (* 264 *)
  (next (if p =? 0 then Write (set_turn 0) (Done tt) else Done tt) (fun _ =>              (* 265-267 *)
  next (if p <? 0 then Write (set_forward false) (Done tt) else Done tt) (fun _ =>        (* 269-272 *)
  Write (set_power (Z.abs p))                                                             (* 274 *)
  (next drive (fun _ =>
  Read (fun c => next (if power c =? 0 then Write (set_tracking false) (Done tt) else Done tt) (fun _ =>
  Read (fun c => let f := forward c in Read (fun c => let q := power c in Read (fun c => let t := turn c in
  Done (bytes_of_string "power: forward=" ++ (if f then [49] else [48]) ++ bytes_of_string ", power=" ++ show q ++ bytes_of_string ", turn=" ++ show t))))))))))))).
(** car.h:351-357: process_turn once the turn is known *)
Definition do_turn (t : Z) : prog (list Z) :=
  Write (set_turn t) (next drive (fun _ =>
  Read (fun c => let q := power c in Read (fun c => let t := turn c in
  Done (bytes_of_string "turn: power=" ++ show q ++ bytes_of_string ", turn=" ++ show t))))).
(** car.h:496-497: the duty cycle for an angle *)
Definition servo_duty (angle : Z) : Z := wrap_u16 (100 - wrap_u16 (Z.quot (100 * (angle + 92)) 184)).
(** car.h:496-502 and src/x/gpio_smbus_servo.x.h:55-57, src/x/gpio_smbus_pwm.x.h:158-163: process_servo once the angle is known *)
Definition do_servo (angle : Z) : prog (list Z) :=
  Write (put (Word reg_servo (Smbus_Model.capture_word servo_pwm (servo_duty angle))))
  (Write (put (Word reg_servo (Smbus_Model.capture_word servo_pwm 0)))
  (Done (bytes_of_string "servo: angle=" ++ show angle))).
(** car.h:371-403: the tokens of process_autos.  The numbers below 10^16 are printed as decimals; the position as its texts. *)
Definition autos_tokens (o l c r : Z) (d w : list Z) : list Json_Model.token :=
  [Json_Model.TBegO;
   prop "obstacle"; Json_Model.TBegO; prop "distance"; num o; prop "units"; Json_Model.TStr (bytes_of_string "cm"); Json_Model.TEndO;
   prop "grayscale"; Json_Model.TBegO; prop "left"; num l; prop "center"; num c; prop "right"; num r; Json_Model.TEndO;
   prop "depth"; Json_Model.TBegO; prop "distance"; Json_Model.TNum d; prop "units"; Json_Model.TStr (bytes_of_string "cm"); Json_Model.TEndO;
   prop "width"; Json_Model.TBegO; prop "distance"; Json_Model.TNum w; prop "units"; Json_Model.TStr (bytes_of_string "cm"); Json_Model.TEndO;
   Json_Model.TEndO].
(** car.h:367-403: the JSON text of process_autos *)
Definition do_autos (e : env) : prog (hres (list Z)) :=
  Read (fun c => let o := obstacle c in Read (fun c => let gl := gray_left c in Read (fun c => let gc := gray_center c in Read (fun c => let gr := gray_right c in
  Read (fun c => let d := depth c in Read (fun c => let w := width c in
  Done (json_text (e_body e 513) (autos_tokens o gl gc gr d w)))))))).
(** car.h:512-517: process_shutdown of a POST; [None] = join has thrown: the thread is joined already *)
Definition do_shutdown : prog (option (list Z)) :=
  Write set_closing (Write (put (Level line_reset false)) (Write (put (Level line_reset true))
  (Read (fun c => if joined c then Done None
    else Join (Read (fun c => if joined c then Done None else Write set_joined (Done (Some (bytes_of_string "Server is shuting down..."))))))))).

(** ** Requests *)
(** samples/picar_4wd/car.h:512-517: What a request asks for once it was read *)
Inductive command := Power (p : Z) | Turn (t : Z) | Servo (a : Z) | Autos | Shutdown.
(** send_simple_response with 200 and content_type::text (car.h:285, 357, 502, 517) *)
Definition ok_response (body : list Z) : list (wcall * list Z) :=
  simple_response (bytes_of_string "200") (bytes_of_string "OK") text_plain body.
(** The handlers from the point on where the car is touched: car.h:246, 351, 367, 496, 512.  The result: the calls on the stream. *)
Definition perform (e : env) (x : command) : prog (hres (list (wcall * list Z))) :=
  match x with
  | Power p => next (do_power p) (fun t => Done (Ret (ok_response t)))
  | Turn t => next (do_turn t) (fun t => Done (Ret (ok_response t)))
  | Servo a => next (do_servo a) (fun t => Done (Ret (ok_response t)))
  | Autos => next (do_autos e) (fun t => Done (Http_Model.bind t (fun t => Ret (json_response t))))
  | Shutdown => next do_shutdown (fun t => Done (match t with Some t => Ret (ok_response t) | None => Throw end))
  end.
(** car.h:223-240, 327-344, 472-489: the number, between -[hi] and [hi], converted to std::int32_t; None = something else *)
Definition read_int (e : env) (hi : Z) (tb : list Z) (s : Json_Model.rd) : hres (option Z) :=
  do (t, tb, s) <- get_token e tb s;
  match t with
  | Json_Model.TNum d => match e_atof e d with
                         | Some q => Ret (if Qle_bool (inject_Z (- hi)) q && Qle_bool q (inject_Z hi) then Some (Z.quot (Qnum q) (Zpos (Qden q))) else None)
                         | None => Ret None
                         end
  | _ => Ret None
  end.
(** car.h:196-241, 300-345, 445-490: the number of the property [name] in the body; None = refused *)
Definition read_number (e : env) (name : string) (hi : Z) (s : hrd) : hres (option Z) :=
  do (t, tb, js) <- get_token e (e_token e) (json_reader s);
  match t with
  | Json_Model.TBegO =>
      do r <- read_name e name tb js;
      match r with
      | None => Ret None
      | Some (tb, js) => read_int e hi tb js
      end
  | _ => Ret None
  end.
(** car.h:204, 308, 453 *)
Definition invalid_power : list (wcall * list Z) := text_response "400" "Bad Request" "An invalid JSON payload was supplied. Must be: {""power"": 50}.".
(** samples/picar_4wd/car.h:308 *)
Definition invalid_turn : list (wcall * list Z) := text_response "400" "Bad Request" "An invalid JSON payload was supplied. Must be: {""turn"": 50}.".
(** samples/picar_4wd/car.h:453 *)
Definition invalid_servo : list (wcall * list Z) := text_response "400" "Bad Request" "An invalid JSON payload was supplied. Must be: {""servo"": 50}.".
(** car.h:708 *)
Definition not_in_range : list (wcall * list Z) := text_response "400" "Bad Request" "Value not in range.".
(** car.h:701-713: verify_range *)
Definition in_range (v hi step : Z) : bool := negb ((v <? - hi) || (hi <? v) || negb (Z.rem v step =? 0)).
(** car.h:186-245, 290-349, 435-494: process_power, process_turn, process_servo up to the point where the car is touched *)
Definition read_command (e : env) (name : string) (hi step : Z) (bad : list (wcall * list Z)) (mk : Z -> command) (m : list Z) (s : hrd) : hres (found command * hrd) :=
  do post <- equals_i m "POST";
  if negb post then Ret (Refuse expect_post, s) else
  do (v, s) <- verify_header_json e (S (Datatypes.length (hin s))) 0 false s;
  match v with
  | None => Ret (Refuse [], s)
  | Some ((_ :: _) as calls) => Ret (Refuse calls, s)
  | Some [] =>
      do n <- read_number e name hi s;
      match n with
      | None => Ret (Refuse bad, s)
      | Some n => if in_range n hi step then Ret (Found (mk n), s) else Ret (Refuse not_in_range, s)
      end
  end.
(** car.h:362-365 *)
Definition read_autos (m : list Z) (s : hrd) : hres (found command * hrd) :=
  do get <- equals_i m "GET";
  Ret (if get then Found Autos else Refuse expect_get, s).
(** car.h:507-510 *)
Definition read_shutdown (m : list Z) (s : hrd) : hres (found command * hrd) :=
  do post <- equals_i m "POST";
  Ret (if post then Found Shutdown else Refuse expect_post, s).
(** car.h:154-182: process_rest_request; [r] = the memory from resource on *)
Definition read_request (e : env) (m r : list Z) (s : hrd) : hres (found command * hrd) :=
  do b <- equals_i r "/power";
  if b then read_command e "power" 100 25 invalid_power Power m s else
  do b <- equals_i r "/turn";
  if b then read_command e "turn" 90 30 invalid_turn Turn m s else
  do b <- equals_i r "/autos";
  if b then read_autos m s else
  do b <- equals_i r "/servo";
  if b then read_command e "angle" 90 30 invalid_servo Servo m s else
  do b <- equals_i r "/shutdown";
  if b then read_shutdown m s
  else Ret (Refuse (text_response "404" "Not Found" "The requested resource was not found."), s).
(** src/endpoint.h:105-155 with process_rest_request as above: the answer and the car afterwards.  Nothing is answered once a shutdown was
    requested (138-140). *)
Definition serve (cn : conn) (e : env) (c : car) (l : list Z) : hres (answer * car) :=
  do (m, path, s) <- read_line (c_config cn) (c_mb cn) (c_pb cn) (c_qb cn) l;
  if closing c then Ret ({| a_file := None; a_shut := false; a_calls := []; a_out := [] |}, c) else
  let r := drop (match root_dir (c_config cn) with Some root => zlen root | None => 0 end) path in
  match is_file_request (c_config cn) m r with
  | None => Oob
  | Some true =>
      do (p, calls) <- file_request (c_fs cn) m path;
      do w <- write_calls response calls (server_writer s (c_ltr cn));
      Ret ({| a_file := p; a_shut := false; a_calls := calls; a_out := wout w |}, c)
  | Some false =>
      do (x, s) <- read_request e m r s;
      match x with
      | Refuse calls =>
          do w <- write_calls response calls (server_writer s (c_ltr cn));
          Ret ({| a_file := None; a_shut := false; a_calls := calls; a_out := wout w |}, c)
      | Found x =>
          let '(rp, c') := run (perform e x) c in
          do calls <- rp;
          do w <- write_calls response calls (server_writer s (c_ltr cn));
          Ret ({| a_file := None; a_shut := closing c'; a_calls := calls; a_out := wout w |}, c')
      end
  end.

(** ** The auto thread *)
(** car.h:754-781: auto_limit_power *)
Definition auto_limit_power : prog unit :=
  Read (fun c => let d := obstacle c in                                                   (* 755 *)
  Read (fun c => let p := power c in                                                      (* 756 *)
  Read (fun c =>                                                                          (* 758 *)
  next (if forward c then
          Read (fun c => if (75 <? power c) && (d <? 30) then Done 75 else                (* 759 *)
          Read (fun c => if (50 <? power c) && (d <? 20) then Done 50 else                (* 762 *)
          Read (fun c => if (25 <? power c) && (d <? 10) then Done 25 else                (* 765 *)
          Read (fun c => if (0 <? power c) && (d <? 5) then Done 0 else Done p))))        (* 768 *)
        else Done p) (fun p =>
  Read (fun c => if p <? power c then Write (set_power p) drive else Done tt))))).        (* 773-780 *)
(** What the sensors say in one turn of the loop: the distance (car.h:730) and the grayscale values (736) *)
Record senses := { sn_distance : Z; sn_left : Z; sn_center : Z; sn_right : Z }.
(** car.h:728-746: one turn of auto_loop; false = the loop is left *)
Definition auto_turn (n : senses) : prog bool :=
  Read (fun c => if closing c then Write set_ended (Done false) else
    Write (set_obstacle (sn_distance n))
    (Write (set_gray_left (sn_left n)) (Write (set_gray_center (sn_center n)) (Write (set_gray_right (sn_right n))
    (next auto_limit_power (fun _ => Done true)))))).

(** ** Histories without overlapping threads *)
(** samples/picar_4wd/car.h:728-746: A request, a turn of the auto thread, a new position *)
Inductive event := Request (cn : conn) (e : env) (l : list Z) | Tick (n : senses) | Position (d w : list Z).
(** car.h:154, 728; src/x/gpio_smbus_motion_tracker.x.h:246-259 *)
Definition step (c : car) (ev : event) : hres car :=
  match ev with
  | Request cn e l => do (_, c) <- serve cn e c l; Ret c
  | Tick n => Ret (if ended c then c else snd (run (auto_turn n) c))
  | Position d w => Ret (set_position d w c)
  end.
(** samples/picar_4wd/car.h:728-746: A history *)
Fixpoint steps (c : car) (l : list event) : hres car :=
  match l with [] => Ret c | ev :: l => do c <- step c ev; steps c l end.

(** ** Interleavings *)
(** The car, the turn the auto thread is in, the requests that are being handled (src/endpoint.h:93: a thread for each) *)
Record sys := { s_car : car; s_auto : prog bool; s_reqs : list (prog (hres (list (wcall * list Z)))) }.
(** A request handler with the test at src/endpoint.h:138 *)
Definition handler (e : env) (x : command) : prog (hres (list (wcall * list Z))) :=
  Read (fun c => if closing c then Done (Ret []) else perform e x).
(** src/endpoint.h:138, samples/picar_4wd/car.h:512-746: One step of a thread; None = it has ended or cannot go on *)
Definition move {A} (p : prog A) (c : car) : option (prog A * car) :=
  match p with
  | Done _ => None
  | Read f => Some (f c, c)
  | Write f k => Some (k, f c)
  | Join k => if ended c then Some (k, c) else None
  end.
(** src/endpoint.h:138, samples/picar_4wd/car.h:512-746: A request that was read arrives; the sensors have answered and the auto thread starts a turn; a step of the auto thread; a step of
    request i; a new position *)
Inductive action := Arrive (e : env) (x : command) | Sense (n : senses) | Auto | Handle (i : nat) | Moved (d w : list Z).
(** src/endpoint.h:138: Request i has moved on: one element of a list replaced *)
Fixpoint upd {A} (l : list A) (n : nat) (x : A) : list A :=
  match l, n with
  | [], _ => []
  | _ :: l, O => x :: l
  | y :: l, S n => y :: upd l n x
  end.
(** src/endpoint.h:138: One step of the system; None = not possible *)
Definition sys_step (s : sys) (a : action) : option sys :=
  match a with
  | Arrive e x => Some {| s_car := s_car s; s_auto := s_auto s; s_reqs := s_reqs s ++ [handler e x] |}
  | Sense n => match s_auto s with Done true => Some {| s_car := s_car s; s_auto := auto_turn n; s_reqs := s_reqs s |} | _ => None end
  | Auto => match move (s_auto s) (s_car s) with Some (p, c) => Some {| s_car := c; s_auto := p; s_reqs := s_reqs s |} | None => None end
  | Handle i =>
      match nth_error (s_reqs s) i with
      | None => None
      | Some p => match move p (s_car s) with
                  | Some (p, c) => Some {| s_car := c; s_auto := s_auto s; s_reqs := upd (s_reqs s) i p |}
                  | None => None
                  end
      end
  | Moved d w => Some {| s_car := set_position d w (s_car s); s_auto := s_auto s; s_reqs := s_reqs s |}
  end.
(** src/endpoint.h:138: An interleaving *)
Fixpoint sys_run (s : sys) (l : list action) : option sys :=
  match l with
  | [] => Some s
  | a :: l => match sys_step s a with Some s => sys_run s l | None => None end
  end.
(** src/endpoint.h:138: After the constructor: the auto thread waits for its sensors *)
Definition sys_new : sys := {| s_car := new_car; s_auto := Done true; s_reqs := [] |}.
