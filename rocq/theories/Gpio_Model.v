(** Model of src/x/gpio_line.x.h (gpio_line: constructor, destructor, get_level, expect_level, put_level) and of
    src/x/gpio_ultrasonic.x.h (measure_distance).
    Time: nanoseconds of std::chrono::steady_clock, as integers.  Every call that takes time (clock::now, ioctl,
    sleep_for) is one operation; the environment decides how long each takes, and what each ioctl answers.
    Simplified: readings of the clock stay below 2^63 nanoseconds (292 years); logging does nothing; GPIO version 2
    (src/i/gpio_base.i.h:62-75; version 1 differs in the names of the fields only). *)

From Coq Require Import ZArith List Bool.
Import ListNotations.
Open Scope Z_scope.

(** ** Levels *)
(** src/i/gpio_base.i.h:51 *)
Definition mask : Z := 1.
(** src/i/gpio_base.i.h:53 *)
Definition low : Z := 0.
(** src/i/gpio_base.i.h:54 *)
Definition high : Z := 1.
(** src/i/gpio_base.i.h:55 *)
Definition invalid : Z := mask + 1.

(** ** Time and the environment *)
(** (src/x/gpio_line.x.h:106, 122, 153, 168) What is outside: how long the i-th operation takes; what the ioctl that reads the line answers
    at a moment (None: < 0, otherwise the bits); whether the ioctl that writes the line succeeds at a moment. *)
Record env := { lag : nat -> N; bits : Z -> option Z; writes : Z -> bool }.
(** (src/x/gpio_line.x.h:99-172) The moment, the number of operations done, the writes to the output line, newest first: when, what level,
    whether the ioctl succeeded. *)
Record st := { at_ : Z; ops : nat; wires : list (Z * Z * bool) }.

(** (src/x/gpio_line.x.h:106, 122, 153, 168) one more operation that lasts at least d *)
Definition pass (e : env) (d : Z) (s : st) : st :=
  {| at_ := at_ s + d + Z.of_N (lag e (ops s)); ops := S (ops s); wires := wires s |}.
(** clock::now() (src/x/gpio_line.x.h:122, 123, 131) *)
Definition now (e : env) (s : st) : Z * st := let s := pass e 0 s in (at_ s, s).
(** std::this_thread::sleep_for (src/x/gpio_line.x.h:168): nothing to wait for if d <= 0 *)
Definition sleep_for (e : env) (d : Z) (s : st) : st := pass e (Z.max 0 d) s.
(** std::chrono::duration_cast<microseconds> (src/x/gpio_line.x.h:127, src/x/gpio_ultrasonic.x.h:72, 79, 88) *)
Definition us_of_ns (d : Z) : Z := Z.quot d 1000.

(** ** A line *)
(** gpio_line::get_level (src/x/gpio_line.x.h:99-116) *)
Definition get_level (e : env) (s : st) : Z * st :=
  let s := pass e 0 s in
  match bits e (at_ s) with
  | None => (invalid, s)
  | Some b => (Z.land b mask, s)
  end.

(** the loop of gpio_line::expect_level (src/x/gpio_line.x.h:126-135); None: more turns than [fuel] *)
Fixpoint expect_loop (fuel : nat) (e : env) (level timeout start_tp current_tp current_level : Z) (s : st) : option (Z * st) :=
  match fuel with
  | O => None
  | S fuel =>
    if current_level =? level then Some (level, s)
    else if timeout <? us_of_ns (current_tp - start_tp) then Some (invalid, s)
    else
      let (current_tp, s) := now e s in
      let (current_level, s) := get_level e s in
      expect_loop fuel e level timeout start_tp current_tp current_level s
  end.
(** gpio_line::expect_level (src/x/gpio_line.x.h:119-136), timeout in microseconds *)
Definition expect_level (fuel : nat) (e : env) (level timeout : Z) (s : st) : option (Z * st) :=
  let (start_tp, s) := now e s in
  let (current_tp, s) := now e s in
  let (current_level, s) := get_level e s in
  expect_loop fuel e level timeout start_tp current_tp current_level s.

(** gpio_line::put_level (src/x/gpio_line.x.h:139-159); levels are std::uint32_t *)
Definition put_level (e : env) (level : Z) (s : st) : Z * st :=
  if negb (Z.land level (Z.lxor mask (2 ^ 32 - 1)) =? 0) then (invalid, s)
  else
    let s := pass e 0 s in
    let ok := writes e (at_ s) in
    let s := {| at_ := at_ s; ops := ops s; wires := (at_ s, Z.land level mask, ok) :: wires s |} in
    if ok then (level, s) else (invalid, s).
(** gpio_line::put_level with a duration in nanoseconds (src/x/gpio_line.x.h:162-172) *)
Definition put_level_for (e : env) (level duration : Z) (s : st) : Z * st :=
  let (ret, s) := put_level e level s in
  let s := if negb (ret =? invalid) then sleep_for e duration s else s in
  (ret, s).

(** ** The ultrasonic sensor *)
(** std::size_t arithmetic (src/x/gpio_ultrasonic.x.h:55, 98, 105) *)
Definition w64 (x : Z) : Z := x mod 2 ^ 64.
(** src/x/gpio_ultrasonic.x.h:39 *)
Definition sonic_speed : Z := 343.
(** (src/x/gpio_ultrasonic.x.h:95-106) DistanceScale, a std::ratio, and std::chrono::microseconds::period *)
Record ratio := { num : Z; den : Z }.
(** src/x/gpio_ultrasonic.x.h:38 *)
Definition micro : ratio := {| num := 1; den := 1000000 |}.
(** gpio_ultrasonic::sonic_distance (src/x/gpio_ultrasonic.x.h:95-99) for microseconds *)
Definition sonic_distance (scale : ratio) (count : Z) : Z :=
  w64 (w64 (sonic_speed * count) * (num micro * den scale)) / (den micro * num scale).
(** gpio_ultrasonic::sonic_duration (src/x/gpio_ultrasonic.x.h:102-106) for microseconds *)
Definition sonic_duration (scale : ratio) (distance : Z) : Z :=
  w64 (distance * (num scale * den micro)) / (sonic_speed * den scale * num micro).

(** gpio_ultrasonic::measure_distance (src/x/gpio_ultrasonic.x.h:53-92).  [known] is the static variable timeout
    (line 55), shared by all sensors with the same template arguments: None until the first call.
    The answer: the distance, the moment of return, the static variable. *)
Definition measure_distance (fuel : nat) (e : env) (scale : ratio) (known : option Z) (max_distance : Z) (s : st)
    : option (Z * st * option Z) :=
  let timeout := match known with Some t => t | None => sonic_duration scale (w64 (2 * max_distance)) end in
  let (_, s) := put_level_for e low 10000 s in
  let (_, s) := put_level_for e high 10000 s in
  let (_, s) := put_level e low s in
  let time_left := timeout in
  let (echo_not_ready_tp, s) := now e s in
  match expect_level fuel e low time_left s with
  | None => None
  | Some (level, s) =>
    let (echo_ready_tp, s) := now e s in
    match
      (if negb (level =? invalid) then
        let time_left := time_left - us_of_ns (echo_ready_tp - echo_not_ready_tp) in
        match expect_level fuel e high time_left s with
        | None => None
        | Some (level, s) => Some (level, time_left, s)
        end
      else Some (level, time_left, s))
    with
    | None => None
    | Some (level, time_left, s) =>
      let (echo_start_tp, s) := now e s in
      match
        (if negb (level =? invalid) then
          let time_left := time_left - us_of_ns (echo_start_tp - echo_ready_tp) in
          expect_level fuel e low time_left s
        else Some (level, s))
      with
      | None => None
      | Some (level, s) =>
        let (echo_end_tp, s) := now e s in
        if level =? invalid then Some (max_distance, s, Some timeout)
        else
          let distance_x2 := sonic_distance scale (us_of_ns (echo_end_tp - echo_start_tp)) in
          let distance := distance_x2 / 2 in
          Some (distance, s, Some timeout)
      end
    end
  end.

(** ** Descriptors of lines *)
(** (src/i/gpio_line.i.h:101-105) The lines by number: None if destroyed or never made, otherwise _fd. *)
Record table := { line : nat -> option Z; nlines : nat; held : Z -> bool; log_ : list (bool * Z) }.
(** (src/x/gpio_line.x.h:46-96) nothing made yet; [log_], newest first: (true, fd) the system handed out fd, (false, fd) close(fd) was called *)
Definition no_lines : table := {| line := fun _ => None; nlines := 0; held := fun _ => false; log_ := [] |}.
(** (src/x/gpio_line.x.h:56, 74) the system hands out a descriptor *)
Definition hand (fd : Z) (t : table) : table :=
  {| line := line t; nlines := nlines t; held := fun x => if x =? fd then true else held t x; log_ := (true, fd) :: log_ t |}.
(** close (src/x/gpio_line.x.h:79, 94); Linux gives up the descriptor whatever close answers *)
Definition shut (fd : Z) (t : table) : table :=
  {| line := line t; nlines := nlines t; held := fun x => if x =? fd then false else held t x; log_ := (false, fd) :: log_ t |}.
(** (src/i/gpio_line.i.h:101-105) a new object; its number is the number of objects so far *)
Definition add_line (fd : Z) (t : table) : table :=
  {| line := fun j => if Nat.eqb j (nlines t) then Some fd else line t j; nlines := S (nlines t); held := held t; log_ := log_ t |}.

(** (src/i/gpio_line.i.h:42-66, src/x/gpio_line.x.h:46-96) The constructor with the chip (false: nullptr) and the answers of open (None: < 0), of ioctl (None: < 0,
    otherwise the descriptor of the line) and of close (false: < 0); the move constructor; the destructor;
    somebody else in the process opens a descriptor. *)
Inductive act := Make (chip : bool) (opened : option Z) (asked : option Z) (closed : bool) | Move_line (i : nat) | Unmake (i : nat) | Other (fd : Z).
(** src/x/gpio_line.x.h:46-96: Whether an act returned (the constructor throws otherwise), or the environment answered what it cannot:
    a descriptor in use. *)
Inductive outcome := Went (t : table) | Threw (t : table) | Cannot.
(** gpio_line::gpio_line (src/x/gpio_line.x.h:46-88), the defaulted move constructor (src/i/gpio_line.i.h:56),
    which copies _fd, and gpio_line::~gpio_line (src/x/gpio_line.x.h:91-96) *)
Definition do_act (t : table) (a : act) : outcome :=
  match a with
  | Make chip opened asked closed =>
    if negb chip then Threw t
    else match opened with
    | None => Threw t
    | Some fd =>
      if (fd <? 0) || held t fd then Cannot
      else
        let t := hand fd t in
        match asked with
        | None => Threw t
        | Some line_fd =>
          if (line_fd <? 0) || held t line_fd then Cannot
          else
            let t := hand line_fd t in
            let t := shut fd t in
            if negb closed then Threw t
            else Went (add_line line_fd t)
        end
    end
  | Move_line i =>
    match line t i with
    | None => Cannot
    | Some fd => Went (add_line fd t)
    end
  | Unmake i =>
    match line t i with
    | None => Cannot
    | Some fd =>
      let t := if 0 <=? fd then shut fd t else t in
      Went {| line := fun j => if Nat.eqb j i then None else line t j; nlines := nlines t; held := held t; log_ := log_ t |}
    end
  | Other fd => if (fd <? 0) || held t fd then Cannot else Went {| line := line t; nlines := nlines t; held := fun x => if x =? fd then true else held t x; log_ := log_ t |}
  end.
(** (a program that uses src/x/gpio_line.x.h) one act after another; a constructor that throws is caught *)
Fixpoint acts (t : table) (l : list act) : option table :=
  match l with
  | [] => Some t
  | a :: l => match do_act t a with Went t => acts t l | Threw t => acts t l | Cannot => None end
  end.
