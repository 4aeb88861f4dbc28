(** Model of src/x/gpio_smbus_grayscale.x.h and src/x/gpio_chip.x.h, and of opening the bus in src/x/gpio_smbus.x.h.
    The grayscale sensors use the bus of Smbus_Model.  Chips: open, ioctl and close are answered by the environment; close
    always gives up the descriptor (as Linux does).  Left out: logging. *)

From Coq Require Import String ZArith List Bool.
From Verif Require Import Base ListMem Endpoint_Model Car_Model Smbus_Model Paths_Model.
Import ListNotations.
Open Scope list_scope.
Open Scope Z_scope.

(** ** Grayscale sensors *)
(** src/x/gpio_smbus_grayscale.x.h:64-65 (the same in 67-68, 70-71): one sensor; [old] is what the variable of the caller holds.
    None: memory was corrupted. *)
Definition read_sensor (D : nat -> answer) (b : bus) (t : target) (reg old : Z) : option (Z * bus) :=
  match put_word D b t reg 0 with
  | Undef => None
  | Smbus_Model.Ret _ _ b =>
    match get_noreg_2 D b t with
    | Undef => None
    | Smbus_Model.Ret _ (SWord w) b => Some (w, b)
    | Smbus_Model.Ret _ _ b => Some (old, b)
    end
  end.
(** gpio_smbus_grayscale::get_values (src/x/gpio_smbus_grayscale.x.h:60-72) *)
Definition get_values (D : nat -> answer) (b : bus) (t : target) (reg_left reg_center reg_right : Z) (old : Z * Z * Z) : option (Z * Z * Z * bus) :=
  let '(l, c, r) := old in
  match read_sensor D b t reg_left l with
  | None => None
  | Some (l, b) =>
    match read_sensor D b t reg_center c with
    | None => None
    | Some (c, b) =>
      match read_sensor D b t reg_right r with
      | None => None
      | Some (r, b) => Some (l, c, r, b)
      end
    end
  end.

(** ** Chips *)
(** src/i/gpio_base.i.h:68 (GPIO_MAX_NAME_SIZE is 32), 116 *)
Definition gpio_max_path : Z := 32.
(** src/i/gpio_base.i.h:69, 117 *)
Definition gpio_max_consumer : Z := 32.
(** src/x/gpio_chip.x.h:140, 185: what is asked of the device: about the chip, about a line *)
Inductive query := About_chip | About_line (pos : Z).
(** (src/x/gpio_chip.x.h:95-99, 131-141, 176-186) What the system answers to the k-th call: open of a path (None: < 0), an ioctl on a descriptor (None: < 0, otherwise
    what it stores). *)
Record world := { opens : nat -> list Z -> option Z; answers_ : nat -> Z -> query -> option (list Z) }.
(** (src/x/gpio_chip.x.h:95-99, 131-141) The calls of open, ioctl, close with success, newest last *)
Inductive call := Opened (path : list Z) (fd : Z) | Asked (fd : Z) (q : query) | Closed (fd : Z).
(** (src/x/gpio_chip.x.h:95-141) the number of calls so far, the calls *)
Record sysm := { tick : nat; done : list call }.
(** src/i/gpio_chip.i.h:139-144: the members *)
Record chip := { c_path : list Z; c_consumer : list Z }.
(** src/i/gpio_chip.i.h:139-144: How a constructor ends *)
Inductive made (A : Type) := Made (x : A) (s : sysm) | Threw (s : sysm) | Corrupt.
Arguments Made {A} x s.
Arguments Threw {A} s.
Arguments Corrupt {A}.
(** open (src/x/gpio_chip.x.h:95, 131, 176) *)
Definition sys_open (w : world) (s : sysm) (path : list Z) : option Z * sysm :=
  match opens w (tick s) path with
  | None => (None, {| tick := S (tick s); done := done s |})
  | Some fd => (Some fd, {| tick := S (tick s); done := done s ++ [Opened path fd] |})
  end.
(** close (src/x/gpio_chip.x.h:99, 141, 186) *)
Definition sys_close (s : sysm) (fd : Z) : sysm := {| tick := S (tick s); done := done s ++ [Closed fd] |}.
(** ioctl (src/x/gpio_chip.x.h:140, 185) *)
Definition sys_ioctl (w : world) (s : sysm) (fd : Z) (q : query) : option (list Z) * sysm :=
  (answers_ w (tick s) fd q, {| tick := S (tick s); done := done s ++ [Asked fd q] |}).

(** gpio_chip::init (src/x/gpio_chip.x.h:73-107); None: nullptr.  The arrays are uninitialised before: [buf1], [buf2]. *)
Definition chip_init (w : world) (s : sysm) (path consumer : option (list Z)) (buf1 buf2 : list Z) : made chip :=
  match path with
  | None => Threw s
  | Some path =>
    if gpio_max_path <=? zlen path then Threw s
    else match consumer with
    | None => Threw s
    | Some consumer =>
      if gpio_max_consumer <=? zlen consumer then Threw s
      else
        let (fd, s) := sys_open w s path in
        match fd with
        | None => Threw s
        | Some fd =>
          let s := sys_close s fd in
          match strncpy buf1 path gpio_max_path, strncpy buf2 consumer gpio_max_consumer with
          | Some p, Some c => Made {| c_path := p; c_consumer := c |} s
          | _, _ => Corrupt
          end
        end
    end
  end.
(** std::snprintf(path, gpio_max_path, ...) (src/x/gpio_chip.x.h:60): at most gpio_max_path - 1 characters *)
Definition device_path (prefix : list Z) (pos : Z) : list Z := take (gpio_max_path - 1) (prefix ++ show pos).
(** gpio_chip::gpio_chip(int, ...) (src/x/gpio_chip.x.h:56-63) *)
Definition chip_at (w : world) (s : sysm) (pos : Z) (consumer : option (list Z)) (buf1 buf2 : list Z) : made chip :=
  chip_init w s (Some (device_path (bytes_of_string "/dev/gpiochip") pos)) consumer buf1 buf2.
(** gpio_chip::path, gpio_chip::consumer (src/x/gpio_chip.x.h:110-119), read as strings *)
Definition chip_path (c : chip) : option (list Z) := c_str (c_path c).
(** src/x/gpio_chip.x.h:116-119 *)
Definition chip_consumer (c : chip) : option (list Z) := c_str (c_consumer c).

(** gpio_chip_info, gpio_line_info (src/i/gpio_chip.i.h:39-65): the fields filled by the kernel ([]: all zero but the offset of a line) and is_valid *)
Record info := { i_fields : list Z; i_valid : bool }.
(** chip_info and line_info (src/x/gpio_chip.x.h:122-159, 162-204), which differ in the ioctl only; None: _path has no end *)
Definition chip_ask (w : world) (s : sysm) (c : chip) (q : query) : option (info * sysm) :=
  match chip_path c with
  | None => None
  | Some path =>
    let (fd, s) := sys_open w s path in
    match fd with
    | None => Some ({| i_fields := []; i_valid := false |}, s)
    | Some fd =>
      let (stat, s) := sys_ioctl w s fd q in
      let s := sys_close s fd in
      match stat with
      | None => Some ({| i_fields := []; i_valid := false |}, s)
      | Some fields => Some ({| i_fields := fields; i_valid := true |}, s)
      end
    end
  end.

(** ** Opening the bus *)
(** gpio_smbus::init (src/x/gpio_smbus.x.h:81-113) and the destructor (65-78): the members _fd and _path.  The constructor that throws leaves
    no object, hence no destructor runs.  I2C_FUNCS is asked like a chip. *)
Record opened_bus := { ob_fd : Z; ob_path : list Z }.
(** src/x/gpio_smbus.x.h:81-113 *)
Definition smbus_init (w : world) (s : sysm) (path : option (list Z)) (buf : list Z) : made opened_bus :=
  match path with
  | None => Threw s
  | Some path =>
    if gpio_max_path <=? zlen path then Threw s
    else
      let (fd, s) := sys_open w s path in
      match fd with
      | None => Threw s
      | Some fd =>
        let (stat, s) := sys_ioctl w s fd About_chip in
        match stat with
        | None => Threw s
        | Some _ =>
          match strncpy buf path gpio_max_path with
          | Some p => Made {| ob_fd := fd; ob_path := p |} s
          | None => Corrupt
          end
        end
      end
  end.
(** gpio_smbus::gpio_smbus(int) (src/x/gpio_smbus.x.h:42-52) *)
Definition smbus_at (w : world) (s : sysm) (pos : Z) (buf : list Z) : made opened_bus :=
  smbus_init w s (Some (device_path (bytes_of_string "/dev/i2c-") pos)) buf.
(** gpio_smbus::~gpio_smbus (src/x/gpio_smbus.x.h:65-78) *)
Definition smbus_end (s : sysm) (b : opened_bus) : sysm := if 0 <=? ob_fd b then sys_close s (ob_fd b) else s.
