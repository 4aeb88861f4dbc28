(** Model of src/x/gpio_smbus.x.h (gpio_smbus, gpio_smbus_target), src/x/gpio_smbus_pwm.x.h, the
    calibration of src/x/gpio_smbus_motion.x.h and the control thread of
    src/x/gpio_smbus_motion_tracker.x.h.
    The device and the kernel answer every ioctl in an arbitrary way (an oracle indexed by the number
    of the call).  Left out: the contents of log lines, opening the device and its functionality
    bits, floating point (the tracker's position). *)

From Coq Require Import ZArith List Bool.
From Verif Require Import Base ListMem.
Import ListNotations.
Open Scope Z_scope.

(** ** The bus *)
(** src/x/gpio_smbus.x.h:511-537: the target *)
Record target := { t_addr : Z; t_clock : Z; t_swap : bool }.
(** src/x/gpio_smbus.x.h:138-141: the kind of an i2c_smbus_ioctl_data message *)
Inductive kind := KByte | KByteData | KWordData | KBlockData.
(** src/x/gpio_smbus.x.h:247-249: what msg.data holds when the message is issued *)
Inductive payload := PNone | PByte (b : Z) | PWord (w : Z) | PBlock (b : list Z).
(** src/x/gpio_smbus.x.h:138-141: i2c_smbus_ioctl_data *)
Record msg := { m_write : bool; m_cmd : Z; m_kind : kind; m_data : payload }.
(** src/x/gpio_smbus.x.h:283-298, 420-446: what an ioctl of a read message stores: the field of the union belonging to the message kind.
    For a block the kernel copies all 34 bytes of the union. *)
Record reply := { r_byte : Z; r_word : Z; r_block : list Z }.
(** src/x/gpio_smbus.x.h:485-496: what happens in safe_ioctl: the system call succeeds, it fails
    (negative result), or locking the mutex throws and ENOLCK (37) is returned. *)
Inductive answer := ADone (r : reply) | AFail | ALock.
(** src/x/gpio_smbus.x.h:143, 467: what is observable on the bus: an address selected for the file descriptor; a message sent to
    the address selected last (none: nothing was ever selected) and the answer (none: it failed). *)
Inductive event := ESelect (a : Z) (ok : bool) | EXfer (to : option Z) (m : msg) (r : option reply).
(** src/i/gpio_smbus.i.h: the object: whether _log is set and _addr; and the kernel's side: the
    address selected for the descriptor, the number of ioctl calls so far, what happened (newest
    last). *)
Record bus := { has_log : bool; addr : Z; fd_addr : option Z; calls : nat; evs : list event }.
(** src/x/gpio_smbus.x.h:56-62: after the constructor *)
Definition bus_new (log : bool) : bus := {| has_log := log; addr := 0; fd_addr := None; calls := 0; evs := [] |}.

(** src/x/gpio_smbus.x.h:493: ENOLCK on Linux *)
Definition enolck : Z := 37.
(** src/x/gpio_smbus.x.h:485-496 with I2C_SLAVE_FORCE *)
Definition ioctl_select (D : nat -> answer) (b : bus) (a : Z) : Z * bus :=
  match D (calls b) with
  | ADone _ => (0, {| has_log := has_log b; addr := addr b; fd_addr := Some a; calls := S (calls b); evs := evs b ++ [ESelect a true] |})
  | AFail => (-1, {| has_log := has_log b; addr := addr b; fd_addr := fd_addr b; calls := S (calls b); evs := evs b ++ [ESelect a false] |})
  | ALock => (enolck, {| has_log := has_log b; addr := addr b; fd_addr := fd_addr b; calls := S (calls b); evs := evs b |})
  end.
(** src/x/gpio_smbus.x.h:485-496 with I2C_SMBUS *)
Definition ioctl_smbus (D : nat -> answer) (b : bus) (m : msg) : Z * option reply * bus :=
  match D (calls b) with
  | ADone r => (0, Some r, {| has_log := has_log b; addr := addr b; fd_addr := fd_addr b; calls := S (calls b); evs := evs b ++ [EXfer (fd_addr b) m (Some r)] |})
  | AFail => (-1, None, {| has_log := has_log b; addr := addr b; fd_addr := fd_addr b; calls := S (calls b); evs := evs b ++ [EXfer (fd_addr b) m None] |})
  | ALock => (enolck, None, {| has_log := has_log b; addr := addr b; fd_addr := fd_addr b; calls := S (calls b); evs := evs b |})
  end.
(** src/x/gpio_smbus.x.h:475: _addr = addr *)
Definition set_addr (b : bus) (a : Z) : bus :=
  {| has_log := has_log b; addr := a; fd_addr := fd_addr b; calls := calls b; evs := evs b |}.
(** src/x/gpio_smbus.x.h:457-482: ensure_address *)
Definition ensure_address (D : nat -> answer) (b : bus) (a : Z) : bool * bus :=
  if (addr b =? a) && has_log b then (true, b)
  else
    let '(r, b) := ioctl_select D b a in
    if (r <? 0) && has_log b then (false, b) else (true, set_addr b a).
(** src/x/gpio_smbus.x.h:499-504: swap_bytes *)
Definition swap_bytes (w : Z) : Z := Z.lor (Z.shiftl (Z.land w 255) 8) (Z.land (Z.shiftr w 8) 255).

(** src/x/gpio_smbus.x.h:298, 328, 400, 445-446: the result of a call: the value returned and what was stored through the reference parameters
    (None: they were left alone).  [Undef]: memory outside of an array was touched. *)
Inductive stored := SNone | SByte (b : Z) | SWord (w : Z) | SBlock (b : list Z).
(** src/x/gpio_smbus.x.h:129-453: what a call does *)
Inductive outcome := Ret (ret : bool) (out : stored) (b : bus) | Undef.

(** src/x/gpio_smbus.x.h:130-136, 143-149 (the same in every function): select the address, issue
    the message, report a failure if there is a log. None = the function has returned false. *)
Definition transfer (D : nat -> answer) (b : bus) (t : target) (m : msg) : option (option reply) * bus :=
  let '(ok, b) := ensure_address D b (t_addr t) in
  if negb ok && has_log b then (None, b)
  else
    let '(r, rep, b) := ioctl_smbus D b m in
    if (r <? 0) && has_log b then (None, b) else (Some rep, b).
(** src/x/gpio_smbus.x.h:129-156 *)
Definition put_nodata (D : nat -> answer) (b : bus) (t : target) (reg : Z) : outcome :=
  match transfer D b t {| m_write := true; m_cmd := reg; m_kind := KByte; m_data := PNone |} with
  | (None, b) => Ret false SNone b
  | (Some _, b) => Ret true SNone b
  end.
(** src/x/gpio_smbus.x.h:160-191 *)
Definition put_byte (D : nat -> answer) (b : bus) (t : target) (reg byte : Z) : outcome :=
  match transfer D b t {| m_write := true; m_cmd := reg; m_kind := KByteData; m_data := PByte byte |} with
  | (None, b) => Ret false SNone b
  | (Some _, b) => Ret true SNone b
  end.
(** src/x/gpio_smbus.x.h:195-226 *)
Definition put_word (D : nat -> answer) (b : bus) (t : target) (reg word : Z) : outcome :=
  match transfer D b t {| m_write := true; m_cmd := reg; m_kind := KWordData;
                          m_data := PWord (if t_swap t then swap_bytes word else word) |} with
  | (None, b) => Ret false SNone b
  | (Some _, b) => Ret true SNone b
  end.
(** src/x/gpio_smbus.x.h:231: I2C_SMBUS_BLOCK_MAX (linux/i2c.h) *)
Definition block_max : Z := 32.
(** linux/i2c.h: block[I2C_SMBUS_BLOCK_MAX + 2] (used in src/x/gpio_smbus.x.h:247-249) *)
Definition union_size : Z := 34.
(** src/x/gpio_smbus.x.h:230-270.  The caller's block is [block], size its length. *)
Definition put_block (D : nat -> answer) (b : bus) (t : target) (reg : Z) (block : list Z) : outcome :=
  if (block_max <? zlen block) && has_log b then Ret false SNone b
  else
    let '(ok, b) := ensure_address D b (t_addr t) in
    if negb ok && has_log b then Ret false SNone b
    else if union_size <? 1 + zlen block then Undef
    else
      let data := wrap_u8 (zlen block) :: block ++ repeat 0 (Z.to_nat (union_size - 1 - zlen block)) in
      let '(r, rep, b) := ioctl_smbus D b {| m_write := true; m_cmd := reg; m_kind := KBlockData; m_data := PBlock data |} in
      if (r <? 0) && has_log b then Ret false SNone b else Ret true SNone b.
(** src/x/gpio_smbus.x.h:274-305.  data is zero unless the device has answered. *)
Definition get_noreg (D : nat -> answer) (b : bus) (t : target) : outcome :=
  match transfer D b t {| m_write := false; m_cmd := 0; m_kind := KByte; m_data := PByte 0 |} with
  | (None, b) => Ret false SNone b
  | (Some None, b) => Ret true (SByte 0) b
  | (Some (Some r), b) => Ret true (SByte (r_byte r)) b
  end.
(** src/x/gpio_smbus.x.h:309-335.  Reading a byte that was never stored is undefined. *)
Definition get_noreg_2 (D : nat -> answer) (b : bus) (t : target) : outcome :=
  match get_noreg D b t with
  | Undef => Undef
  | Ret ok0 out0 b =>
      if negb ok0 && has_log b then Ret false SNone b
      else
        match get_noreg D b t with
        | Undef => Undef
        | Ret ok1 out1 b =>
            if negb ok1 && has_log b then Ret false SNone b
            else
              match out0, out1 with
              | SByte b0, SByte b1 =>
                  Ret true (SWord (if t_swap t then Z.lor (Z.shiftl b0 8) b1 else Z.lor (Z.shiftl b1 8) b0)) b
              | _, _ => Undef
              end
        end
  end.
(** src/x/gpio_smbus.x.h:339-371 *)
Definition get_byte (D : nat -> answer) (b : bus) (t : target) (reg : Z) : outcome :=
  match transfer D b t {| m_write := false; m_cmd := reg; m_kind := KByteData; m_data := PByte 0 |} with
  | (None, b) => Ret false SNone b
  | (Some None, b) => Ret true (SByte 0) b
  | (Some (Some r), b) => Ret true (SByte (r_byte r)) b
  end.
(** src/x/gpio_smbus.x.h:375-407 *)
Definition get_word (D : nat -> answer) (b : bus) (t : target) (reg : Z) : outcome :=
  match transfer D b t {| m_write := false; m_cmd := reg; m_kind := KWordData; m_data := PWord 0 |} with
  | (None, b) => Ret false SNone b
  | (Some None, b) => Ret true (SWord (if t_swap t then swap_bytes 0 else 0)) b
  | (Some (Some r), b) => Ret true (SWord (if t_swap t then swap_bytes (r_word r) else r_word r)) b
  end.
(** src/x/gpio_smbus.x.h:411-453.  The caller's block has room for [size] bytes. *)
Definition get_block (D : nat -> answer) (b : bus) (t : target) (reg size : Z) : outcome :=
  let start := wrap_u8 size :: repeat 0 (Z.to_nat (union_size - 1)) in
  match transfer D b t {| m_write := false; m_cmd := reg; m_kind := KBlockData; m_data := PBlock start |} with
  | (None, b) => Ret false SNone b
  | (Some rep, b) =>
      let data := match rep with Some r => r_block r | None => start end in
      match data with
      | [] => Undef
      | n :: rest =>
          if (size <? n) && has_log b then Ret false SNone b
          else if (size <? n) || (zlen rest <? n) then Undef
          else Ret true (SBlock (take n rest)) b
      end
  end.

(** src/x/gpio_smbus.x.h:129-453: calls as data, so that statements can speak about all of them. *)
Inductive op :=
| PutNodata (t : target) (reg : Z)
| PutByte (t : target) (reg byte : Z)
| PutWord (t : target) (reg word : Z)
| PutBlock (t : target) (reg : Z) (block : list Z)
| GetNoreg (t : target)
| GetNoreg2 (t : target)
| GetByte (t : target) (reg : Z)
| GetWord (t : target) (reg : Z)
| GetBlock (t : target) (reg size : Z).
(** src/x/gpio_smbus.x.h:129-453: the public functions *)
Definition run (D : nat -> answer) (b : bus) (o : op) : outcome :=
  match o with
  | PutNodata t reg => put_nodata D b t reg
  | PutByte t reg byte => put_byte D b t reg byte
  | PutWord t reg word => put_word D b t reg word
  | PutBlock t reg block => put_block D b t reg block
  | GetNoreg t => get_noreg D b t
  | GetNoreg2 t => get_noreg_2 D b t
  | GetByte t reg => get_byte D b t reg
  | GetWord t reg => get_word D b t reg
  | GetBlock t reg size => get_block D b t reg size
  end.

(** ** Several threads using one bus *)
(** src/x/gpio_smbus.x.h:457-482, 143: the points between which other threads can run: before
    comparing _addr (458), before selecting (467), before storing _addr (475), before the message
    (e.g. 143), at the end. *)
Inductive pc := PcCompare | PcSelect | PcStore | PcXfer | PcEnd (ret : bool).
(** src/x/gpio_smbus.x.h:129-143: one call in progress: its target and message *)
Record thread := { th_target : target; th_msg : msg; th_pc : pc }.
(** src/x/gpio_smbus.x.h:457-496: the shared object, the threads, and for every message sent the thread that sent it *)
Record sys := { s_bus : bus; s_threads : list thread; s_sent : list (nat * option Z) }.
(** src/x/gpio_smbus.x.h:457-482: the thread has moved on *)
Definition set_pc (th : thread) (p : pc) : thread := {| th_target := th_target th; th_msg := th_msg th; th_pc := p |}.
(** One element of a list replaced (the thread that has made a step; sys_step, for
    src/x/gpio_smbus.x.h:457-482) *)
Fixpoint upd {A} (l : list A) (n : nat) (x : A) : list A :=
  match l, n with
  | [], _ => []
  | _ :: l, O => x :: l
  | y :: l, S n => y :: upd l n x
  end.
(** src/x/gpio_smbus.x.h:457-482 and 143-155: one step of thread i (the mutex makes each ioctl one
    step; the accesses of _addr are unguarded, they are taken as atomic here) *)
Definition sys_step (D : nat -> answer) (s : sys) (i : nat) : sys :=
  match nth_error (s_threads s) i with
  | None => s
  | Some th =>
      let b := s_bus s in
      let at_pc b p := {| s_bus := b; s_threads := upd (s_threads s) i (set_pc th p); s_sent := s_sent s |} in
      match th_pc th with
      | PcCompare => if (addr b =? t_addr (th_target th)) && has_log b then at_pc b PcXfer else at_pc b PcSelect
      | PcSelect =>
          let '(r, b) := ioctl_select D b (t_addr (th_target th)) in
          if (r <? 0) && has_log b then at_pc b (PcEnd false) else at_pc b PcStore
      | PcStore => at_pc (set_addr b (t_addr (th_target th))) PcXfer
      | PcXfer =>
          let '(r, rep, b') := ioctl_smbus D b (th_msg th) in
          {| s_bus := b'; s_threads := upd (s_threads s) i (set_pc th (PcEnd (negb ((r <? 0) && has_log b))));
             s_sent := s_sent s ++ [(i, fd_addr b)] |}
      | PcEnd _ => s
      end
  end.
(** src/x/gpio_smbus.x.h:485-496: an interleaving: the threads in the order of their steps *)
Definition sys_run (D : nat -> answer) (s : sys) (sched : list nat) : sys := fold_left (sys_step D) sched s.

(** ** PWM *)
(** src/x/gpio_smbus_pwm.x.h:166-177: get_autoreload_from_period.  The loop runs once for every two
    bits of the period; [fuel] 33 is enough for 64 bits. *)
Fixpoint bit_count (fuel : nat) (p : Z) : option Z :=
  if p =? 0 then Some 0
  else match fuel with
       | O => None
       | S f => option_map (Z.add 1) (bit_count f (Z.shiftr p 2))
       end.
(** src/x/gpio_smbus_pwm.x.h:176 *)
Definition autoreload_of (period : Z) : option Z :=
  option_map (fun n => (Z.shiftl 1 n / 1000) * 1000) (bit_count 33 period).
(** src/i/gpio_smbus_pwm.i.h:132-157: the members *)
Record pwm := { min_w : Z; max_w : Z; period : Z; autoreload : Z; prescaler : Z }.
(** src/x/gpio_smbus_pwm.x.h:41-112: the constructor; [clk] is target.clock_frequency(), the widths are
    in microseconds.  None = a division by zero (83, 85, 92, 93).  All arithmetic is uint64_t. *)
Definition pwm_new (clk min_us max_us freq : Z) : option pwm :=
  let '(mn, mx) :=
    if max_us =? 0 then (min_us, max_us)
    else (wrap_u64 (min_us * clk) / 1000000, wrap_u64 (max_us * clk) / 1000000) in
  if freq =? 0 then None
  else
    let per := clk / freq in
    match autoreload_of per with
    | None => None
    | Some ar =>
        if ar =? 0 then None
        else
          let ps := per / ar in
          if mx =? 0 then Some {| min_w := mn; max_w := ar; period := per; autoreload := ar; prescaler := ps |}
          else if ps =? 0 then None
          else Some {| min_w := mn / ps; max_w := mx / ps; period := per; autoreload := ar; prescaler := ps |}
    end.
(** src/x/gpio_smbus_pwm.x.h:101-102: the words written to the auto-reload and prescaler registers *)
Definition pwm_regs (p : pwm) : Z * Z := (wrap_u16 (wrap_u64 (autoreload p - 1)), wrap_u16 (wrap_u64 (prescaler p - 1))).
(** src/x/gpio_smbus_pwm.x.h:120-155: set_duty_cycle: capture_compare before it is passed as a word *)
Definition capture (p : pwm) (duty : Z) : Z :=
  let duty := if duty <? 0 then 0 else if 100 <? duty then 100 else duty in
  if duty =? 0 then 0
  else if duty =? 100 then autoreload p
  else wrap_u64 (min_w p + wrap_u64 (duty * wrap_u64 (max_w p - min_w p)) / 100).
(** src/x/gpio_smbus_pwm.x.h:154: the word put into the register *)
Definition capture_word (p : pwm) (duty : Z) : Z := wrap_u16 (capture p duty).

(** ** Calibration *)
(** src/x/gpio_smbus_motion.x.h:70-104: one channel of calibrate(); the samples of the 25 rounds.  The sums are int16_t:
    each addition is made as int and converted back.  The division is made as int. *)
Definition calibrate (samples : list Z) : Z :=
  let taken := skipn 5 (firstn 25 samples) in
  let sum := fold_left (fun s x => wrap_s16 (s + x)) taken 0 in
  wrap_s16 (Z.quot sum 20).

(** ** The control threads *)
(** src/x/gpio_smbus_motion_tracker.x.h:154-273: where the thread is: at the top of the loop (165), in the sleep
    of 200 ms (188), about to wait (193), blocked in wait (194), woken up and reading the flags (196-197), measuring (215-271), finished. *)
Inductive tpc := TTop | TNap | TEnter | TWait | TWoken | TMeasure | TDone.
(** src/x/gpio_smbus_motion_tracker.x.h:66-113: what the owner does.  [OJoin] is the join of the destructor. *)
Inductive opc := ORun | ODtor1 | OJoin | OGone.
(** src/i/gpio_smbus_motion_tracker.i.h:186-191: _run, _quit; and where the two threads are *)
Record tracker := { k_run : bool; k_quit : bool; k_pc : tpc; k_owner : opc }.
(** src/x/gpio_smbus_motion_tracker.x.h:38-60 *)
Definition tracker_new : tracker := {| k_run := false; k_quit := false; k_pc := TTop; k_owner := ORun |}.
(** src/x/gpio_smbus_motion_tracker.x.h:154-273: the thread has moved on *)
Definition k_set_pc (k : tracker) (p : tpc) : tracker := {| k_run := k_run k; k_quit := k_quit k; k_pc := p; k_owner := k_owner k |}.
(** src/x/gpio_smbus_motion_tracker.x.h:71, 93: notify_all wakes the thread only if it is blocked in wait *)
Definition notify (k : tracker) : tracker := match k_pc k with TWait => k_set_pc k TWoken | _ => k end.
(** src/x/gpio_smbus_motion_tracker.x.h:62-102: the steps of the two threads.  [WStart1], [WStart2]: start() sets _run (90), notifies (93); [WStop]: stop() (99);
    [WDtor]: the next step of the destructor: _quit = true (68), notify (71), join (74); [WThread]: the next step of the thread. *)
Inductive wstep := WStart1 | WStart2 | WStop | WDtor | WThread.
(** src/x/gpio_smbus_motion_tracker.x.h:62-102, 154-273 *)
Definition tracker_step (k : tracker) (w : wstep) : option tracker :=
  match w with
  | WStart1 => match k_owner k with ORun => Some {| k_run := true; k_quit := k_quit k; k_pc := k_pc k; k_owner := ORun |} | _ => None end
  | WStart2 => match k_owner k with ORun => Some (notify k) | _ => None end
  | WStop => match k_owner k with ORun => Some {| k_run := false; k_quit := k_quit k; k_pc := k_pc k; k_owner := ORun |} | _ => None end
  | WDtor =>
      match k_owner k with
      | ORun => Some {| k_run := k_run k; k_quit := true; k_pc := k_pc k; k_owner := ODtor1 |}
      | ODtor1 => let k := notify k in Some {| k_run := k_run k; k_quit := k_quit k; k_pc := k_pc k; k_owner := OJoin |}
      | OJoin => match k_pc k with TDone => Some {| k_run := k_run k; k_quit := k_quit k; k_pc := TDone; k_owner := OGone |} | _ => None end
      | OGone => None
      end
  | WThread =>
      match k_pc k with
      | TTop => Some (k_set_pc k (if k_quit k then TDone else if k_run k then TMeasure else TNap))
      | TNap => Some (k_set_pc k TEnter)
      | TEnter => Some (k_set_pc k TWait)
      | TWait => None
      | TWoken => Some (k_set_pc k (if k_quit k then TDone else TMeasure))
      | TMeasure => Some (k_set_pc k TTop)
      | TDone => None
      end
  end.
(** src/x/gpio_smbus_motion_tracker.x.h:62-102, 154-273: an interleaving; None = a step was not possible *)
Fixpoint tracker_run (k : tracker) (l : list wstep) : option tracker :=
  match l with
  | [] => Some k
  | w :: l => match tracker_step k w with Some k => tracker_run k l | None => None end
  end.
