(** What the bus users rely on, stated without the model's functions. *)

From Coq Require Import ZArith List Bool.
From Verif Require Import Base ListMem Smbus_Model.
Import ListNotations.
Open Scope Z_scope.

(** ** Failures *)
(** The system call of this event failed. *)
Definition event_failed (e : event) : Prop := match e with ESelect _ ok => ok = false | EXfer _ _ r => r = None end.
(** The device keeps to the block limit: the first byte of a block is its size, at most 32. *)
Definition good_device (D : nat -> answer) : Prop :=
  forall n r, D n = ADone r -> exists k rest, r_block r = k :: rest /\ length rest = 33%nat /\ 0 <= k <= 32.
(** Locking the mutex never throws. *)
Definition locks_work (D : nat -> answer) : Prop := forall n, D n <> ALock.
(** The high and the low byte exchanged *)
Definition swapped (w : Z) : Z := 256 * (w mod 256) + w / 256.
(** The target a call is addressed to *)
Definition op_target (o : op) : target :=
  match o with
  | PutNodata t _ | PutByte t _ _ | PutWord t _ _ | PutBlock t _ _ | GetNoreg t | GetNoreg2 t | GetByte t _ | GetWord t _ | GetBlock t _ _ => t
  end.
(** The arguments have the types of the parameters. *)
Definition op_ok (o : op) : Prop :=
  match o with
  | PutWord _ _ w => 0 <= w < 65536
  | GetBlock _ _ size => 0 <= size
  | _ => True
  end.
(** The messages a successful call puts on the bus *)
Definition op_messages (o : op) : list msg :=
  match o with
  | PutNodata _ reg => [{| m_write := true; m_cmd := reg; m_kind := KByte; m_data := PNone |}]
  | PutByte _ reg byte => [{| m_write := true; m_cmd := reg; m_kind := KByteData; m_data := PByte byte |}]
  | PutWord t reg w => [{| m_write := true; m_cmd := reg; m_kind := KWordData; m_data := PWord (if t_swap t then swapped w else w) |}]
  | PutBlock _ reg block =>
      [{| m_write := true; m_cmd := reg; m_kind := KBlockData; m_data := PBlock (zlen block :: block ++ repeat 0 (33 - length block)) |}]
  | GetNoreg _ => [{| m_write := false; m_cmd := 0; m_kind := KByte; m_data := PByte 0 |}]
  | GetNoreg2 _ => [{| m_write := false; m_cmd := 0; m_kind := KByte; m_data := PByte 0 |}; {| m_write := false; m_cmd := 0; m_kind := KByte; m_data := PByte 0 |}]
  | GetByte _ reg => [{| m_write := false; m_cmd := reg; m_kind := KByteData; m_data := PByte 0 |}]
  | GetWord _ reg => [{| m_write := false; m_cmd := reg; m_kind := KWordData; m_data := PWord 0 |}]
  | GetBlock _ reg size => [{| m_write := false; m_cmd := reg; m_kind := KBlockData; m_data := PBlock (size mod 256 :: repeat 0 33) |}]
  end.
(** The messages among events that succeeded, with the answers of the device *)
Fixpoint delivered (l : list event) : list (msg * reply) :=
  match l with
  | [] => []
  | EXfer _ m (Some r) :: l => (m, r) :: delivered l
  | _ :: l => delivered l
  end.
(** All messages among events went to this address. *)
Definition all_to (a : Z) (l : list event) : Prop := forall to m r, In (EXfer to m r) l -> to = Some a.
(** The value a call must store, given the answers of the device *)
Definition op_value (o : op) (rs : list reply) : stored :=
  match o, rs with
  | GetNoreg _, [r] | GetByte _ _, [r] => SByte (r_byte r)
  | GetNoreg2 t, [r0; r1] => SWord (if t_swap t then 256 * r_byte r0 + r_byte r1 else 256 * r_byte r1 + r_byte r0)
  | GetWord t _, [r] => SWord (if t_swap t then swapped (r_word r) else r_word r)
  | GetBlock _ _ _, [r] => SBlock (firstn (Z.to_nat (hd 0 (r_block r))) (tl (r_block r)))
  | _, _ => SNone
  end.
(** The device sends bytes and words. *)
Definition typed_device (D : nat -> answer) : Prop := forall n r, D n = ADone r -> 0 <= r_byte r < 256 /\ 0 <= r_word r < 65536.

(** ** Sequences of calls *)
(** The calls made one after the other; the events of each call.  None = memory was corrupted. *)
Fixpoint run_all (D : nat -> answer) (b : bus) (l : list op) : option (list (op * list event)) :=
  match l with
  | [] => Some []
  | o :: l =>
      match run D b o with
      | Undef => None
      | Ret _ _ b' => option_map (cons (o, skipn (length (evs b)) (evs b'))) (run_all D b' l)
      end
  end.

(** ** Calibration *)
(** The sum of the samples *)
Definition zsum (l : list Z) : Z := fold_right Z.add 0 l.
