(** Model of src/table.h (line_ostream, table_ostream) and src/log.h (log lines,
    log_ostream, log_filter).

    Formatting is not modelled: a call put_any(format, ...) is represented by the
    text that vsnprintf would produce without a size limit.  What vsnprintf stores
    and returns (C standard: at most n-1 characters and a null, nothing when n = 0,
    returns the full length, -1 when it exceeds INT_MAX) is modelled exactly.

    [None] = undefined behaviour: an access outside the buffer. *)

From Coq Require Import ZArith List Bool.
From Verif Require Import Base ListMem.
Import ListNotations.
Open Scope Z_scope.

(** src/i/table.i.h:184-205: the members of line_ostream<Size>.  [table] is what the
    table (if any) has received so far. *)
Record line := { l_size : Z; l_buf : list Z; l_pcount : Z; l_table : option (list Z) }.

Definition size_strlen : Z := 2 ^ 64 - 1.  (* src/size.h:35-36 *)

(** src/table.h:47-58: The bytes before the first null; [None] if there is no null in the array. *)
Fixpoint c_str (b : list Z) : option (list Z) :=
  match b with
  | [] => None
  | c :: b' => if c =? 0 then Some [] else match c_str b' with Some s => Some (c :: s) | None => None end
  end.

(** src/table.h:80-86: a fresh line over an uninitialised buffer [raw] (Size+2 bytes). *)
Definition line_new (size : Z) (raw : list Z) (table : option (list Z)) : line :=
  {| l_size := size; l_buf := raw; l_pcount := 0; l_table := table |}.

(** src/table.h:142-145: What vsnprintf(p, n, ...) stores for the text [t], and what it returns. *)
Definition vsn_stored (n : Z) (t : list Z) : list Z := if n =? 0 then [] else take (Z.min (n - 1) (zlen t)) t ++ [0].
(** src/table.h:142-145 *)
Definition vsn_result (t : list Z) : Z := if zlen t <=? 2 ^ 31 - 1 then zlen t else -1.

(** src/table.h:130-145: put_any / put_anyv. *)
Definition put_anyv (l : line) (t : list Z) : option line :=
  match write_at (l_buf l) (l_pcount l) (vsn_stored (wrap_u64 (l_size l - l_pcount l)) t) with   (* 143 *)
  | Some b => Some {| l_size := l_size l; l_buf := b; l_pcount := wrap_u64 (l_pcount l + vsn_result t); l_table := l_table l |}
  | None => None
  end.

(** src/table.h:155-169: put_thread_id.  [id] is what operator<< prints; the local buffer
    has room for 16 characters and the terminating null is written only if it fits too. *)
Definition put_thread_id (l : line) (id : list Z) : option line :=
  if zlen id + 1 <=? 16 then put_anyv l id else None.

(** src/table.h:105-112: get; returns the C string in the buffer. *)
Definition line_get (l : line) : option (line * list Z) :=
  match (if l_pcount l <=? l_size l then write_at (l_buf l) (l_pcount l) [0] else Some (l_buf l)) with
  | Some b => match c_str b with
              | Some s => Some ({| l_size := l_size l; l_buf := b; l_pcount := l_pcount l; l_table := l_table l |}, s)
              | None => None
              end
  | None => None
  end.

(** src/table.h:47-58: put_line. *)
Definition put_line (out : list Z) (b : list Z) (n : Z) : option (list Z) :=
  match (if n =? size_strlen then c_str b else read_at b 0 n) with
  | Some s => Some (out ++ s)
  | None => None
  end.
(** src/table.h:61-68: put_blank_line. *)
Definition put_blank_line (out : list Z) : list Z := out ++ [10].

(** src/table.h:115-127: flush; 99-102: the destructor. *)
Definition line_flush (l : line) : option line :=
  match (if l_pcount l <=? l_size l
         then match write_at (l_buf l) (l_pcount l) [10] with                      (* 118 *)
              | Some b => match write_at b (wrap_u64 (l_pcount l + 1)) [0] with      (* 119 *)
                          | Some b' => Some (b', wrap_u64 (l_pcount l + 1))
                          | None => None
                          end
              | None => None
              end
         else Some (l_buf l, l_pcount l)) with
  | Some (b, pc) =>
      match l_table l with                                                          (* 122-124 *)
      | Some out => match put_line out b pc with
                    | Some out' => Some {| l_size := l_size l; l_buf := b; l_pcount := 0; l_table := Some out' |}
                    | None => None
                    end
      | None => Some {| l_size := l_size l; l_buf := b; l_pcount := 0; l_table := None |}
      end
  | None => None
  end.

(** src/table.h:172-250 *)
Definition hexdigit (x : Z) : Z := if x <? 10 then 48 + x else 87 + x.    (* 0123456789abcdef *)
(** src/table.h:172-250 *)
Definition isprint (c : Z) : bool := (32 <=? c) && (c <=? 126).           (* C locale *)

(** src/table.h:211-225: two characters and a blank per position. *)
Fixpoint hex_half (data : list Z) (n : nat) : list Z :=
  match n with
  | O => []
  | S n' => match data with
            | c :: data' => hexdigit (Z.land (Z.shiftr c 4) 15) :: hexdigit (Z.land c 15) :: 32 :: hex_half data' n'
            | [] => 32 :: 32 :: 32 :: hex_half [] n'
            end
  end.
(** src/table.h:231-243 *)
Fixpoint ascii_col (data : list Z) (n : nat) : list Z :=
  match n with
  | O => []
  | S n' => match data with
            | c :: data' => (if isprint c then c else 46) :: ascii_col data' n'
            | [] => 32 :: ascii_col [] n'
            end
  end.

(** src/table.h:200-245: the characters written for one chunk; [rest] = the bytes from
    buffer_offset to the end of the buffer. *)
Definition chunk_text (offset : Z) (rest : list Z) : list Z :=
  [hexdigit (Z.land (Z.shiftr offset 12) 15); hexdigit (Z.land (Z.shiftr offset 8) 15);
   hexdigit (Z.land (Z.shiftr offset 4) 15); hexdigit (Z.land offset 15); 58]
  ++ [32] ++ hex_half rest 8
  ++ [32] ++ hex_half (skipn 8 rest) 8
  ++ [32] ++ ascii_col rest 16 ++ [0].

(** src/table.h:172-250: put_binary; returns the line, the new offset and hasMore. *)
Definition line_put_binary (l : line) (data : list Z) (offset : Z) : option (line * Z * bool) :=
  if wrap_u64 (l_size l - l_pcount l) <=? 72 then Some (l, offset, false)     (* 183-185 *)
  else if zlen data <=? offset then Some (l, offset, false)                   (* 187-189 *)
  else if negb (offset mod 16 =? 0) then Some (l, offset, false)              (* 191-193 *)
  else
    let rest := drop offset data in
    match write_at (l_buf l) (l_pcount l) (chunk_text offset rest) with
    | Some b => Some ({| l_size := l_size l; l_buf := b; l_pcount := wrap_u64 (l_pcount l + 72); l_table := l_table l |},
                      offset + 16, 16 <=? zlen rest)                          (* 221, 247-249 *)
    | None => None
    end.

(** The loops of the log lines: src/log.h:75-89, 141-155, 207-221.  [props i] is the text
    put_props writes on the i-th round. *)
Inductive outcome (A : Type) := Done (a : A) | Undefined | OutOfFuel.
Arguments Done {A}. Arguments Undefined {A}. Arguments OutOfFuel {A}.

(** src/log.h:75-89, 141-155, 207-221 *)
Fixpoint log_put_binary (fuel : nat) (props : nat -> list Z) (i : nat) (l : line) (data : list Z) (offset : Z) : outcome line :=
  match fuel with
  | O => OutOfFuel
  | S fuel' =>
      match (if offset =? 0 then Some l else line_flush l) with
      | None => Undefined
      | Some l =>
          match put_anyv l (props i) with
          | None => Undefined
          | Some l =>
              match line_put_binary l data offset with
              | None => Undefined
              | Some (l, offset, more) => if more then log_put_binary fuel' props (S i) l data offset else Done l
              end
          end
      end
  end.

(** src/log.h:224-232: the text test_line_ostream::put_props puts after the time: a C string
    built in a local array of 2*8+1 bytes; [raw] = its initial contents. *)
Definition test_indent (raw : list Z) (severity : Z) : option (list Z) :=
  let s := if severity <=? 8 then severity else 8 in                       (* 228 *)
  match write_at raw 0 (repeat 32 (Z.to_nat (2 * s))) with                  (* 229 *)
  | Some b => match write_at b (2 * (s - 1)) [0] with                        (* 230 *)
              | Some b => c_str b
              | None => None
              end
  | None => None
  end.

(** ** log_ostream *)
(** src/log.h:328-330 *)
Definition is_higher_or_equal (severity other : Z) : bool := severity <=? other.
(** src/log.h:323-325 *)
Definition is_higher (severity other : Z) : bool := severity <? other.
(** src/log.h:315-317 with the filter pointer of 271, 280, 289 ([None] = null). *)
Definition enabled (filter : option Z) (severity : Z) : bool :=
  match filter with None => true | Some m => is_higher_or_equal severity m end.

(** src/log.h:243-292: A log: line size, filter, what has been written. *)
Record log := { g_size : Z; g_filter : option Z; g_out : list Z }.

(** src/log.h:268-275: [raw] is the uninitialised line buffer, [props] the text of
    put_props, [text] the formatted message. *)
Definition log_put_anyv (g : log) (severity : Z) (raw props text : list Z) : option log :=
  if enabled (g_filter g) severity then
    match put_anyv (line_new (g_size g) raw (Some (g_out g))) props with
    | Some l => match put_anyv l text with
                | Some l => match line_flush l with      (* the destructor *)
                            | Some l => Some {| g_size := g_size g; g_filter := g_filter g;
                                                g_out := match l_table l with Some o => o | None => [] end |}
                            | None => None
                            end
                | None => None
                end
    | None => None
    end
  else Some g.
(** src/log.h:278-284 *)
Definition log_put_bin (fuel : nat) (g : log) (severity : Z) (raw : list Z) (props : nat -> list Z) (data : list Z) : outcome log :=
  if enabled (g_filter g) severity then
    match log_put_binary fuel props 0 (line_new (g_size g) raw (Some (g_out g))) data 0 with
    | Done l => match line_flush l with
                | Some l => Done {| g_size := g_size g; g_filter := g_filter g;
                                    g_out := match l_table l with Some o => o | None => [] end |}
                | None => Undefined
                end
    | Undefined => Undefined
    | OutOfFuel => OutOfFuel
    end
  else Done g.
(** src/log.h:287-292 *)
Definition log_put_blank (g : log) (severity : Z) : log :=
  if enabled (g_filter g) severity
  then {| g_size := g_size g; g_filter := g_filter g; g_out := put_blank_line (g_out g) |} else g.
(** src/log.h:308-312: changing the minimum of the filter (no effect without one). *)
Definition log_set_min (g : log) (m : Z) : log :=
  {| g_size := g_size g; g_filter := match g_filter g with None => None | Some _ => Some m end; g_out := g_out g |}.

(** src/log.h:308-312 *)
Inductive log_op :=
  | LText (severity : Z) (raw props text : list Z)
  | LBin (severity : Z) (raw : list Z) (props : nat -> list Z) (data : list Z)
  | LBlank (severity : Z)
  | LMin (m : Z).

(** src/log.h:308-312: Enough rounds for the data: one per 16 bytes and one more (see C21). *)
Definition bin_fuel (data : list Z) : nat := length data + 2.

(** src/log.h:308-312 *)
Definition log_step (g : log) (o : log_op) : outcome log :=
  match o with
  | LText s raw p t => match log_put_anyv g s raw p t with Some g => Done g | None => Undefined end
  | LBin s raw p d => log_put_bin (bin_fuel d) g s raw p d
  | LBlank s => Done (log_put_blank g s)
  | LMin m => Done (log_set_min g m)
  end.
(** src/log.h:308-312 *)
Fixpoint log_run (g : log) (ops : list log_op) : outcome log :=
  match ops with
  | [] => Done g
  | o :: ops' => match log_step g o with Done g' => log_run g' ops' | Undefined => Undefined | OutOfFuel => OutOfFuel end
  end.

(** ** Histories of one line_ostream *)
(** src/table.h:105-250 *)
Inductive line_op := LPut (t : list Z) | LThread (id : list Z) | LGet | LFlush | LBinary (data : list Z) (offset : Z).
(** src/table.h:105-250 *)
Definition line_step (l : line) (o : line_op) : option line :=
  match o with
  | LPut t => put_anyv l t
  | LThread id => put_thread_id l id
  | LGet => match line_get l with Some (l, _) => Some l | None => None end
  | LFlush => line_flush l
  | LBinary d off => match line_put_binary l d off with Some (l, _, _) => Some l | None => None end
  end.
(** src/table.h:105-250 *)
Fixpoint line_run (l : line) (ops : list line_op) : option line :=
  match ops with
  | [] => Some l
  | o :: ops' => match line_step l o with Some l' => line_run l' ops' | None => None end
  end.
