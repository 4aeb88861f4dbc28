(** Model of src/multifile.h: the path of the current file (47-108), and what writing, flushing and
    rotating do to the files (85-187) for multifile_streambuf, duration_multifile_streambuf and
    size_multifile_streambuf.

    std::filebuf (the base class) is represented by what the C++ standard promises: written bytes go
    to the file in order; how many of them are still in its buffer is not fixed, so every write
    carries the number of bytes that the filebuf passes on during it, and all values are covered.
    sync() and close() pass on the rest.  Opening and writing files is taken to succeed.  Clock
    readings are inputs.  Logging and the move constructors are left out. *)

From Coq Require Import ZArith List Bool.
From Verif Require Import Base ListMem Timestamp_Model Table_Model.
Import ListNotations.
Open Scope Z_scope.

(** src/multifile.h:40 *)
Definition filename_length : Z := 15.
(** src/multifile.h:41 *)
Definition separator : Z := 47.

(** src/multifile.h:85-102: printf of an unsigned decimal number: the digits (at most 10 for 32 bits) *)
Fixpoint digits (fuel : nat) (n : Z) : list Z :=
  match fuel with
  | O => []
  | S f => if n <? 10 then [48 + n] else digits f (n / 10) ++ [48 + n mod 10]
  end.
(** src/multifile.h:85-102: printf %w.wu of an int argument *)
Definition fmt_u (w : nat) (n : Z) : list Z := let d := digits 10 (wrap_u32 n) in repeat 48 (w - length d) ++ d.
(** src/multifile.h:39 and 94-95: the text for a time *)
Definition filename (now : Z) : list Z :=
  let ts := reset now in
  fmt_u 4 (year ts) ++ fmt_u 2 (month ts) ++ fmt_u 2 (day ts) ++ [95] ++ fmt_u 2 (hours ts) ++ fmt_u 2 (minutes ts) ++ fmt_u 2 (seconds ts).

(** src/multifile.h:48-67: The outcome of the constructor. *)
Inductive result (A : Type) := Done (a : A) | Rejected | Undefined.
Arguments Done {A} _. Arguments Rejected {A}. Arguments Undefined {A}.

(** src/multifile.h:48-63: _path and _path_length; [raw] is the uninitialised array of MaxPath+1
    bytes, [path] the bytes of the argument before its null. *)
Definition set_directory (max_path : Z) (raw path : list Z) : result (list Z * Z) :=
  let n := zlen path in                                                  (* 56 *)
  if max_path <? n + 1 + filename_length then Rejected                   (* 57-59 *)
  else match write_at raw 0 path with                                    (* 61 *)
       | None => Undefined
       | Some b =>
           match read_at b (n - 1) 1 with                                (* 62 *)
           | Some [c] => if c =? separator then Done (b, n)
                         else match write_at b n [separator] with Some b => Done (b, n + 1) | None => Undefined end  (* 63 *)
           | _ => Undefined
           end
       end.
(** src/multifile.h:95: the snprintf in reopen *)
Definition set_filename (max_path : Z) (b : list Z) (n now : Z) : option (list Z) :=
  write_at b n (vsn_stored (wrap_u64 (max_path - n)) (filename now)).

(** ** Files *)
(** src/multifile.h:48-67, 85-102: std::ios_base::out (alone) empties an existing file, out|app keeps it. *)
Inductive mode := Truncate | Append.
(** src/multifile.h:48, 115, 147: The three classes; the duration is in nanoseconds. *)
Inductive kind := Plain | By_duration (d : Z) | By_size (size : Z).
(** src/multifile.h:95: A directory: the paths in the order of creation, with their contents. *)
Definition files := list (list Z * list Z).

(** src/multifile.h:95: (equality of paths) *)
Definition path_eqb (a b : list Z) : bool := if list_eq_dec Z.eq_dec a b then true else false.
(** src/multifile.h:95: opening a file for output *)
Fixpoint open_file (m : mode) (p : list Z) (fs : files) : files :=
  match fs with
  | [] => [(p, [])]
  | (q, c) :: fs => if path_eqb p q then (q, match m with Truncate => [] | Append => c end) :: fs else (q, c) :: open_file m p fs
  end.
(** src/multifile.h:95: writing at the end of the open file *)
Fixpoint extend (p : list Z) (bytes : list Z) (fs : files) : files :=
  match fs with
  | [] => []
  | (q, c) :: fs => if path_eqb p q then (q, c ++ bytes) :: fs else (q, c) :: extend p bytes fs
  end.
(** src/multifile.h:95: the contents of a file *)
Fixpoint contents (p : list Z) (fs : files) : option (list Z) :=
  match fs with [] => None | (q, c) :: fs => if path_eqb p q then Some c else contents p fs end.

(** src/i/multifile.i.h:83-98, 152-157, 224-229: the members; [cur] is the path of the open file,
    [pend] the bytes in the buffer of the filebuf; [opened] records the paths and the clock reading
    of each opening. *)
Record mf := { kind_ : kind; mode_ : mode; max_path_ : Z; pbuf : list Z; plen : Z;
               fs : files; cur : list Z; pend : list Z; csize : Z; ts : Z; opened : list (list Z * Z) }.

(** src/i/multifile.i.h:83-98, 152-157, 224-229: std::filebuf: pass the first [k] bytes of the buffer on to the file *)
Definition pass_on (s : mf) (k : Z) : mf :=
  {| kind_ := kind_ s; mode_ := mode_ s; max_path_ := max_path_ s; pbuf := pbuf s; plen := plen s;
     fs := extend (cur s) (take k (pend s)) (fs s); cur := cur s; pend := drop k (pend s); csize := csize s; ts := ts s; opened := opened s |}.
(** src/i/multifile.i.h:83-98, 152-157, 224-229: std::filebuf: sync and close *)
Definition flush (s : mf) : mf := pass_on s (zlen (pend s)).
(** src/i/multifile.i.h:83-98, 152-157, 224-229: std::filebuf: bytes written *)
Definition write (s : mf) (bytes : list Z) (k : Z) : mf :=
  pass_on {| kind_ := kind_ s; mode_ := mode_ s; max_path_ := max_path_ s; pbuf := pbuf s; plen := plen s;
             fs := fs s; cur := cur s; pend := pend s ++ bytes; csize := csize s; ts := ts s; opened := opened s |} k.
(** src/multifile.h:155-167: assignments to _current_size and _ts *)
Definition set_csize (s : mf) (n : Z) : mf :=
  {| kind_ := kind_ s; mode_ := mode_ s; max_path_ := max_path_ s; pbuf := pbuf s; plen := plen s;
     fs := fs s; cur := cur s; pend := pend s; csize := n; ts := ts s; opened := opened s |}.
(** src/multifile.h:123-140 *)
Definition set_ts (s : mf) (t : Z) : mf :=
  {| kind_ := kind_ s; mode_ := mode_ s; max_path_ := max_path_ s; pbuf := pbuf s; plen := plen s;
     fs := fs s; cur := cur s; pend := pend s; csize := csize s; ts := t; opened := opened s |}.

(** src/multifile.h:85-102: multifile_streambuf::reopen; [now] is the clock reading at 94.  None: the
    path is not a C string or is written outside the array. *)
Definition base_reopen (s : mf) (now : Z) : option mf :=
  let s := flush s in                                                     (* 87: close *)
  match set_filename (max_path_ s) (pbuf s) (plen s) now with             (* 94-95 *)
  | None => None
  | Some b =>
      match c_str b with
      | None => None
      | Some p =>                                                         (* 97 *)
          Some {| kind_ := kind_ s; mode_ := mode_ s; max_path_ := max_path_ s; pbuf := b; plen := plen s;
                  fs := open_file (mode_ s) p (fs s); cur := p; pend := []; csize := csize s; ts := ts s; opened := opened s ++ [(p, now)] |}
      end
  end.
(** src/multifile.h:85 (base class), 122-127 (duration), 154-159 (size): reopen; [now2] is the reading at 126 *)
Definition reopen (s : mf) (now now2 : Z) : option mf :=
  match base_reopen s now with
  | None => None
  | Some s => Some (match kind_ s with Plain => s | By_duration _ => set_ts s now2 | By_size _ => set_csize s 0 end)
  end.
(** src/multifile.h:48-67 with 114-119 and 146-151: the constructors *)
Definition create (k : kind) (m : mode) (max_path : Z) (raw path : list Z) (existing : files) (now now2 : Z) : result mf :=
  match set_directory max_path raw path with
  | Rejected => Rejected
  | Undefined => Undefined
  | Done (b, n) =>
      (* nothing is open yet, so close (87) is skipped: the filebuf has no bytes *)
      match reopen {| kind_ := k; mode_ := m; max_path_ := max_path; pbuf := b; plen := n; fs := existing; cur := []; pend := []; csize := 0; ts := 0; opened := [] |} now now2 with
      | None => Undefined
      | Some s => Done s
      end
  end.

(** src/multifile.h:85-187: The calls: a block (xsputn), a character (sputc), a flush, an explicit reopen. *)
Inductive call :=
| Puts (bytes : list Z) (k : Z)
| Putc (c : Z) (k : Z)
| Sync (t now now2 : Z)                 (* the readings at 134, 94 and 126 *)
| Reopen (now now2 : Z).
(** src/multifile.h:162-167 (size), std::filebuf otherwise: xsputn *)
Definition xsputn (s : mf) (bytes : list Z) (k : Z) : mf :=
  write (match kind_ s with By_size _ => set_csize s (wrap_u64 (csize s + zlen bytes)) | _ => s end) bytes k.
(** src/multifile.h:130-140 (duration), 170-181 (size), std::filebuf otherwise: sync *)
Definition sync (s : mf) (t now now2 : Z) : option mf :=
  match kind_ s with
  | Plain => Some (flush s)
  | By_duration d =>
      let s := flush s in
      if d <=? t - ts s then reopen s now now2 else Some s
  | By_size size =>
      let s := set_csize s (wrap_u64 (csize s + zlen (pend s))) in       (* 172, 184-187 *)
      let s := flush s in                                                (* 174 *)
      if size <=? csize s then reopen s now now2 else Some s             (* 176-178 *)
  end.
(** src/multifile.h:85-187: one call *)
Definition step (s : mf) (c : call) : option mf :=
  match c with
  | Puts bytes k => Some (xsputn s bytes k)
  | Putc c k => Some (write s [c] k)
  | Sync t now now2 => sync s t now now2
  | Reopen now now2 => reopen s now now2
  end.
(** src/multifile.h:85-187: a history of calls *)
Fixpoint steps (s : mf) (l : list call) : option mf :=
  match l with [] => Some s | c :: l => match step s c with Some s => steps s l | None => None end end.
