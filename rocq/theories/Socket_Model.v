(** Model of src/socket.h: socket_streambuf (523-585) over any socket, and the descriptors held by
    basic_socket, client_socket and tcp_server_socket objects (38-517).
    Simplified: addresses are not represented (only whether the system calls succeeded); logging is
    left out; Socket::send is taken to accept each single byte (its result is ignored by the code).  src/openssl_socket.h: Tls_Model.v. *)

From Coq Require Import ZArith List Bool.
From Verif Require Import Base.
Import ListNotations.
Open Scope Z_scope.

(** ** The stream buffer *)
(** src/i/socket.i.h:517-533: the characters of both buffers and the get and put pointers.
    [get_ch] is None while the char is uninitialised; [avail]: gptr() < egptr(); [pending]: pptr() = &_put_ch + 1.
    [sent]: the bytes given to Socket::send so far; [inp]: the bytes Socket::receive has still to
    deliver, none = the peer has closed (or an error): receive returns 0 and does not touch the buffer. *)
Record sbuf := { get_ch : option Z; avail : bool; put_ch : Z; pending : bool; sent : list Z; inp : list Z }.
(** src/socket.h:523-534: the constructor *)
Definition sb_new (inp : list Z) : sbuf := {| get_ch := None; avail := false; put_ch := 0; pending := false; sent := []; inp := inp |}.
(** src/socket.h:537-550: the move constructor, what the new object gets *)
Definition sb_move (s : sbuf) : sbuf := {| get_ch := get_ch s; avail := false; put_ch := put_ch s; pending := false; sent := sent s; inp := inp s |}.

(** src/socket.h:563-571: overflow.  ch is an int of which the first byte in memory is sent: the
    lowest one (little endian). *)
Definition sb_overflow (s : sbuf) (ch : Z) : Z * sbuf :=
  (ch, {| get_ch := get_ch s; avail := avail s; put_ch := put_ch s; pending := false; sent := sent s ++ [put_ch s; ch mod 256]; inp := inp s |}).
(** src/socket.h:574-583: sync *)
Definition sb_sync (s : sbuf) : sbuf :=
  {| get_ch := get_ch s; avail := avail s; put_ch := put_ch s; pending := false;
     sent := if pending s then sent s ++ [put_ch s] else sent s; inp := inp s |}.
(** src/socket.h:574-583: std::streambuf: the character is stored at pptr() and pptr() advances *)
Definition sb_store (s : sbuf) (c : Z) : sbuf :=
  {| get_ch := get_ch s; avail := avail s; put_ch := c; pending := true; sent := sent s; inp := inp s |}.
(** src/socket.h:574-583: std::streambuf::sputc (C++ [streambuf.pub.put]): store if there is room, else overflow *)
Definition sb_sputc (s : sbuf) (c : Z) : Z * sbuf := if pending s then sb_overflow s c else (c, sb_store s c).
(** src/socket.h:574-583: std::streambuf::xsputn (libstdc++): fill the room, then overflow with the next character, until
    overflow returns eof (-1).  The result is the number of characters written. *)
Fixpoint sb_xsputn (s : sbuf) (l : list Z) : Z * sbuf :=
  match l with
  | [] => (0, s)
  | c :: l' =>
      if pending s then
        let '(r, s) := sb_overflow s c in
        if r =? -1 then (0, s) else let '(n, s) := sb_xsputn s l' in (n + 1, s)
      else let '(n, s) := sb_xsputn (sb_store s c) l' in (n + 1, s)
  end.

(** src/socket.h:553-560: underflow.  The value of receive is ignored; the char is converted to int
    (signed char).  None = an uninitialised char is read. *)
Definition sb_underflow (s : sbuf) : option (Z * sbuf) :=
  let '(g, i) := match inp s with c :: r => (Some c, r) | [] => (get_ch s, []) end in
  match g with
  | None => None
  | Some c => Some (schar c, {| get_ch := g; avail := true; put_ch := put_ch s; pending := pending s; sent := sent s; inp := i |})
  end.
(** src/socket.h:553-560: std::streambuf: gbump(1) and the current character as int (to_int_type of an unsigned char) *)
Definition sb_take (s : sbuf) : option (Z * sbuf) :=
  match get_ch s with
  | None => None
  | Some c => Some (c, {| get_ch := get_ch s; avail := false; put_ch := put_ch s; pending := pending s; sent := sent s; inp := inp s |})
  end.
(** src/socket.h:553-560: std::streambuf::sgetc *)
Definition sb_sgetc (s : sbuf) : option (Z * sbuf) :=
  if avail s then match get_ch s with Some c => Some (c, s) | None => None end else sb_underflow s.
(** src/socket.h:553-560: std::streambuf::sbumpc, with uflow of libstdc++: eof if underflow returned eof, otherwise the
    character at the get pointer *)
Definition sb_sbumpc (s : sbuf) : option (Z * sbuf) :=
  if avail s then sb_take s
  else match sb_underflow s with
       | None => None
       | Some (r, s) => if r =? -1 then Some (-1, s) else sb_take s
       end.
(** src/socket.h:553-560: n calls of sbumpc (what operator>> and istream::get do while there is no eof) *)
Fixpoint sb_reads (n : nat) (s : sbuf) : option (list Z * sbuf) :=
  match n with
  | O => Some ([], s)
  | S n' => match sb_sbumpc s with
            | None => None
            | Some (c, s) => match sb_reads n' s with None => None | Some (l, s) => Some (c :: l, s) end
            end
  end.

(** ** Descriptors *)
(** src/i/socket.i.h:69: fd::invalid *)
Definition invalid : Z := -1.
(** src/socket.h:38-94: What the system sees. *)
Inductive event := Opened (fd : Z) | Closed (fd : Z) | Used (fd : Z).
(** src/socket.h:38-94: The objects by number (None: destroyed), the descriptors open in the system, the trace. *)
Record world := { objs : list (option Z); os_open : list Z; trace : list event }.

(** The calls.  [got] is the answer of ::socket() or ::accept(): None = failed; [hosts] the answer of
    getaddrinfo: None = failed, otherwise for each host whether ::bind or ::connect succeeds. *)
Inductive call :=
| New                                        (* a constructor without descriptor: src/socket.h:38-62, 325-328, 442-454, 466-469 *)
| Tie (i : nat) (bind : bool) (got : option Z) (hosts : option (list bool)) (* bind/connect to a host: 151-220 *)
| Tie_address (i : nat) (bind : bool) (got : option Z)            (* bind/connect to an address: 223-241 *)
| Transfer (i : nat)                         (* send, receive: 349-436 *)
| Listen (i : nat)                           (* 472-487 *)
| Accept (i : nat) (got : option Z)          (* 490-517 *)
| Close (i : nat)                            (* 97-109 *)
| Move (i : nat)                             (* the move constructor: 65-78 *)
| Destroy (i : nat).                         (* 81-88 *)

(** src/socket.h: the _fd of a live object *)
Definition get_obj (w : world) (i : nat) : option Z := match nth_error (objs w) i with Some (Some fd) => Some fd | _ => None end.
(** src/socket.h:38-62, 325-328, 442-454, 466-469: (list update) *)
Fixpoint set_nth (l : list (option Z)) (i : nat) (x : option Z) : list (option Z) :=
  match l, i with
  | [], _ => []
  | _ :: l, O => x :: l
  | y :: l, S i => y :: set_nth l i x
  end.
(** src/socket.h: assignment to _fd, or the end of the object *)
Definition set_obj (w : world) (i : nat) (x : option Z) : world :=
  {| objs := set_nth (objs w) i x; os_open := os_open w; trace := trace w |}.
(** src/socket.h:44-49: a constructed object *)
Definition add_obj (w : world) (fd : Z) : world := {| objs := objs w ++ [Some fd]; os_open := os_open w; trace := trace w |}.
(** src/socket.h:91-94 *)
Definition is_open (fd : Z) : bool := negb (fd =? invalid).
(** src/socket.h:91-230: any other system call on the descriptor *)
Definition use (w : world) (fd : Z) : world := {| objs := objs w; os_open := os_open w; trace := trace w ++ [Used fd] |}.
(** src/socket.h:91-94: ::shutdown and ::close *)
Definition os_close (w : world) (fd : Z) : world :=
  {| objs := objs w; os_open := remove Z.eq_dec fd (os_open w); trace := trace w ++ [Used fd; Closed fd] |}.
(** src/socket.h:91-94: The system gives a descriptor that is not open. *)
Definition os_new (w : world) (fd : Z) : option world :=
  if (0 <=? fd) && negb (existsb (Z.eqb fd) (os_open w))
  then Some {| objs := objs w; os_open := fd :: os_open w; trace := trace w ++ [Opened fd] |}
  else None.
(** src/socket.h:97-109: close *)
Definition close (w : world) (i : nat) (fd : Z) : world :=
  if is_open fd then set_obj (os_close w fd) i (Some invalid) else w.
(** src/socket.h:112-129: open; the result false = thrown.  None: the system cannot answer so. *)
Definition open (w : world) (i : nat) (fd : Z) (got : option Z) : option (bool * world) :=
  let w := close w i fd in
  match got with
  | None => Some (false, set_obj w i (Some invalid))
  | Some n => match os_new w n with Some w => Some (true, set_obj w i (Some n)) | None => None end
  end.
(** src/socket.h:244-272: the innermost tie: setsockopt before ::bind *)
Definition tie_fd (w : world) (fd : Z) (bind : bool) : world := if bind then use (use w fd) fd else use w fd.
(** src/socket.h:190-197: the loop over the hosts *)
Fixpoint tie_hosts (w : world) (fd : Z) (bind : bool) (hosts : list bool) : bool * world :=
  match hosts with
  | [] => (false, w)
  | ok :: hosts => let w := tie_fd w fd bind in if ok then (true, w) else tie_hosts w fd bind hosts
  end.
(** The common start of both tie functions: src/socket.h:163-168, 225-230 *)
Definition ensure_open (w : world) (i : nat) (fd : Z) (bind : bool) (got : option Z) : option (bool * world) :=
  if is_open fd then Some (negb bind, w) else open w i fd got.

(** src/socket.h:38-469: One call; None: the object does not exist, or the system cannot answer so.  Calls that throw
    leave the objects as they are then. *)
Definition step (w : world) (c : call) : option world :=
  match c with
  | New => Some (add_obj w invalid)
  | Tie i bind got hosts =>
      match get_obj w i with
      | None => None
      | Some fd =>
          match ensure_open w i fd bind got with
          | None => None
          | Some (false, w) => Some w
          | Some (true, w) =>
              match get_obj w i with
              | None => None
              | Some fd =>
                  let '(done, w) := match hosts with None => (false, w) | Some hosts => tie_hosts w fd bind hosts end in
                  Some (if negb done && bind then close w i fd else w)
              end
          end
      end
  | Tie_address i bind got =>
      match get_obj w i with
      | None => None
      | Some fd =>
          match ensure_open w i fd bind got with
          | None => None
          | Some (false, w) => Some w
          | Some (true, w) => match get_obj w i with None => None | Some fd => Some (tie_fd w fd bind) end
          end
      end
  | Transfer i => match get_obj w i with None => None | Some fd => Some (if is_open fd then use w fd else w) end
  | Listen i => match get_obj w i with None => None | Some fd => Some (use w fd) end
  | Accept i got =>
      match get_obj w i with
      | None => None
      | Some fd =>
          let w := use w fd in
          match got with
          | None => Some w
          | Some n => match os_new w n with Some w => Some (add_obj w n) | None => None end
          end
      end
  | Close i => match get_obj w i with None => None | Some fd => Some (close w i fd) end
  | Move i => match get_obj w i with None => None | Some fd => Some (set_obj (add_obj w fd) i (Some invalid)) end
  | Destroy i => match get_obj w i with None => None | Some fd => Some (set_obj (close w i fd) i None) end
  end.
(** src/socket.h:38-469: a history of calls *)
Fixpoint steps (w : world) (l : list call) : option world :=
  match l with [] => Some w | c :: l => match step w c with Some w => steps w l | None => None end end.
(** src/socket.h:38-469: nothing exists *)
Definition start : world := {| objs := []; os_open := []; trace := [] |}.
