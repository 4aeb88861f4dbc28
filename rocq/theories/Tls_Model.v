(** Model of src/openssl_socket.h: openssl_tcp_client_socket (37-283), openssl_tcp_server_socket
    (289-401), over the descriptors of src/socket.h, and of the accepting loop of src/endpoint.h (90-94).
    OpenSSL is represented by what its manual pages promise of the functions called here:
    contexts are counted references (SSL_CTX_new, SSL_new, SSL_free, SSL_CTX_free); a new context trusts
    no authority; SSL_VERIFY_PEER makes a client refuse a certificate that is not sound or not issued by a
    trusted authority, and makes a server ask for one and refuse one it cannot verify, but not its absence
    (that takes SSL_VERIFY_FAIL_IF_NO_PEER_CERT); SSL_connect and SSL_accept on an SSL that has completed
    its handshake return 1 without doing anything; SSL_read and SSL_write do the handshake if it is not
    complete; SSL_shutdown writes an alert if the handshake is complete, otherwise nothing.
    Every call can fail in every way the manual pages allow (the answers are arguments of the calls).
    Simplified: the bytes of records are not represented; a descriptor keeps its connection until it is
    closed; memory allocation by the C++ library and logging do not fail. *)

From Coq Require Import ZArith List Bool String.
Import ListNotations.
Open Scope Z_scope.

(** ** OpenSSL *)
(** (src/openssl_socket.h:56, 316: what SSL_CTX_set_verify is about) What the other end shows: a certificate with the authority at the end of its chain, and whether
    everything else about it is right (signatures, dates, possession of the key). *)
Record cert := { k_root : Z; k_sound : bool }.
(** (src/openssl_socket.h:270, 386) The program at the other end of a connection. *)
Record peer := { p_id : Z; p_cert : option cert }.
(** src/openssl_socket.h:51, 56, 311, 316: SSL_CTX: the flags of SSL_CTX_set_verify, the authorities trusted, the references *)
Record ctx := { x_mode : Z; x_roots : list Z; x_refs : nat }.
(** (src/openssl_socket.h:270, 386) The handshake of an SSL: no side chosen yet; as client or as server, not complete; complete, with
    keys agreed over connection number c; or broken for ever. *)
Inductive shake := Fresh | Begun (as_client : bool) | Complete (c : nat) | Broken.
(** src/openssl_socket.h:58, 99: SSL: its context, the flags copied from it, its descriptor *)
Record ssl := { l_ctx : nat; l_mode : Z; l_fd : option Z; l_shake : shake }.

(** ** Objects and the system *)
(** src/i/openssl_socket.i.h:126-136 and src/i/socket.i.h:235-260: _fd, _log (whether it is not null),
    _verify_server, _ctx, _ssl *)
Record client := { c_fd : Z; c_log : bool; c_verify : bool; c_ctx : option nat; c_ssl : option nat }.
(** src/i/openssl_socket.i.h:192-207: _fd, _log, _verify_client, _ctx *)
Record server := { v_fd : Z; v_log : bool; v_verify : bool; v_ctx : option nat }.
(** src/openssl_socket.h:37-401: a live object. *)
Inductive obj := Client (c : client) | Server (v : server).

(** (src/socket.h:97-109, src/openssl_socket.h:123, 186, 225) What the system sees: descriptors obtained, closed and used; TLS records written to or read from a
    descriptor with keys agreed over connection [keys], while the descriptor was on connection [found]
    (None: not open, or not connected). *)
Inductive event := Opened (fd : Z) | Closed (fd : Z) | Used (fd : Z) | Record_on (fd : Z) (found : option nat) (keys : nat).

(** (src/openssl_socket.h:37-401) The objects, contexts and SSLs by number (None: gone), the open descriptors with the connection and
    the peer of each, the number of connections made, the trace. *)
Record world := {
  objs : nat -> option obj; nobjs : nat;
  ctxs : nat -> option ctx; nctxs : nat;
  ssls : nat -> option ssl; nssls : nat;
  fds : Z -> option (option (nat * peer)); nconns : nat;
  trace : list event }.
(** (before the first call of src/openssl_socket.h) nothing exists *)
Definition start : world :=
  {| objs := fun _ => None; nobjs := 0; ctxs := fun _ => None; nctxs := 0; ssls := fun _ => None; nssls := 0;
     fds := fun _ => None; nconns := 0; trace := [] |}.

(** (update of a table, for src/openssl_socket.h:37-401) *)
Definition upd {A} (f : nat -> option A) (i : nat) (x : option A) : nat -> option A := fun j => if Nat.eqb j i then x else f j.
(** (update of the table of descriptors, for src/socket.h:38-109) *)
Definition updz {A} (f : Z -> option A) (i : Z) (x : option A) : Z -> option A := fun j => if j =? i then x else f j.
(** src/openssl_socket.h:69-136, 337-374: the object gets new members, or ends *)
Definition set_obj (w : world) (i : nat) (o : option obj) : world :=
  {| objs := upd (objs w) i o; nobjs := nobjs w; ctxs := ctxs w; nctxs := nctxs w; ssls := ssls w; nssls := nssls w; fds := fds w; nconns := nconns w; trace := trace w |}.
(** src/openssl_socket.h:37-112, 289-356: a constructed object *)
Definition add_obj (w : world) (o : obj) : world :=
  {| objs := upd (objs w) (nobjs w) (Some o); nobjs := S (nobjs w); ctxs := ctxs w; nctxs := nctxs w; ssls := ssls w; nssls := nssls w; fds := fds w; nconns := nconns w; trace := trace w |}.
(** (memory of OpenSSL: src/openssl_socket.h:51-58, 99, 124-129) *)
Definition set_ctx (w : world) (x : nat) (c : option ctx) : world :=
  {| objs := objs w; nobjs := nobjs w; ctxs := upd (ctxs w) x c; nctxs := nctxs w; ssls := ssls w; nssls := nssls w; fds := fds w; nconns := nconns w; trace := trace w |}.
(** (memory of OpenSSL: src/openssl_socket.h:51-58, 99, 124-129) *)
Definition set_ssl (w : world) (s : nat) (l : option ssl) : world :=
  {| objs := objs w; nobjs := nobjs w; ctxs := ctxs w; nctxs := nctxs w; ssls := upd (ssls w) s l; nssls := nssls w; fds := fds w; nconns := nconns w; trace := trace w |}.
(** (the system records what happened at src/socket.h:97-109 and src/openssl_socket.h:123-270) *)
Definition note (w : world) (e : list event) : world :=
  {| objs := objs w; nobjs := nobjs w; ctxs := ctxs w; nctxs := nctxs w; ssls := ssls w; nssls := nssls w; fds := fds w; nconns := nconns w; trace := trace w ++ e |}.
(** src/socket.h:113-129, 498-517: ::socket and ::accept: the system gives a descriptor that is not open. *)
Definition os_open (w : world) (fd : Z) (p : option peer) : option world :=
  if (fd <? 0) then None else
  match fds w fd with
  | Some _ => None
  | None => Some {| objs := objs w; nobjs := nobjs w; ctxs := ctxs w; nctxs := nctxs w; ssls := ssls w; nssls := nssls w;
                    fds := updz (fds w) fd (Some (match p with Some p => Some (nconns w, p) | None => None end));
                    nconns := S (nconns w); trace := trace w ++ [Opened fd] |}
  end.
(** src/socket.h:245-262: ::connect that succeeds *)
Definition os_connected (w : world) (fd : Z) (p : peer) : world :=
  {| objs := objs w; nobjs := nobjs w; ctxs := ctxs w; nctxs := nctxs w; ssls := ssls w; nssls := nssls w;
     fds := updz (fds w) fd (Some (Some (nconns w, p))); nconns := S (nconns w); trace := trace w |}.
(** ::shutdown and ::close: src/socket.h:104-105 *)
Definition os_close (w : world) (fd : Z) : world :=
  {| objs := objs w; nobjs := nobjs w; ctxs := ctxs w; nctxs := nctxs w; ssls := ssls w; nssls := nssls w;
     fds := updz (fds w) fd None; nconns := nconns w; trace := trace w ++ [Used fd; Closed fd] |}.
(** src/i/socket.i.h:69: fd::invalid *)
Definition invalid : Z := -1.
(** src/socket.h:91-94 *)
Definition is_open (fd : Z) : bool := negb (fd =? invalid).
(** src/socket.h:97-109: close, without the assignment to _fd *)
Definition close_fd (w : world) (fd : Z) : world := if is_open fd then os_close w fd else w.

(** (src/openssl_socket.h:37-401) How a call ends: returning a value; throwing; waiting for the other end for ever; using memory that
    is freed; calling a method of a null log.  [Never]: no such object, or the system cannot answer so. *)
Inductive outcome :=
| Back (r : Z) (w : world)
| Threw (w : world)
| Waits
| Freed
| Null_log
| Never.

(** ** The functions of OpenSSL *)
(** src/openssl_socket.h:51-56, 311-316: SSL_CTX_new with the flags set by SSL_CTX_set_verify afterwards *)
Definition ctx_new (w : world) (mode : Z) : world :=
  {| objs := objs w; nobjs := nobjs w; ctxs := upd (ctxs w) (nctxs w) (Some {| x_mode := mode; x_roots := []; x_refs := 1 |}); nctxs := S (nctxs w);
     ssls := ssls w; nssls := nssls w; fds := fds w; nconns := nconns w; trace := trace w |}.
(** src/openssl_socket.h:129, 367: SSL_CTX_free; None: the context is freed already *)
Definition ctx_free (w : world) (x : nat) : option world :=
  match ctxs w x with
  | None => None
  | Some c => Some (set_ctx w x (match x_refs c with
                                 | O => None
                                 | S O => None
                                 | S n => Some {| x_mode := x_mode c; x_roots := x_roots c; x_refs := n |}
                                 end))
  end.
(** src/openssl_socket.h:58, 99: SSL_new; None: the context is freed already *)
Definition ssl_new (w : world) (x : nat) : option world :=
  match ctxs w x with
  | None => None
  | Some c =>
      let w := set_ctx w x (Some {| x_mode := x_mode c; x_roots := x_roots c; x_refs := S (x_refs c) |}) in
      Some {| objs := objs w; nobjs := nobjs w; ctxs := ctxs w; nctxs := nctxs w;
              ssls := upd (ssls w) (nssls w) (Some {| l_ctx := x; l_mode := x_mode c; l_fd := None; l_shake := Fresh |}); nssls := S (nssls w);
              fds := fds w; nconns := nconns w; trace := trace w |}
  end.
(** src/openssl_socket.h:124: SSL_free *)
Definition ssl_free (w : world) (s : nat) : option world :=
  match ssls w s with
  | None => None
  | Some l => ctx_free (set_ssl w s None) (l_ctx l)
  end.
(** src/openssl_socket.h:104, 264: SSL_set_fd that succeeds; l was found at s *)
Definition ssl_set_fd (w : world) (s : nat) (l : ssl) (fd : Z) : world :=
  set_ssl w s (Some {| l_ctx := l_ctx l; l_mode := l_mode l; l_fd := Some fd; l_shake := l_shake l |}).
(** (the state of the handshake changes: src/openssl_socket.h:186, 225, 270, 386) *)
Definition ssl_shaken (w : world) (s : nat) (l : ssl) (h : shake) : world :=
  set_ssl w s (Some {| l_ctx := l_ctx l; l_mode := l_mode l; l_fd := l_fd l; l_shake := h |}).
(** (src/openssl_socket.h:270, 386) X509_verify_cert with the authorities of the context *)
Definition verified (roots : list Z) (k : cert) : bool := k_sound k && existsb (Z.eqb (k_root k)) roots.
(** src/openssl_socket.h:56, 316: SSL_CTX_set_verify(3): may the handshake succeed?  Bit 0: SSL_VERIFY_PEER, bit 1:
    SSL_VERIFY_FAIL_IF_NO_PEER_CERT.  A server always shows a certificate. *)
Definition allowed (as_client : bool) (mode : Z) (roots : list Z) (p : peer) : bool :=
  match p_cert p with
  | None => negb as_client && (negb (Z.testbit mode 0) || negb (Z.testbit mode 1))
  | Some k => negb (Z.testbit mode 0) || verified roots k
  end.
(** (src/openssl_socket.h:270, 386) What the other end does in a handshake: completes it; makes it fail (for ever or not); never answers. *)
Inductive answer := Completes | Fails (for_ever : bool) | Silent.
(** (src/openssl_socket.h:186, 225, 270, 386) SSL_do_handshake; Back r: SSL_connect or SSL_accept return r *)
Definition handshake (w : world) (s : nat) (a : answer) : outcome :=
  match ssls w s with
  | None => Freed
  | Some l =>
      match l_shake l with
      | Complete _ => Back 1 w
      | Broken | Fresh => Back (-1) w
      | Begun as_client =>
          match l_fd l with
          | None => Back (-1) w
          | Some fd =>
              let w := note w [Used fd] in
              match a with
              | Fails true => Back (-1) (ssl_shaken w s l Broken)
              | Fails false => Back (-1) w
              | Silent => match fds w fd with Some (Some _) => Waits | _ => Never end
              | Completes =>
                  match fds w fd, ctxs w (l_ctx l) with
                  | Some (Some (c, p)), Some x => if allowed as_client (l_mode l) (x_roots x) p then Back 1 (ssl_shaken w s l (Complete c)) else Never
                  | _, None => Freed
                  | _, _ => Never
                  end
              end
          end
      end
  end.
(** src/openssl_socket.h:270, 386: SSL_connect, SSL_accept: choose the side, then the handshake *)
Definition ssl_shake (w : world) (s : nat) (as_client : bool) (a : answer) : outcome :=
  match ssls w s with
  | None => Freed
  | Some l => handshake (match l_shake l with Fresh => ssl_shaken w s l (Begun as_client) | _ => w end) s a
  end.
(** (the connection a descriptor is on; for src/openssl_socket.h:123, 186, 225) *)
Definition on (w : world) (fd : Z) : option nat := match fds w fd with Some (Some (c, _)) => Some c | _ => None end.
(** src/openssl_socket.h:186, 225: SSL_write and SSL_read of [num] bytes: [n] is the number of bytes transferred, 0 = failed *)
Definition ssl_transfer (w : world) (s : nat) (num : Z) (a : answer) (n : Z) : outcome :=
  match handshake w s a with
  | Back 1 w =>
      match ssls w s with
      | None => Freed
      | Some l =>
          match l_shake l, l_fd l with
          | Complete c, Some fd =>
              if num <=? 0 then Back (-1) w
              else if (0 <? n) && (n <=? num) then Back n (note w [Used fd; Record_on fd (on w fd) c])
              else if n =? 0 then Back (-1) (note w [Used fd]) else Never
          | _, _ => Never
          end
      end
  | o => o
  end.
(** src/openssl_socket.h:123: SSL_shutdown *)
Definition ssl_shutdown (w : world) (s : nat) : option world :=
  match ssls w s with
  | None => None
  | Some l => Some (match l_shake l, l_fd l with Complete c, Some fd => note w [Used fd; Record_on fd (on w fd) c] | _, _ => w end)
  end.

(** ** openssl_tcp_client_socket *)
(** src/openssl_socket.h:56: SSL_VERIFY_PEER is 1, SSL_VERIFY_NONE is 0 *)
Definition client_mode (verify : bool) : Z := if verify then 1 else 0.
(** src/openssl_socket.h:37-66: the constructor; [ok_method], [ok_ctx], [ok_ssl]: whether
    TLS_client_method, SSL_CTX_new and SSL_new return something.  What was obtained before a throw is not
    released: the destructor of an object that is not constructed does not run. *)
Definition new_client (w : world) (log verify ok_method ok_ctx ok_ssl : bool) : outcome :=
  if negb ok_method then Threw w else
  if negb ok_ctx then Threw w else
  let x := nctxs w in
  let w := ctx_new w (client_mode verify) in
  if negb ok_ssl then Threw w else
  let s := nssls w in
  match ssl_new w x with
  | None => Freed
  | Some w => Back 0 (add_obj w (Client {| c_fd := invalid; c_log := log; c_verify := verify; c_ctx := Some x; c_ssl := Some s |}))
  end.
(** src/openssl_socket.h:69-87: the move constructor, with src/socket.h:65-78 *)
Definition move_client (w : world) (i : nat) (c : client) : outcome :=
  let w := set_obj w i (Some (Client {| c_fd := invalid; c_log := c_log c; c_verify := true; c_ctx := None; c_ssl := None |})) in
  Back 0 (add_obj w (Client c)).
(** src/openssl_socket.h:115-136: the body of the destructor *)
Definition client_free (w : world) (c : client) : option world :=
  match (match c_ssl c with
         | None => Some w
         | Some s => match ssl_shutdown w s with None => None | Some w => ssl_free w s end
         end) with
  | None => None
  | Some w => match c_ctx c with None => Some w | Some x => ctx_free w x end
  end.
(** src/openssl_socket.h:115-136: the destructor, followed by that of the base: src/socket.h:81-88 *)
Definition destroy_client (w : world) (i : nat) (c : client) : outcome :=
  match client_free (set_obj w i None) c with
  | None => Freed
  | Some w => Back 0 (close_fd w (c_fd c))
  end.
(** src/socket.h:97-109 *)
Definition with_fd (c : client) (fd : Z) : client :=
  {| c_fd := fd; c_log := c_log c; c_verify := c_verify c; c_ctx := c_ctx c; c_ssl := c_ssl c |}.
(** src/socket.h:97-109: close *)
Definition close_client (w : world) (i : nat) (c : client) : outcome :=
  if is_open (c_fd c) then Back 0 (set_obj (os_close w (c_fd c)) i (Some (Client (with_fd c invalid)))) else Back 0 w.
(** src/openssl_socket.h:249-283: connect_handshake; [ok_fd]: the answer of SSL_set_fd *)
Definition connect_handshake (w : world) (c : client) (ok_fd : bool) (a : answer) : outcome :=
  if negb (is_open (c_fd c)) then Threw w else
  match c_ssl c with
  | None => Threw w
  | Some s =>
      match ssls w s with
      | None => Freed
      | Some l =>
          if negb ok_fd then Threw w else
          let w := ssl_set_fd w s l (c_fd c) in
          if negb (c_log c) then Null_log else
          match ssl_shake w s true a with
          | Back r w => if r =? 1 then Back 0 w else Threw w
          | o => o
          end
      end
  end.
(** src/openssl_socket.h:139-168: both connect functions, with src/socket.h:157-241; [got]: the answer of
    ::socket, used if the socket is not open; [reached]: the peer ::connect connected to, None: no address or
    no host could be connected.  A descriptor that is connected cannot be connected again. *)
Definition connect (w : world) (i : nat) (c : client) (got : option Z) (reached : option peer) (ok_fd : bool) (a : answer) : outcome :=
  let opened :=
    if is_open (c_fd c) then Some (Some (w, c))
    else match got with
         | None => Some None
         | Some fd => match os_open w fd None with
                      | None => None
                      | Some w => let c := with_fd c fd in Some (Some (set_obj w i (Some (Client c)), c))
                      end
         end in
  match opened with
  | None => Never
  | Some None => Threw w
  | Some (Some (w, c)) =>
      let fd := c_fd c in
      let w := note w [Used fd] in
      match reached with
      | None => Threw w
      | Some p =>
          match fds w fd with
          | Some None => connect_handshake (os_connected w fd p) c ok_fd a
          | _ => Never
          end
      end
  end.
(** src/openssl_socket.h:186, 225: (int)size *)
Definition to_int (size : Z) : Z := (size + 2147483648) mod 4294967296 - 2147483648.
(** src/openssl_socket.h:171-207 send and 210-246 receive; [n]: what SSL_write or SSL_read transferred *)
Definition transfer (w : world) (c : client) (size : Z) (a : answer) (n : Z) : outcome :=
  if negb (is_open (c_fd c)) then Threw w else
  match c_ssl c with
  | None => Threw w
  | Some s =>
      match ssl_transfer w s (to_int size) a n with
      | Back r w => Back (if r <? 0 then 0 else r) w
      | o => o
      end
  end.

(** ** openssl_tcp_server_socket *)
(** src/openssl_socket.h:316 *)
Definition server_mode (verify : bool) : Z := if verify then 1 else 0.
(** src/i/openssl_socket.i.h:192: max_password *)
Definition max_password : Z := 256.
(** src/openssl_socket.h:289-334: the constructor; [len]: the length of the password; whether
    TLS_server_method, SSL_CTX_new, SSL_CTX_use_certificate_file and SSL_CTX_use_PrivateKey_file succeed *)
Definition new_server (w : world) (log verify : bool) (len : Z) (ok_method ok_ctx ok_cert ok_key : bool) : outcome :=
  if max_password <=? len then Threw w else
  if negb ok_method then Threw w else
  if negb ok_ctx then Threw w else
  let x := nctxs w in
  let w := ctx_new w (server_mode verify) in
  if negb ok_cert then Threw w else
  if negb ok_key then Threw w else
  Back 0 (add_obj w (Server {| v_fd := invalid; v_log := log; v_verify := verify; v_ctx := Some x |})).
(** src/openssl_socket.h:337-356: the move constructor *)
Definition move_server (w : world) (i : nat) (v : server) : outcome :=
  let w := set_obj w i (Some (Server {| v_fd := invalid; v_log := v_log v; v_verify := false; v_ctx := None |})) in
  Back 0 (add_obj w (Server v)).
(** src/openssl_socket.h:359-374: the destructor, followed by that of the base *)
Definition destroy_server (w : world) (i : nat) (v : server) : outcome :=
  let w := set_obj w i None in
  match (match v_ctx v with None => Some w | Some x => ctx_free w x end) with
  | None => Freed
  | Some w => Back 0 (close_fd w (v_fd v))
  end.
(** src/socket.h:97-109 *)
Definition server_with_fd (v : server) (fd : Z) : server :=
  {| v_fd := fd; v_log := v_log v; v_verify := v_verify v; v_ctx := v_ctx v |}.
(** src/socket.h:97-109: close *)
Definition close_server (w : world) (i : nat) (v : server) : outcome :=
  if is_open (v_fd v) then Back 0 (set_obj (os_close w (v_fd v)) i (Some (Server (server_with_fd v invalid)))) else Back 0 w.
(** src/socket.h:145-220: bind; [got]: the answer of ::socket; [bound]: whether some host could be bound *)
Definition bind (w : world) (i : nat) (v : server) (got : option Z) (bound : bool) : outcome :=
  if is_open (v_fd v) then Threw w else
  match got with
  | None => Threw w
  | Some fd =>
      match os_open w fd None with
      | None => Never
      | Some w =>
          let w := note w [Used fd] in
          if bound then Back 0 (set_obj w i (Some (Server (server_with_fd v fd)))) else Threw (os_close w fd)
      end
  end.
(** src/socket.h:472-487: listen *)
Definition listen (w : world) (v : server) (ok : bool) : outcome :=
  let w := note w [Used (v_fd v)] in
  if negb ok then Threw w else if is_open (v_fd v) then Back 0 w else Never.
(** src/openssl_socket.h:377-392: accept, with the constructor at 90-112 and src/socket.h:498-517; [got]: the
    answer of ::accept; whether SSL_new and SSL_set_fd succeed; [a]: the handshake.  An exception in the
    constructor runs the destructor of the base only; one after it destroys the client. *)
Definition accept (w : world) (v : server) (got : option (Z * peer)) (ok_ssl ok_fd : bool) (a : answer) : outcome :=
  let w := note w [Used (v_fd v)] in
  match got with
  | None => Threw w
  | Some (fd, p) =>
      if negb (is_open (v_fd v)) then Never else
      match os_open w fd (Some p) with
      | None => Never
      | Some w =>
          match v_ctx v with
          | None => Threw (close_fd w fd)
          | Some x =>
              if negb ok_ssl then Threw (close_fd w fd) else
              let s := nssls w in
              match ssl_new w x with
              | None => Freed
              | Some w =>
                  if negb ok_fd then Threw (close_fd w fd) else
                  match ssls w s with
                  | None => Freed
                  | Some l =>
                      let c := {| c_fd := fd; c_log := v_log v; c_verify := false; c_ctx := None; c_ssl := Some s |} in
                      match ssl_shake (ssl_set_fd w s l fd) s false a with
                      | Back r w =>
                          if r <=? 0 then
                            match client_free w c with
                            | None => Freed
                            | Some w => Threw (close_fd w fd)
                            end
                          else Back 0 (add_obj w (Client c))
                      | o => o
                      end
                  end
              end
          end
      end
  end.

(** ** Histories *)
(** src/openssl_socket.h:37-401: a call with the answers it gets. *)
Inductive call :=
| New_client (log verify ok_method ok_ctx ok_ssl : bool)
| New_server (log verify : bool) (len : Z) (ok_method ok_ctx ok_cert ok_key : bool)
| Connect (i : nat) (got : option Z) (reached : option peer) (ok_fd : bool) (a : answer)
| Transfer (i : nat) (size : Z) (a : answer) (n : Z)
| Bind (i : nat) (got : option Z) (bound : bool)
| Listen (i : nat) (ok : bool)
| Accept (i : nat) (got : option (Z * peer)) (ok_ssl ok_fd : bool) (a : answer)
| Close (i : nat)
| Move (i : nat)
| Destroy (i : nat).

(** One call; a client has the functions of src/openssl_socket.h:37-283, a server those of 289-401. *)
Definition step (w : world) (c : call) : outcome :=
  match c with
  | New_client log verify m x s => new_client w log verify m x s
  | New_server log verify len m x c k => new_server w log verify len m x c k
  | Connect i got reached f a => match objs w i with Some (Client c) => connect w i c got reached f a | _ => Never end
  | Transfer i size a n => match objs w i with Some (Client c) => transfer w c size a n | _ => Never end
  | Bind i got ok => match objs w i with Some (Server v) => bind w i v got ok | _ => Never end
  | Listen i ok => match objs w i with Some (Server v) => listen w v ok | _ => Never end
  | Accept i got s f a => match objs w i with Some (Server v) => accept w v got s f a | _ => Never end
  | Close i => match objs w i with Some (Client c) => close_client w i c | Some (Server v) => close_server w i v | None => Never end
  | Move i => match objs w i with Some (Client c) => move_client w i c | Some (Server v) => move_server w i v | None => Never end
  | Destroy i => match objs w i with Some (Client c) => destroy_client w i c | Some (Server v) => destroy_server w i v | None => Never end
  end.
(** (src/openssl_socket.h:37-401) A history of calls: the world after it if every call came back, by returning or throwing. *)
Fixpoint steps (w : world) (l : list call) : option world :=
  match l with
  | [] => Some w
  | c :: l => match step w c with Back _ w | Threw w => steps w l | _ => None end
  end.

(** ** The accepting loop *)
(** (src/endpoint.h:60-94) Where the listening thread ends up: waiting for the next client; waiting for this one; an exception has
    left start(), which ends the process (the thread function does not catch it). *)
Inductive listener := Listening | Stuck | Terminated | Undefined.
(** src/endpoint.h:90-94: one accept() after the other for the clients that come; the clients served, by
    the place they have in the list *)
Fixpoint accepting (w : world) (i n : nat) (l : list (Z * peer * answer)) : list nat * listener :=
  match l with
  | [] => ([], Listening)
  | (fd, p, a) :: l =>
      match step w (Accept i (Some (fd, p)) true true a) with
      | Back _ w => let '(served, e) := accepting w i (S n) l in (n :: served, e)
      | Threw _ => ([], Terminated)
      | Waits => ([], Stuck)
      | _ => ([], Undefined)
      end
  end.

(** ** The password *)
(** src/openssl_socket.h:303, 397: std::strncpy (C17 7.24.2.4): the first [n] characters, padded with zeros after the end of the source *)
Fixpoint strncpy (src : list Z) (n : nat) : list Z :=
  match n with
  | O => []
  | S n => match src with
           | [] => 0 :: strncpy [] n
           | c :: r => c :: strncpy r n
           end
  end.
(** (assignment to an element: src/openssl_socket.h:304, 398) *)
Fixpoint poke (l : list Z) (i : nat) (c : Z) : list Z :=
  match l, i with
  | [], _ => []
  | _ :: l, O => c :: l
  | x :: l, S i => x :: poke l i c
  end.
(** src/openssl_socket.h:298, 400: std::strlen: None = no zero in the array *)
Fixpoint strlen (l : list Z) : option Z :=
  match l with
  | [] => None
  | c :: l => if c =? 0 then Some 0 else match strlen l with Some n => Some (n + 1) | None => None end
  end.
(** src/openssl_socket.h:298-304: the constructor copies the password; None: throws *)
Definition keep_password (pw : list Z) : option (list Z) :=
  if max_password <=? Z.of_nat (List.length pw) then None else Some (poke (strncpy pw 256 ++ [0]) 256 0).
(** src/openssl_socket.h:395-401: pem_passwd_cb; the buffer of [size] bytes and the value returned.  None: a
    byte outside of it is written or read (strncpy reads the password up to its zero). *)
Definition pem_passwd_cb (stored : list Z) (size : nat) : option (list Z * Z) :=
  match strlen stored with
  | None => None
  | Some n =>
      match size with
      | O => None
      | S last => let buf := poke (strncpy (firstn (Z.to_nat n) stored) size) last 0 in
                  match strlen buf with Some r => Some (buf, r) | None => None end
      end
  end.
