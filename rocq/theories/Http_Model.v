(** Model of src/http.h: http_state, http_istream, http_ostream and the four request/response
    streams, on top of the stream wrappers of src/stream.h.

    Input stream: the remaining bytes and the state bits, with the libstdc++ rules: peek/get on
    a stream that is not good set failbit and return EOF; peek at the end sets eofbit; get at the
    end sets eofbit and failbit.  EOF converted to char is the byte 255.

    Logging is left out (the log is a null pointer).  The reset() members are left out: the name
    is inherited from two bases (src/i/http.i.h:127-128, 92, src/i/stream.i.h:173).

    Outcomes: [Oob] = a write or read outside the caller's buffer, [Loop] = the fuel ran out,
    [Throw] = std::logic_error from assert_next. *)

From Coq Require Import ZArith List Bool.
From Verif Require Import Base ListMem Ascii_Model.
Import ListNotations.
Open Scope Z_scope.

(** src/http.h:110-384 *)
Inductive hres (A : Type) := Ret (a : A) | Oob | Loop | Throw.
Arguments Ret {A}. Arguments Oob {A}. Arguments Loop {A}. Arguments Throw {A}.
(** src/http.h:110-384 *)
Definition bind {A B} (x : hres A) (f : A -> hres B) : hres B :=
  match x with Ret a => f a | Oob => Oob | Loop => Loop | Throw => Throw end.
Notation "'do' a <- x ; y" := (bind x (fun a => y)) (at level 200, a pattern, x at level 100, y at level 200).

(** src/i/http.i.h:41-50 *)
Inductive item := method | resource | protocol | status_code | reason_phrase | header_name | header_value | body.
(** _next != item at src/http.h:66 *)
Definition item_eqb (a b : item) : bool :=
  match a, b with
  | method, method | resource, resource | protocol, protocol | status_code, status_code
  | reason_phrase, reason_phrase | header_name, header_name | header_value, header_value | body, body => true
  | _, _ => false
  end.

(** src/i/http.i.h:451, 584: Request or response stream. *)
Inductive side := request | response.

(** ** http_istream *)
(** src/i/http.i.h:126 *)
Record hrd := { hin : list Z; heof : bool; hfail : bool; hbad : bool;   (* std::istream *)
                hnext : item; hgc : Z }.                                 (* _next, _gcount *)

(** Updates of the stream and of the state: src/stream.h:101-117, src/http.h:104-107. *)
Definition upd (s : hrd) (l : list Z) (e f b : bool) : hrd :=
  {| hin := l; heof := e; hfail := f; hbad := b; hnext := hnext s; hgc := hgc s |}.
(** src/stream.h:96 *)
Definition is_good (s : hrd) : bool := negb (heof s) && negb (hfail s) && negb (hbad s).
(** src/stream.h:102 *)
Definition set_bad (s : hrd) : hrd := upd s (hin s) false true true.
(** src/stream.h:116 *)
Definition set_fail (s : hrd) : hrd := upd s (hin s) (heof s) true (hbad s).
(** src/http.h:104-107: set_gstate *)
Definition set_gstate (s : hrd) (g : Z) (n : item) : hrd :=
  {| hin := hin s; heof := heof s; hfail := hfail s; hbad := hbad s; hnext := n; hgc := g |}.

(** src/http.h:377: std::istream::peek and get, as a char *)
Definition peek (s : hrd) : Z * hrd :=
  if is_good s then match hin s with
                    | c :: _ => (c, s)
                    | [] => (255, upd s [] true (hfail s) (hbad s))
                    end
  else (255, set_fail s).
(** src/http.h:365 *)
Definition get (s : hrd) : Z * hrd :=
  if is_good s then match hin s with
                    | c :: l => (c, upd s l (heof s) (hfail s) (hbad s))
                    | [] => (255, upd s [] true true (hbad s))
                    end
  else (255, set_fail s).

(** src/http.h:377-386: peek_char *)
Definition peek_char (s : hrd) : Z * hrd :=
  let '(ch, s) := peek s in if negb (is_ascii ch) then (0, set_bad s) else (ch, s).
(** src/http.h:365-373: get_char *)
Definition get_char (s : hrd) : Z * hrd :=
  let '(ch, s) := peek_char s in if is_good s then (ch, snd (get s)) else (ch, s).

(** src/http.h:322-345: buffer[i] = c *)
Definition store (m : list Z) (i c : Z) : hres (list Z) :=
  match write_at m i [c] with Some m' => Ret m' | None => Oob end.

(** The loop of src/http.h:337-344; the buffer passed is [m] from index [off] on, [limit] = size - 1. *)
Fixpoint get_chars_loop (fuel : nat) (pred : Z -> bool) (limit : Z) (m : list Z) (off g : Z) (s : hrd) : hres (Z * list Z * hrd) :=
  match fuel with
  | O => Loop
  | S fuel' =>
      if is_good s then
        let '(ch, s) := peek_char s in
        if pred ch then
          if g =? limit then Ret (g, m, set_fail s)
          else let '(c, s) := get s in
               do m <- store m (off + g) c;
               get_chars_loop fuel' pred limit m off (g + 1) s
        else Ret (g, m, s)
      else Ret (g, m, s)
  end.
(** src/http.h:334-348: get_chars(predicate, buffer + off, size) *)
Definition get_chars (pred : Z -> bool) (m : list Z) (off size : Z) (s : hrd) : hres (Z * list Z * hrd) :=
  do (g, m, s) <- get_chars_loop (S (S (length (hin s)))) pred (wrap_u64 (size - 1)) m off 0 s;
  do m <- store m (off + g) 0;
  Ret (g, m, s).
(** The loop of src/http.h:355-358 *)
Fixpoint skip_chars_loop (fuel : nat) (pred : Z -> bool) (g : Z) (s : hrd) : hres (Z * hrd) :=
  match fuel with
  | O => Loop
  | S fuel' =>
      if is_good s then
        let '(ch, s) := peek_char s in
        if pred ch then skip_chars_loop fuel' pred (g + 1) (snd (get s)) else Ret (g, s)
      else Ret (g, s)
  end.
(** src/http.h:352-361: skip_chars *)
Definition skip_chars (pred : Z -> bool) (s : hrd) : hres (Z * hrd) :=
  skip_chars_loop (S (S (length (hin s)))) pred 0 s.
(** src/http.h:298-300: skip_spaces *)
Definition skip_spaces (s : hrd) : hres (Z * hrd) := skip_chars is_space s.
(** src/http.h:304-318: skip_crlf *)
Definition skip_crlf (s : hrd) : hrd :=
  let '(ch, s) := get_char s in
  if negb (ch =? 13) then set_fail s
  else let '(ch, s) := get_char s in
       if negb (ch =? 10) then set_fail s else s.
(** The loop of src/http.h:325-327, [room] = size - gcount *)
Fixpoint get_bytes (m : list Z) (g : Z) (room : nat) (s : hrd) : hres (Z * list Z * hrd) :=
  match room with
  | O => Ret (g, m, s)
  | S room' =>
      if is_good s then
        let '(c, s) := get s in
        do m <- store m g c;
        get_bytes m (g + 1) room' s
      else Ret (g, m, s)
  end.

(** The literal at src/http.h:119 *)
Definition lit_http : list Z := [72; 84; 84; 80].
(** src/http.h:118-121: the letters before the slash *)
Definition protocol_name (m : list Z) (size : Z) (s : hrd) : hres (Z * list Z * hrd) :=
  do (g, m, s) <- get_chars is_alpha m 0 size s;
  if negb (g =? 4) then Ret (g, m, set_bad s)
  else match are_equal_i_n (Some (lit_http ++ [0])) (Some m) 4 with
       | Some true => Ret (g, m, s)
       | Some false => Ret (g, m, set_bad s)
       | None => Oob
       end.
(** src/http.h:127-139 and 145-157: a given character and the digits after it.  The stream is
    good on entry of the inner block; [set_fail] before is from 123-125, 141-143. *)
Definition protocol_part (sep : Z) (m : list Z) (size g : Z) (s : hrd) : hres (Z * list Z * hrd) :=
  let s := if g =? wrap_u64 (size - 1) then set_fail s else s in
  do (g, m, s) <-
    (if is_good s then
       let '(ch, s) := get_char s in
       if ch =? sep then do m <- store m g sep; Ret (g + 1, m, s) else Ret (g, m, set_bad s)
     else Ret (g, m, s));
  if is_good s then
    do (n, m, s) <- get_chars is_digit m g (wrap_u64 (size - g)) s;
    Ret (g + n, m, s)
  else Ret (g, m, s).
(** src/http.h:110-166: get_protocol, after assert_next *)
Definition get_protocol (m : list Z) (s : hrd) : hres (Z * list Z * hrd) :=
  let size := zlen m in
  do (g, m, s) <- protocol_name m size s;
  do (g, m, s) <- protocol_part 47 m size g s;
  do (g, m, s) <- protocol_part 46 m size g s;
  do (_, s) <- skip_spaces s;
  Ret (g, m, s).

(** src/http.h:170-202: get_header_name *)
Definition get_header_name (m : list Z) (s : hrd) : hres (list Z * hrd) :=
  do (g, m, s) <- get_chars http_is_token m 0 (zlen m) s;
  do (_, s) <- skip_spaces s;
  if g =? 0 then Ret (m, set_gstate (skip_crlf s) g body)
  else
    let s := if is_good s then let '(ch, s) := get_char s in if negb (ch =? 58) then set_bad s else s else s in
    do (_, s) <- skip_spaces s;
    Ret (m, set_gstate s g header_value).

(** src/http.h:218-232: the inner loop; the boolean says that it returned from the function (222-224). *)
Fixpoint value_words (fuel : nat) (size : Z) (m : list Z) (g : Z) (s : hrd) : hres (bool * Z * list Z * hrd) :=
  match fuel with
  | O => Loop
  | S fuel' =>
      do (sp, s) <- skip_spaces s;
      (* gcount > 0 && sp > 0 && is_abcprint(peek_char()) *)
      let '(more, s) := if (0 <? g) && (0 <? sp) then let '(ch, s) := peek_char s in (is_abcprint ch, s) else (false, s) in
      if more && (g =? wrap_u64 (size - 1)) then Ret (true, g, m, set_fail s)
      else
        do (g, m) <- (if more then do m <- store m g 32; Ret (g + 1, m) else Ret (g, m));
        do (n, m, s) <- get_chars is_abcprint m g (wrap_u64 (size - g)) s;
        if is_good s && (0 <? n) then value_words fuel' size m (g + n) s else Ret (false, g + n, m, s)
  end.
(** src/http.h:217-235: the outer loop, [fuel'] for the inner one *)
Fixpoint value_lines (fuel fuel' : nat) (size : Z) (m : list Z) (g : Z) (s : hrd) : hres (bool * Z * list Z * hrd) :=
  match fuel with
  | O => Loop
  | S fuel0 =>
      do (ret, g, m, s) <- value_words fuel' size m g s;
      if ret then Ret (true, g, m, s)
      else
        let s := skip_crlf s in
        if is_good s then
          let '(ch, s) := peek_char s in
          if is_space ch then value_lines fuel0 fuel' size m g s else Ret (false, g, m, s)
        else Ret (false, g, m, s)
  end.
(** src/http.h:206-245: get_header_value *)
Definition get_header_value (m : list Z) (s : hrd) : hres (list Z * hrd) :=
  let fuel := S (S (length (hin s))) in
  do (ret, g, m, s) <- value_lines fuel fuel (zlen m) m 0 s;
  if ret then Ret (m, set_gstate s g header_value)
  else do (_, s) <- skip_spaces s; Ret (m, set_gstate s g header_name).
(** src/http.h:249-264: get_body *)
Definition get_body (m : list Z) (s : hrd) : hres (list Z * hrd) :=
  do (g, m, s) <- get_bytes m 0 (length m) s;
  Ret (m, set_gstate s g body).

(** src/http.h:735-752: get_method *)
Definition get_method (m : list Z) (s : hrd) : hres (list Z * hrd) :=
  do (g, m, s) <- get_chars http_is_token m 0 (zlen m) s;
  do (_, s) <- skip_spaces s;
  Ret (m, set_gstate s g resource).
(** src/http.h:756-775: get_resource *)
Definition get_resource (m : list Z) (s : hrd) : hres (list Z * hrd) :=
  do (g, m, s) <- get_chars is_abcprint m 0 (wrap_u64 (zlen m - 1)) s;
  do m <- store m (g + 1) 0;
  do (_, s) <- skip_spaces s;
  Ret (m, set_gstate s g protocol).
(** src/http.h:779-785 and 938-942: get_protocol of the request and of the response *)
Definition get_protocol_of (sd : side) (m : list Z) (s : hrd) : hres (list Z * hrd) :=
  do (g, m, s) <- get_protocol m s;
  match sd with
  | request => Ret (m, set_gstate (skip_crlf s) g header_name)
  | response => Ret (m, set_gstate s g status_code)
  end.
(** src/http.h:945-962: get_status_code *)
Definition get_status_code (m : list Z) (s : hrd) : hres (list Z * hrd) :=
  do (g, m, s) <- get_chars is_digit m 0 (zlen m) s;
  do (_, s) <- skip_spaces s;
  Ret (m, set_gstate s g reason_phrase).
(** src/http.h:966-984: get_reason_phrase *)
Definition get_reason_phrase (m : list Z) (s : hrd) : hres (list Z * hrd) :=
  do (g, m, s) <- get_chars is_abcprint_or_space m 0 (zlen m) s;
  do (_, s) <- skip_spaces s;
  Ret (m, set_gstate (skip_crlf s) g header_name).

(** The calls of a reader, named by the item they read: the public members of http_istream
    (src/i/http.i.h:146-166), http_request_istream and http_response_istream. *)
Definition get_item (sd : side) (it : item) (m : list Z) (s : hrd) : hres (list Z * hrd) :=
  match it with
  | method => get_method m s
  | resource => get_resource m s
  | protocol => get_protocol_of sd m s
  | status_code => get_status_code m s
  | reason_phrase => get_reason_phrase m s
  | header_name => get_header_name m s
  | header_value => get_header_value m s
  | body => get_body m s
  end.
(** Each starts with assert_next (src/http.h:65-72) *)
Definition read_call (sd : side) (it : item) (m : list Z) (s : hrd) : hres (list Z * hrd) :=
  if item_eqb (hnext s) it then get_item sd it m s else Throw.
(** src/i/http.i.h:451, 526, 584, 642: Which members a class has. *)
Definition has_item (sd : side) (it : item) : bool :=
  match sd, it with
  | request, (status_code | reason_phrase) => false
  | response, (method | resource) => false
  | _, _ => true
  end.
(** src/http.h:716-722, 919-925: the first item *)
Definition first_item (sd : side) : item := match sd with request => method | response => protocol end.
(** src/http.h:716-722, 919-925 *)
Definition http_reader (sd : side) (l : list Z) : hrd :=
  {| hin := l; heof := false; hfail := false; hbad := false; hnext := first_item sd; hgc := 0 |}.

(** ** http_ostream *)
(** src/i/http.i.h:284 *)
Record hwr := { wout : list Z; wroom : option nat;   (* what the sink still accepts, None = everything *)
                wbad : bool;                           (* some error bit is set *)
                wnext : item;
                wltr : bool }.                         (* operands of + evaluated from left to right? *)
(** src/http.h:668: std::ostream::put on a good stream *)
Definition w_bad (w : hwr) : hwr := {| wout := wout w; wroom := wroom w; wbad := true; wnext := wnext w; wltr := wltr w |}.
(** src/http.h:668 *)
Definition put1 (w : hwr) (c : Z) : hwr :=
  match wroom w with
  | Some O => w_bad w
  | Some (S n) => {| wout := wout w ++ [c]; wroom := Some n; wbad := wbad w; wnext := wnext w; wltr := wltr w |}
  | None => {| wout := wout w ++ [c]; wroom := None; wbad := wbad w; wnext := wnext w; wltr := wltr w |}
  end.
(** src/http.h:408-411: set_pstate (the sink's flush does nothing visible) *)
Definition set_pstate (w : hwr) (n : item) : hwr :=
  {| wout := wout w; wroom := wroom w; wbad := wbad w; wnext := n; wltr := wltr w |}.
(** src/http.h:668-674: put_char *)
Definition put_char (w : hwr) (c : Z) : hwr := if wbad w then w else put1 w c.
(** src/http.h:656-664: put_chars with its count; [l] = the size bytes of the argument *)
Fixpoint put_chars (pred : Z -> bool) (w : hwr) (l : list Z) : Z * hwr :=
  match l with
  | [] => (0, w)
  | c :: l' => if wbad w then (0, w)
               else if pred c then let '(n, w) := put_chars pred (put1 w c) l' in (n + 1, w)
               else (0, w)
  end.
(** src/http.h:644-652: put_bytes *)
Definition put_bytes (w : hwr) (l : list Z) : Z * hwr := put_chars (fun _ => true) w l.
(** src/http.h:602-604: put_crlf; C++ does not fix the order of the two calls *)
Definition put_crlf (w : hwr) : hwr :=
  if wltr w then put_char (put_char w 13) 10 else put_char (put_char w 10) 13.
(** src/http.h:608-610: put_space *)
Definition put_space (w : hwr) : hwr := put_char w 32.

(** The literal at src/http.h:430-434 *)
Definition lit_http_slash : list Z := [72; 84; 84; 80; 47].
(** src/http.h:437-445 and 457-465: digits, at least one *)
Definition put_protocol_digits (w : hwr) (l : list Z) : hwr * list Z :=
  if negb (wbad w) && (0 <? zlen l) then
    let '(n, w) := put_chars is_digit w l in
    if n =? 0 then (w_bad w, l) else (w, drop n l)
  else (w, l).
(** src/http.h:447-455: the dot *)
Definition put_protocol_dot (w : hwr) (l : list Z) : hwr * list Z :=
  if wbad w then (w, l)
  else match l with
       | [] => (w, l)
       | c :: l' => if negb (c =? 46) then (w_bad w, l) else (put1 w 46, l')
       end.
(** src/http.h:418-478: put_protocol after assert_next; the list is what is left of the argument *)
Definition put_protocol (w : hwr) (buf : list Z) : hwr :=
  let '(w, l) :=
    if (zlen buf <? 5) || negb (match are_equal_i_n (Some buf) (Some (lit_http_slash ++ [0])) 5 with Some b => b | None => false end)
    then (w_bad w, buf)
    else let '(n, w) := put_bytes w lit_http_slash in (w, drop n buf) in
  let '(w, l) := put_protocol_digits w l in
  let '(w, l) := put_protocol_dot w l in
  let '(w, l) := put_protocol_digits w l in
  if negb (wbad w) && (0 <? zlen l) then w_bad w else w.

(** src/http.h:482-512: put_header_name *)
Definition put_header_name (w : hwr) (buf : list Z) : hwr :=
  let '(n, w) := put_chars http_is_token w buf in
  let w := if negb (wbad w) && (n <? zlen buf) then w_bad w else w in
  let w := if negb (wbad w) then put_space (put1 w 58) else w in
  set_pstate w header_value.

(** src/http.h:678-694: skip_spaces_in_header_value *)
Fixpoint skip_spaces_in_header_value (l : list Z) : Z :=
  match l with
  | [] => 0
  | c :: l1 =>
      if is_space c then skip_spaces_in_header_value l1 + 1
      else match l1 with
           | c1 :: l2 =>
               match l2 with
               | c2 :: l3 =>
                   match l3 with
                   | [] => 0
                   | _ :: _ => if (c =? 13) && (c1 =? 10) && is_space c2 then skip_spaces_in_header_value l3 + 3 else 0
                   end
               | [] => 0
               end
           | [] => 0
           end
  end.
(** src/http.h:529-547: the loop of put_header_value; [l] = buffer from pcount on, [started] = pcount > 0 *)
Fixpoint put_value_loop (fuel : nat) (started : bool) (l : list Z) (w : hwr) : hres hwr :=
  match fuel with
  | O => Loop
  | S fuel' =>
      let sp := skip_spaces_in_header_value l in
      let l1 := drop sp l in
      let w := if started && (0 <? sp) && (0 <? zlen l1) then put_space w else w in
      let started := started || (0 <? sp) in
      let '(n, w) :=
        match l1 with
        | [] => (0, w)
        | c :: _ => if is_abcprint c then put_chars is_abcprint w l1 else (0, w_bad w)
        end in
      let l2 := drop n l1 in
      let started := started || (0 <? n) in
      if negb (wbad w) && (0 <? zlen l2) then put_value_loop fuel' started l2 w else Ret w
  end.
(** src/http.h:516-556: put_header_value *)
Definition put_header_value (w : hwr) (buf : list Z) : hres hwr :=
  do w <- put_value_loop (S (length buf)) false buf w;
  Ret (set_pstate (put_crlf w) header_name).
(** src/http.h:560-575: end_headers *)
Definition end_headers (w : hwr) : hwr := set_pstate (put_crlf w) body.
(** src/http.h:579-598: put_body *)
Definition put_body (w : hwr) (buf : list Z) : hwr := set_pstate (snd (put_bytes w buf)) body.
(** src/http.h:853-874: put_method *)
Definition put_method (w : hwr) (buf : list Z) : hwr := set_pstate (put_space (snd (put_chars http_is_token w buf))) resource.
(** src/http.h:878-899: put_resource *)
Definition put_resource (w : hwr) (buf : list Z) : hwr := set_pstate (put_space (snd (put_chars is_abcprint w buf))) protocol.
(** src/http.h:903-909 and 1013-1019: put_protocol of the request and of the response *)
Definition put_protocol_of (sd : side) (w : hwr) (buf : list Z) : hwr :=
  let w := put_protocol w buf in
  match sd with
  | request => set_pstate (put_crlf w) header_name
  | response => set_pstate (put_space w) status_code
  end.
(** src/http.h:1023-1044: put_status_code *)
Definition put_status_code (w : hwr) (buf : list Z) : hwr := set_pstate (put_space (snd (put_chars is_digit w buf))) reason_phrase.
(** src/http.h:1048-1073: put_reason_phrase; a null pointer is the empty list *)
Definition put_reason_phrase (w : hwr) (buf : list Z) : hwr :=
  set_pstate (put_crlf (snd (put_chars is_abcprint_or_space w buf))) header_name.

(** src/http.h:482-579, 853-903, 1013-1048: The calls of a writer: items, and end_headers. *)
Inductive wcall := Put (it : item) | End_headers.
(** src/http.h:482-579, 853-903, 1013-1048 *)
Definition wcall_item (c : wcall) : item := match c with Put it => it | End_headers => header_name end.
(** src/http.h:482-579, 853-903, 1013-1048 *)
Definition put_call (sd : side) (c : wcall) (buf : list Z) (w : hwr) : hres hwr :=
  match c with
  | Put method => Ret (put_method w buf)
  | Put resource => Ret (put_resource w buf)
  | Put protocol => Ret (put_protocol_of sd w buf)
  | Put status_code => Ret (put_status_code w buf)
  | Put reason_phrase => Ret (put_reason_phrase w buf)
  | Put header_name => Ret (put_header_name w buf)
  | Put header_value => put_header_value w buf
  | Put body => Ret (put_body w buf)
  | End_headers => Ret (end_headers w)
  end.
(** Each starts with assert_next (src/http.h:65-72) *)
Definition write_call (sd : side) (c : wcall) (buf : list Z) (w : hwr) : hres hwr :=
  if item_eqb (wnext w) (wcall_item c) then put_call sd c buf w else Throw.
(** src/http.h:832-838, 994-1000 *)
Definition http_writer (sd : side) (room : option nat) (ltr : bool) : hwr :=
  {| wout := []; wroom := room; wbad := false; wnext := first_item sd; wltr := ltr |}.

(** ** The query string *)
(** src/http.h:793, 799: std::strchr(buffer + i, c): the index found; reading past the allocation is [Oob]. *)
Fixpoint strchr (m : list Z) (c : Z) (i : Z) : hres (option Z) :=
  match m with
  | [] => Oob
  | x :: m' => if x =? c then Ret (Some i) else if x =? 0 then Ret None else strchr m' c (i + 1)
  end.
(** src/http.h:808-819: std::strlen(buffer) *)
Fixpoint strlen (m : list Z) : hres Z :=
  match m with
  | [] => Oob
  | x :: m' => if x =? 0 then Ret 0 else do n <- strlen m'; Ret (n + 1)
  end.
(** src/http.h:789-820: buffer[i] read *)
Definition load (m : list Z) (i : Z) : hres Z :=
  match read_at m i 1 with Some [c] => Ret c | _ => Oob end.
(** src/http.h:795-801: the loop of split_resource; [p] = param - buffer, None = nullptr *)
Fixpoint split_loop (fuel : nat) (m : list Z) (size : Z) (p : option Z) : hres (list Z) :=
  match fuel with
  | O => Loop
  | S fuel' =>
      match p with
      | None => Ret m
      | Some p =>
          if p <? size then
            do m <- store m p 0;
            let p := p + 1 in
            if p <? size then
              do c <- load m p;
              if negb (c =? 0) then do q <- strchr (drop p m) 38 p; split_loop fuel' m size q
              else split_loop fuel' m size (Some p)
            else split_loop fuel' m size (Some p)
          else Ret m
      end
  end.
(** src/http.h:789-802: split_resource(buffer, size); [m] = the allocation *)
Definition split_resource (m : list Z) (size : Z) : hres (list Z) :=
  do p <- strchr m 63 0;
  split_loop (S (S (length m))) m size p.
(** src/http.h:814: std::strncmp(a, b, n) == 0 *)
Fixpoint strncmp0 (n : nat) (a b : list Z) : hres bool :=
  match n with
  | O => Ret true
  | S n' => match a, b with
            | x :: a', y :: b' => if negb (x =? y) then Ret false else if x =? 0 then Ret true else strncmp0 n' a' b'
            | _, _ => Oob
            end
  end.
(** src/http.h:813-821: the loop of get_resource_parameter; [name] includes its null *)
Fixpoint param_loop (fuel : nat) (m : list Z) (size : Z) (name : list Z) (len : Z) (p : Z) : hres (option Z) :=
  match fuel with
  | O => Loop
  | S fuel' =>
      if p <? size then
        do c <- load m p;
        if negb (c =? 0) then
          do eq <- strncmp0 (Z.to_nat len) (drop p m) name;
          do found <- (if eq then do c <- load m (p + len); Ret (c =? 61) else Ret false);
          if found then Ret (Some (p + len + 1))
          else do n <- strlen (drop p m); param_loop fuel' m size name len (p + n + 1)
        else Ret None
      else Ret None
  end.
(** src/http.h:806-824: get_resource_parameter *)
Definition get_resource_parameter (m : list Z) (size : Z) (name : list Z) : hres (option Z) :=
  do len <- strlen name;
  do n <- strlen m;
  param_loop (S (length m)) m size name len (n + 1).
