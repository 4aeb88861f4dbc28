(** What callers do with the HTTP streams, and what C10-C15 say about it: the vocabulary of the
    theorems in Http_Props.v.  Only the calls of the model (read_call, write_call) are used. *)

From Coq Require Import ZArith List Bool.
From Verif Require Import Base ListMem Http_Model Http_Spec.
Import ListNotations.
Open Scope Z_scope.

(** ** C10: messages *)
(** A caller making a list of calls, one after the other; the reader's caller keeps the gcount
    characters of each buffer. *)
Fixpoint write_calls (sd : side) (cs : list (wcall * list Z)) (w : hwr) : hres hwr :=
  match cs with
  | [] => Ret w
  | (c, buf) :: cs => do w <- write_call sd c buf w; write_calls sd cs w
  end.
Fixpoint read_calls (sd : side) (cs : list (item * list Z)) (s : hrd) : hres (list (list Z) * hrd) :=
  match cs with
  | [] => Ret ([], s)
  | (it, m) :: cs => do (m', s1) <- read_call sd it m s;
                     do (l, s2) <- read_calls sd cs s1;
                     Ret (take (hgc s1) m' :: l, s2)
  end.

Record header := { h_name : list Z; h_value : list Z; h_words : list (list Z) }.
Definition header_ok (h : header) : Prop := header_name_text (h_name h) /\ value_text true (h_value h) (h_words h).
Definition start_line_puts (sd : side) (a b c : list Z) : list (wcall * list Z) :=
  match sd with
  | request => [(Put method, a); (Put resource, b); (Put protocol, c)]
  | response => [(Put protocol, a); (Put status_code, b); (Put reason_phrase, c)]
  end.
Definition start_line_ok (sd : side) (a b c : list Z) : Prop :=
  match sd with
  | request => Forall token_char a /\ (b <> [] /\ Forall printable b) /\ protocol_text c
  | response => protocol_text a /\ (b <> [] /\ Forall digit b) /\ reason_text c
  end.
Definition message_puts (sd : side) (a b c : list Z) (hs : list header) (bs : list (list Z)) : list (wcall * list Z) :=
  start_line_puts sd a b c
  ++ flat_map (fun h => [(Put header_name, h_name h); (Put header_value, h_value h)]) hs
  ++ [(End_headers, [])] ++ map (fun b => (Put body, b)) bs.
Definition start_line_gets (sd : side) (a b c : list Z) : list (item * list Z) :=
  match sd with
  | request => [(method, a); (resource, b); (protocol, c)]
  | response => [(protocol, a); (status_code, b); (reason_phrase, c)]
  end.
Definition message_gets (sd : side) (a b c : list Z) (hs : list (list Z * list Z)) (e : list Z) (bs : list (list Z)) : list (item * list Z) :=
  start_line_gets sd a b c
  ++ flat_map (fun h => [(header_name, fst h); (header_value, snd h)]) hs
  ++ [(header_name, e)] ++ map (fun b => (body, b)) bs.

(** a buffer with room for the text and [extra] more bytes *)
Definition room_for (t : list Z) (extra : Z) (m : list Z) : Prop := zlen t + extra <= zlen m < 2 ^ 64.

Definition start_room (sd : side) (a b c ba bb bc : list Z) : Prop :=
  room_for a 1 ba /\ room_for b (match sd with request => 2 | response => 1 end) bb /\ room_for c 1 bc.

(** ** C11: lines *)
(** The end of a line as the compiler orders it. *)
Definition eol (w : hwr) : list Z := if wltr w then [13; 10] else [10; 13].
(** Characters of a line; a tab only in a reason phrase. *)
Definition line_char (reason : bool) (c : Z) : Prop := 32 <= c <= 126 \/ (reason = true /\ c = 9).
(** The calls that end a line. *)
Definition ends_line (sd : side) (c : wcall) : bool :=
  match sd, c with
  | request, Put protocol | response, Put reason_phrase | _, Put header_value | _, End_headers => true
  | _, _ => false
  end.
Definition is_reason (c : wcall) : bool := match c with Put reason_phrase => true | _ => false end.

(** ** C12: buffers *)
(** The call stored the text [t], which is gcount long, and its null(s) at the beginning of the buffer, and nothing else. *)
Definition text_char (c : Z) : Prop := 32 <= c <= 126 \/ c = 9.
Definition fits_in (it : item) (m0 : list Z) (r : hres (list Z * hrd)) : Prop :=
  exists t s', r = Ret (t ++ (if item_eqb it resource then [0; 0] else [0])
                          ++ drop (zlen t + (if item_eqb it resource then 2 else 1)) m0, s') /\
    hgc s' = zlen t /\ zlen t + (if item_eqb it resource then 2 else 1) <= zlen m0 /\ Forall text_char t.

(** ** C13: order *)
Definition begins {A} (a b : list A) : Prop := exists c, b = a ++ c.
Definition start_line_items (sd : side) : list item :=
  match sd with request => [method; resource; protocol] | response => [protocol; status_code; reason_phrase] end.
(** All the calls that write a message. *)
Definition message_calls (sd : side) (headers bodies : nat) : list wcall :=
  map Put (start_line_items sd) ++ concat (repeat [Put header_name; Put header_value] headers) ++ [End_headers] ++ repeat (Put body) bodies.
(** What a caller of a reader sees: the item read, the number of characters, and whether the stream is still good. *)
Definition seen : Type := item * Z * bool.
Definition seen_item (e : seen) : item := fst (fst e).
(** One header: a name that is not empty and its value; a read of the value that failed may be repeated. *)
Definition header_seen (h : list seen) : Prop :=
  exists n good vs v, n <> 0 /\ h = [(header_name, n, good)] ++ vs ++ [v] /\
    Forall (fun e => seen_item e = header_value /\ snd e = false) vs /\ seen_item v = header_value.
(** All the reads of a message: the headers end with an empty name. *)
Definition message_seen (sd : side) (t : list seen) : Prop :=
  exists start hs good bs, map seen_item start = start_line_items sd /\ Forall header_seen hs /\ Forall (fun e => seen_item e = body) bs /\
    t = start ++ concat hs ++ [(header_name, 0, good)] ++ bs.
(** Some calls of a reader. *)
Inductive reads (sd : side) : hrd -> list seen -> hrd -> Prop :=
| reads_none : forall s, reads sd s [] s
| reads_one : forall s it m m' s1 t s2, 2 <= zlen m < 2 ^ 64 -> read_call sd it m s = Ret (m', s1) -> reads sd s1 t s2 ->
    reads sd s ((it, hgc s1, is_good s1) :: t) s2.

(** ** C15: queries *)
(** A parameter of a query, and a path: C15's hypotheses *)
Definition param_text (p : list Z) : Prop := p <> [] /\ Forall (fun c => c <> 0 /\ c <> 38) p.
Definition path_text (p : list Z) : Prop := Forall (fun c => c <> 0 /\ c <> 63) p.
(** The resource after split_resource: strings one after the other, and an empty one at the end. *)
Definition strings (l : list (list Z)) : list Z := concat (map (fun p => p ++ [0]) l) ++ [0].

(** The answer points at the value. *)
Definition found_at (m : list Z) (r : option (list Z)) (o : option Z) : Prop :=
  match r, o with
  | None, None => True
  | Some v, Some i => exists a k, m = a ++ v ++ 0 :: k /\ i = zlen a
  | _, _ => False
  end.

(** ** C62: what a reader accepts *)
(** HTTP in capital or small letters. *)
Definition http_letters (h : list Z) : Prop := Forall2 (fun c d => c = d \/ c = d + 32) h [72; 84; 84; 80].
Definition ends_with (P : Z -> Prop) (v : list Z) : Prop := exists v0 c, v = v0 ++ [c] /\ P c.
(** [squeezed v t]: [v] is made of printable characters and white space (blanks and folds), and [t]
    is [v] with every run of white space between printable characters replaced by one space, and none
    at the ends. *)
Inductive squeezed : list Z -> list Z -> Prop :=
| squeezed_nil : squeezed [] []
| squeezed_white : forall v t g, squeezed v t -> gap g -> squeezed (v ++ g) t
| squeezed_char : forall v t c, squeezed v t -> printable c -> t = [] \/ ends_with printable v -> squeezed (v ++ [c]) (t ++ [c])
| squeezed_next : forall v t c, squeezed v t -> printable c -> t <> [] -> ends_with blank v -> squeezed (v ++ [c]) (t ++ [32; c]).
(** The text [t] was read, and [u] was taken from the input for it. *)
Definition accepted_text (sd : side) (it : item) (t u : list Z) : Prop :=
  match it with
  | method => exists sp, u = t ++ sp /\ Forall token_char t /\ Forall blank sp
  | resource => exists sp, u = t ++ sp /\ Forall printable t /\ Forall blank sp
  | protocol => exists h a b sp, t = h ++ [47] ++ a ++ [46] ++ b /\ http_letters h /\ Forall digit a /\ Forall digit b /\
      Forall blank sp /\ u = t ++ sp ++ match sd with request => CRLF | response => [] end
  | status_code => exists sp, u = t ++ sp /\ Forall digit t /\ Forall blank sp
  | reason_phrase => exists sp, u = t ++ sp ++ CRLF /\ Forall (fun c => printable c \/ blank c) t /\ Forall blank sp
  | header_name => (exists sp sp', t <> [] /\ u = t ++ sp ++ [58] ++ sp' /\ Forall token_char t /\ Forall blank sp /\ Forall blank sp') \/
                   (exists sp, t = [] /\ u = sp ++ CRLF /\ Forall blank sp)
  | header_value => exists v, u = v ++ CRLF /\ squeezed v t
  | body => u = t
  end.
(** The call stored [t] (see [fits_in]) and took [u] from the input. *)
Definition took (sd : side) (it : item) (m0 m' : list Z) (s s' : hrd) : Prop :=
  exists t u, m' = t ++ (if item_eqb it resource then [0; 0] else [0]) ++ drop (zlen t + (if item_eqb it resource then 2 else 1)) m0 /\
    hgc s' = zlen t /\ hin s = u ++ hin s' /\ is_good s = true /\ accepted_text sd it t u.
(** What put_protocol takes after the slash: a version, or the beginning of one. *)
Definition version_begin (r : list Z) : Prop :=
  r = [] \/ exists a, a <> [] /\ Forall digit a /\ (r = a \/ exists b, Forall digit b /\ r = a ++ [46] ++ b).
