(** Model of vmem_basic_string_streambuf<char> (src/x/vmem_string.x.h:36-111), on the model of containers; a string
    is a vmem_list of chars (src/i/vmem_string.i.h:44-54).

    The get and put areas of std::basic_streambuf hold one char each.  A char is its byte; [sgn] tells whether char is
    a signed type (x86) or not (ARM).  Stream buffers are used through the unformatted functions of
    std::basic_streambuf, which are written out as the standard defines them; sputn is a sequence of sputc. *)

From Coq Require Import ZArith List Bool.
From Verif Require Import Base Cache_Model Linked_Model Cont_Model.
Import ListNotations.
Open Scope Z_scope.

(** std::char_traits<char>::eof() (src/x/vmem_string.x.h:79) *)
Definition eof : Z := -1.
(** src/i/vmem_string.i.h:44: a vmem_list of chars *)
Definition string_type : ctype := list_type (page_capacity 1).
(** src/i/vmem_string.i.h:160-165: _get_itr, _get_ch, _put_ch; [g_have] is gptr() < egptr(), [p_have] is
    pptr() == epptr() *)
Record sbuf := mkSB { g_itr : citr; g_ch : Z; g_have : bool; p_ch : Z; p_have : bool }.
(** src/x/vmem_string.x.h:36-50: the constructor *)
Definition new_sbuf : sbuf := mkSB no_itr 0 false 0 false.

Section Streambuf.
Variable sgn : bool.
Variable c : Z.
Implicit Types (m : mem Z) (b : sbuf).

(** the conversion of a char to int (src/x/vmem_string.x.h:86) *)
Definition char_to_int (x : Z) : Z := if sgn then schar x else x.
(** src/x/vmem_string.x.h:72-87; an iterator that cannot be read throws *)
Definition underflow m b : cres (sbuf * Z) :=
  let i := if citr_eqb (g_itr b) no_itr then c_begin c m else g_itr b in
  if can_deref i then
    match c_deref m i with
    | Some x => COk (mkSB (c_next c m i) x true (p_ch b) (p_have b), char_to_int x)
    | None => CThrow
    end
  else COk (mkSB i (g_ch b) (g_have b) (p_ch b) (p_have b), eof).
(** std::basic_streambuf::sbumpc() and the default uflow(), used with src/x/vmem_string.x.h:72-87 *)
Definition sbumpc m b : cres (sbuf * Z) :=
  if g_have b then COk (mkSB (g_itr b) (g_ch b) false (p_ch b) (p_have b), g_ch b)
  else cbind (underflow m b) (fun '(b, r) =>
    if r =? eof then COk (b, eof) else COk (mkSB (g_itr b) (g_ch b) false (p_ch b) (p_have b), g_ch b)).
(** src/x/vmem_string.x.h:90-97; the results of push_back() are not looked at *)
Definition overflow m b (x : Z) : cres (mem Z * sbuf * Z) :=
  cbind (c_push_back string_type c m (p_ch b)) (fun '(m, _) =>
  cbind (c_push_back string_type c m x) (fun '(m, _) =>
    COk (m, mkSB (g_itr b) (g_ch b) (g_have b) (p_ch b) false, x))).
(** std::basic_streambuf::sputc(), used with src/x/vmem_string.x.h:90-97 *)
Definition sputc m b (x : Z) : cres (mem Z * sbuf * Z) :=
  if p_have b then overflow m b x else COk (m, mkSB (g_itr b) (g_ch b) (g_have b) x true, x).
(** src/x/vmem_string.x.h:100-108 *)
Definition sync m b : cres (mem Z * sbuf * Z) :=
  cbind (if p_have b then cbind (c_push_back string_type c m (p_ch b)) (fun '(m, _) => COk m) else COk m) (fun m =>
    COk (m, mkSB (g_itr b) (g_ch b) (g_have b) (p_ch b) false, 0)).
End Streambuf.
