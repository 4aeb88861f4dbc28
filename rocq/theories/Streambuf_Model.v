(** Model of src/buffer_streambuf.h: a std::streambuf over two ranges of memory.
    The class only sets the get and put areas (lines 115-124) and inherits the
    default underflow/overflow, which report end-of-file. *)

From Coq Require Import ZArith List Bool.
From Verif Require Import Base.
Import ListNotations.
Open Scope Z_scope.

(** src/buffer_streambuf.h:33-113: Memory: a byte at every address. *)
Definition mem := Z -> Z.
(** src/buffer_streambuf.h:33-113 *)
Definition mset (m : mem) (a v : Z) : mem := fun x => if x =? a then v else m x.

(** The pointers kept by std::streambuf and the four ranges kept by the class
    (src/buffer_streambuf.h:78-82). *)
Record sbuf := { sb_mem : mem; eback : Z; gptr : Z; egptr : Z; pbase : Z; pptr : Z; epptr : Z;
                 get_begin : Z; get_end : Z; put_begin : Z; put_end : Z }.

(** src/buffer_streambuf.h:115-124: reset, called by the constructors (98-107). *)
Definition sb_reset (m : mem) (g0 g1 p0 p1 : Z) : sbuf :=
  {| sb_mem := m; eback := g0; gptr := g0; egptr := g1; pbase := p0; pptr := p0; epptr := p1;
     get_begin := g0; get_end := g1; put_begin := p0; put_end := p1 |}.

(** src/buffer_streambuf.h:110-113: the move constructor. *)
Definition sb_move (s : sbuf) : sbuf := sb_reset (sb_mem s) (get_begin s) (get_end s) (put_begin s) (put_end s).

(** src/buffer_streambuf.h:110-113: std::streambuf operations, with the default virtual functions. *)
Definition with_g (s : sbuf) (g : Z) : sbuf :=
  {| sb_mem := sb_mem s; eback := eback s; gptr := g; egptr := egptr s; pbase := pbase s; pptr := pptr s; epptr := epptr s;
     get_begin := get_begin s; get_end := get_end s; put_begin := put_begin s; put_end := put_end s |}.
(** src/buffer_streambuf.h:110-113 *)
Definition with_p (s : sbuf) (m : mem) (p : Z) : sbuf :=
  {| sb_mem := m; eback := eback s; gptr := gptr s; egptr := egptr s; pbase := pbase s; pptr := p; epptr := epptr s;
     get_begin := get_begin s; get_end := get_end s; put_begin := put_begin s; put_end := put_end s |}.

(** src/buffer_streambuf.h:110-113: sgetc: the current character, or EOF (None). *)
Definition sgetc (s : sbuf) : option Z := if gptr s <? egptr s then Some (sb_mem s (gptr s)) else None.
(** src/buffer_streambuf.h:110-113: sbumpc *)
Definition sbumpc (s : sbuf) : sbuf * option Z :=
  if gptr s <? egptr s then (with_g s (gptr s + 1), Some (sb_mem s (gptr s))) else (s, None).
(** src/buffer_streambuf.h:110-113: sungetc: default pbackfail fails. *)
Definition sungetc (s : sbuf) : sbuf * option Z :=
  if eback s <? gptr s then (with_g s (gptr s - 1), Some (sb_mem s (gptr s - 1))) else (s, None).
(** src/buffer_streambuf.h:110-113: sputc *)
Definition sputc (s : sbuf) (c : Z) : sbuf * option Z :=
  if pptr s <? epptr s then (with_p s (mset (sb_mem s) (pptr s) c) (pptr s + 1), Some c) else (s, None).
(** src/buffer_streambuf.h:110-113: xsputn: as many as fit; the count. *)
Fixpoint sputn (s : sbuf) (w : list Z) : sbuf * Z :=
  match w with
  | [] => (s, 0)
  | c :: w' => match sputc s c with
               | (s', Some _) => let '(s'', n) := sputn s' w' in (s'', n + 1)
               | (s', None) => (s', 0)
               end
  end.
(** src/buffer_streambuf.h:110-113: xsgetn: as many as there are. *)
Fixpoint sgetn (s : sbuf) (n : nat) : sbuf * list Z :=
  match n with
  | O => (s, [])
  | S n' => match sbumpc s with
            | (s', Some c) => let '(s'', l) := sgetn s' n' in (s'', c :: l)
            | (s', None) => (s', [])
            end
  end.

(** src/buffer_streambuf.h:110-113 *)
Inductive sb_op := Peek | Bump | Unget | Getn (n : nat) | Put (c : Z) | Putn (w : list Z).
(** src/buffer_streambuf.h:110-113 *)
Inductive sb_res := RChar (c : option Z) | RChars (l : list Z) | RCount (n : Z).

(** src/buffer_streambuf.h:110-113 *)
Definition sb_step (s : sbuf) (o : sb_op) : sbuf * sb_res :=
  match o with
  | Peek => (s, RChar (sgetc s))
  | Bump => let '(s', r) := sbumpc s in (s', RChar r)
  | Unget => let '(s', r) := sungetc s in (s', RChar r)
  | Getn n => let '(s', l) := sgetn s n in (s', RChars l)
  | Put c => let '(s', r) := sputc s c in (s', RChar r)
  | Putn w => let '(s', n) := sputn s w in (s', RCount n)
  end.
(** src/buffer_streambuf.h:110-113 *)
Fixpoint sb_run (s : sbuf) (ops : list sb_op) : sbuf * list sb_res :=
  match ops with
  | [] => (s, [])
  | o :: ops' => let '(s', r) := sb_step s o in let '(s'', rs) := sb_run s' ops' in (s'', r :: rs)
  end.
