(** Specification for C118: a reader of debug logs and diagnostic logs. *)

From Coq Require Import ZArith List Bool.
From Verif Require Import Base Table_Spec Entry_Model.
Import ListNotations.
Open Scope Z_scope.

(** What the reader of a log wants to know of an entry. *)
Record fact := { f_time : when; f_thread : list Z; f_category : Z; f_severity : Z; f_tag : Z; f_text : list Z }.
Definition fact_of (e : entry) : fact :=
  {| f_time := e_time e; f_thread := e_thread e; f_category := e_category e; f_severity := e_severity e; f_tag := e_tag e; f_text := e_text e |}.

(** The characters before the first [c], and those behind it. *)
Fixpoint cut (c : Z) (l : list Z) : option (list Z * list Z) :=
  match l with
  | [] => None
  | x :: l => if x =? c then Some ([], l) else match cut c l with Some (a, b) => Some (x :: a, b) | None => None end
  end.
(** A number: one digit at least. *)
Fixpoint value (base v : Z) (l : list Z) : option Z :=
  match l with
  | [] => Some v
  | c :: l => match unhex c with Some d => if d <? base then value base (v * base + d) l else None | None => None end
  end.
Definition read_number (base : Z) (l : list Z) : option Z := match l with [] => None | _ => value base 0 l end.
(** A number in front of the character [c] *)
Definition number_to (base c : Z) (l : list Z) : option (Z * list Z) :=
  match cut c l with
  | Some (a, l) => match read_number base a with Some n => Some (n, l) | None => None end
  | None => None
  end.
Fixpoint skip_blanks (l : list Z) : list Z := match l with c :: l' => if c =? 32 then skip_blanks l' else l | [] => [] end.
Definition expect (s : list Z) (l : list Z) : option (list Z) :=
  if list_eq_dec Z.eq_dec (firstn (length s) l) s then Some (skipn (length s) l) else None.

Notation "'do' x <- e ; f" := (match e with Some x => f | None => None end) (at level 200, x pattern, f at level 200).
(** year-month-day[sep]hours:minutes:seconds.milliseconds[fin] *)
Definition read_time (sep fin : Z) (l : list Z) : option (when * list Z) :=
  do (y, l) <- number_to 10 45 l; do (mo, l) <- number_to 10 45 l; do (d, l) <- number_to 10 sep l;
  do (h, l) <- number_to 10 58 l; do (mi, l) <- number_to 10 58 l; do (s, l) <- number_to 10 46 l; do (ms, l) <- number_to 10 fin l;
  Some ({| year := y; month := mo; day := d; hours := h; minutes := mi; seconds := s; millis := ms |}, l).
(** A line of a diagnostic log: time,thread,category,severity,tag,text *)
Definition read_diag (l : list Z) : option fact :=
  do (w, l) <- read_time 84 90 l; do l <- expect [44] l; do (t, l) <- cut 44 l;
  do (c, l) <- number_to 16 44 l; do (s, l) <- number_to 16 44 l; do (g, l) <- number_to 16 44 l;
  Some {| f_time := w; f_thread := t; f_category := c; f_severity := s; f_tag := g; f_text := l |}.
(** A line of a debug log: time | thread | category | severity | tag | text *)
Definition read_debug (l : list Z) : option fact :=
  do (w, l) <- read_time 32 32 l; do l <- expect [124; 32] l; do (t, l) <- cut 32 (skip_blanks l); do l <- expect [124; 32] l;
  do (c, l) <- number_to 16 32 l; do l <- expect [124; 32] l; do (s, l) <- number_to 16 32 l; do l <- expect [124; 32] l;
  do (g, l) <- number_to 16 32 (skip_blanks l); do l <- expect [124; 32] l;
  Some {| f_time := w; f_thread := t; f_category := c; f_severity := s; f_tag := g; f_text := l |}.
Definition read_line (k : kind) (l : list Z) : option fact := match k with Debug => read_debug l | Diag => read_diag l end.
(** A log, line by line; [cur] is the part of the current line that was read. *)
Fixpoint read_log (k : kind) (cur l : list Z) : option (list fact) :=
  match l with
  | [] => match cur with [] => Some [] | _ => None end
  | c :: l => if c =? 10 then match read_line k cur, read_log k [] l with Some f, Some fs => Some (f :: fs) | _, _ => None end
              else read_log k (cur ++ [c]) l
  end.

(** The values are in the ranges of their types and times are not negative; the thread number is made of hexadecimal digits. *)
Definition when_ok (w : when) : Prop :=
  0 <= year w < 2 ^ 15 /\ 0 <= month w < 2 ^ 15 /\ 0 <= day w < 2 ^ 15 /\ 0 <= hours w < 2 ^ 15 /\ 0 <= minutes w < 2 ^ 15
  /\ 0 <= seconds w < 2 ^ 15 /\ 0 <= millis w < 2 ^ 15.
Definition entry_ok (size : Z) (e : entry) : Prop :=
  when_ok (e_time e) /\ e_thread e <> [] /\ zlen (e_thread e) <= 15 /\ Forall (fun c => unhex c <> None) (e_thread e)
  /\ 0 <= e_category e < 2 ^ 16 /\ 0 <= e_severity e < 2 ^ 8 /\ 0 <= e_tag e < 2 ^ 64
  /\ zlen (e_raw e) = size + 2 /\ 100 + zlen (e_text e) < size.
(** The text stays on its line. *)
Definition one_line (e : entry) : Prop := ~ In 10 (e_text e).
(** The entries that pass the filter *)
Definition shown (filter : option Z) (es : list entry) : list entry :=
  List.filter (fun e => match filter with None => true | Some m => e_severity e <=? m end) es.
