(** Model of the entries of debug logs and diagnostic logs: debug_line_ostream and diag_line_ostream in
    src/log.h (69-98, 135-164), written by log_ostream (268-275) through the lines of Table_Model.v.

    The time, the number of the thread as printed by operator<<, and the formatted message are inputs.  printf is
    represented by what the C standard says for the formats used here. *)

From Coq Require Import String.
From Coq Require Import ZArith List Bool.
From Verif Require Import Base ListMem Table_Model.
Import ListNotations.
Open Scope Z_scope.

(** src/table.h:150-152: what put_timestamp prints: year, month, day, hours, minutes, seconds, milliseconds *)
Record when := { year : Z; month : Z; day : Z; hours : Z; minutes : Z; seconds : Z; millis : Z }.
(** src/log.h:66-71, 268-275: one call of put_any; [e_raw] is the uninitialised buffer of its line *)
Record entry := { e_time : when; e_thread : list Z; e_category : Z; e_severity : Z; e_tag : Z; e_text : list Z; e_raw : list Z }.
(** src/log.h:38-98, 104-164: the two kinds of lines *)
Inductive kind := Debug | Diag.

(** src/log.h:93-97, 159-163: the digits that printf prints for %u (base 10) and %x (base 16) *)
Fixpoint digits (base : Z) (fuel : nat) (n : Z) : list Z :=
  match fuel with
  | O => []
  | S f => if n <? base then [hexdigit n] else digits base f (n / base) ++ [hexdigit (n mod base)]
  end.
(** src/log.h:93-97, 159-163: printf of a number with [prec] digits at least *)
Definition number (base : Z) (prec : nat) (n : Z) : list Z :=
  let d := digits base 20 n in repeat 48 (prec - length d) ++ d.
(** src/log.h:94, 97: printf of a text, [width] characters at least *)
Definition padded (width : nat) (t : list Z) : list Z := repeat 32 (width - length t) ++ t.

(** src/log.h:93, 159: the time; [sep] separates the date from the time; the numbers are promoted to int and
    printed as unsigned *)
Definition time_text (sep : Z) (w : when) : list Z :=
  number 10 4 (wrap_u32 (year w)) ++ [45] ++ number 10 2 (wrap_u32 (month w)) ++ [45] ++ number 10 2 (wrap_u32 (day w)) ++ [sep]
  ++ number 10 2 (wrap_u32 (hours w)) ++ [58] ++ number 10 2 (wrap_u32 (minutes w)) ++ [58] ++ number 10 2 (wrap_u32 (seconds w))
  ++ [46] ++ number 10 3 (wrap_u32 (millis w)).

(** src/log.h:66-74, 92-98: debug_line_ostream: the texts put one after the other *)
Definition debug_pieces (e : entry) : list (list Z) :=
  [time_text 32 (e_time e) ++ [32; 124];                                 (* 93 *)
   [32] ++ padded 16 (e_thread e) ++ [32; 124];                          (* 94 *)
   [32] ++ number 16 4 (e_category e) ++ [32; 124];                      (* 95 *)
   [32] ++ number 16 1 (e_severity e) ++ [32; 124];                      (* 96 *)
   [32] ++ padded 16 (number 16 1 (e_tag e)) ++ [32; 124; 32];           (* 97 *)
   e_text e].
(** src/log.h:132-140, 158-164: diag_line_ostream *)
Definition diag_pieces (e : entry) : list (list Z) :=
  [time_text 84 (e_time e) ++ [90; 44];                                  (* 159 *)
   e_thread e ++ [44];                                                   (* 160 *)
   number 16 4 (e_category e) ++ [44];                                   (* 161 *)
   number 16 1 (e_severity e) ++ [44];                                   (* 162 *)
   number 16 1 (e_tag e) ++ [44];                                        (* 163 *)
   e_text e].
(** src/log.h:66-98, 132-164 *)
Definition pieces (k : kind) (e : entry) : list (list Z) := match k with Debug => debug_pieces e | Diag => diag_pieces e end.

(** src/table.h:142-145: put_anyv of one text after the other *)
Fixpoint put_all (l : line) (ps : list (list Z)) : option line :=
  match ps with
  | [] => Some l
  | p :: ps => match put_anyv l p with Some l => put_all l ps | None => None end
  end.

(** src/log.h:268-275, src/table.h:99-102, 155-169: put_anyv of the log; the thread number has to fit into the array of
    put_thread_id together with the terminating null *)
Definition put_entry (k : kind) (size : Z) (filter : option Z) (out : list Z) (e : entry) : option (list Z) :=
  if enabled filter (e_severity e) then
    if zlen (e_thread e) + 1 <=? 16 then
      match put_all (line_new size (e_raw e) (Some out)) (pieces k e) with
      | Some l => match line_flush l with Some l => l_table l | None => None end
      | None => None
      end
    else None
  else Some out.

(** src/log.h:268-275: a history of calls *)
Fixpoint put_entries (k : kind) (size : Z) (filter : option Z) (out : list Z) (es : list entry) : option (list Z) :=
  match es with
  | [] => Some out
  | e :: es => match put_entry k size filter out e with Some out => put_entries k size filter out es | None => None end
  end.
