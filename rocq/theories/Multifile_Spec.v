(** Specification vocabulary for C25-C27. *)

From Coq Require Import ZArith List Bool.
From Verif Require Import Base Timestamp_Model Timestamp_Spec Multifile_Model.
Import ListNotations.
Open Scope Z_scope.

(** The decimal digit of value [d]; two and four digits. *)
Definition digit (d : Z) : Z := 48 + d.
Definition two (n : Z) : list Z := [digit (n / 10); digit (n mod 10)].
Definition four (n : Z) : list Z := [digit (n / 1000); digit (n / 100 mod 10); digit (n / 10 mod 10); digit (n mod 10)].
(** C25: YYYYMMDD_HHMMSS of a timestamp. *)
Definition stamp (t : timestamp) : list Z :=
  four (year t) ++ two (month t) ++ two (day t) ++ [95] ++ two (hours t) ++ two (minutes t) ++ two (seconds t).
(** directory + '/' (a '/' that is already there is not repeated) *)
Definition with_separator (path : list Z) : list Z := if last path 0 =? 47 then path else path ++ [47].
(** A clock reading (nanoseconds since 1970). *)
Definition clock (n : Z) : Prop := 0 <= n < 2 ^ 63.

(** C26: the bytes written by a history, and the clock readings in it that may name a file. *)
Definition bytes_of (c : call) : list Z := match c with Puts l _ => l | Putc c _ => [c] | _ => [] end.
Definition written (l : list call) : list Z := flat_map bytes_of l.
Definition clocks_of (c : call) : list Z := match c with Sync t now now2 => [t; now; now2] | Reopen now now2 => [now; now2] | _ => [] end.
Definition clocks_ok (l : list call) : Prop := Forall clock (flat_map clocks_of l).
(** C27: histories that write with xsputn only. *)
Definition no_putc (l : list call) : Prop := Forall (fun c => match c with Putc _ _ => False | _ => True end) l.
