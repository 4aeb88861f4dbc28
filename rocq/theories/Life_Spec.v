(** Specification for C115: what a table receives from the lines of a program.  A line holds the text put into it since it was flushed. *)

From Coq Require Import ZArith List Bool.
From Verif Require Import Base ListMem Life_Model.
Import ListNotations.
Open Scope Z_scope.

(** The text that each line holds (none: there is no such line), the number of lines made, and what the table has received. *)
Record book := mkB { b_text : nat -> option (list Z); b_next : nat; b_out : list Z }.
Definition book_new : book := mkB (fun _ => None) O [].
Definition put_text (f : nat -> option (list Z)) (i : nat) (x : option (list Z)) : nat -> option (list Z) := fun k => if Nat.eqb k i then x else f k.

(** One step; none: the program uses a line that does not exist, or puts more than Size - 1 characters into a line.
    [keeps]: a line that was moved from keeps the text it held; otherwise it is empty.
    [blank]: a line that holds nothing writes an empty line at its end; otherwise nothing. *)
Definition book_step (keeps blank : bool) (size : Z) (b : book) (e : op) : option book :=
  match e with
  | LNew raw => if zlen raw =? size + 2 then Some (mkB (put_text (b_text b) (b_next b) (Some [])) (S (b_next b)) (b_out b)) else None
  | LPut i t | LShow i t =>
      match b_text b i with
      | Some p => if zlen p + zlen t <? size then Some (mkB (put_text (b_text b) i (Some (p ++ t))) (b_next b) (b_out b)) else None
      | None => None
      end
  | LFlush i =>
      match b_text b i with
      | Some p => Some (mkB (put_text (b_text b) i (Some [])) (b_next b) (b_out b ++ p ++ [10]))
      | None => None
      end
  | LMove i =>
      match b_text b i with
      | Some p => Some (mkB (put_text (put_text (b_text b) i (Some (if keeps then p else []))) (b_next b) (Some p)) (S (b_next b)) (b_out b))
      | None => None
      end
  | LEnd i =>
      match b_text b i with
      | Some p => Some (mkB (put_text (b_text b) i None) (b_next b) (b_out b ++ (if blank || negb (zlen p =? 0) then p ++ [10] else [])))
      | None => None
      end
  end.
Fixpoint book_run (keeps blank : bool) (size : Z) (b : book) (l : list op) : option book :=
  match l with
  | [] => Some b
  | e :: l => match book_step keeps blank size b e with Some b => book_run keeps blank size b l | None => None end
  end.

(** What a user relies on: every text reaches the table once. *)
Definition once (size : Z) : list op -> option book := book_run false false size book_new.

(** The text is put by put_any, not by <<. *)
Definition no_show (e : op) : bool := match e with LShow _ _ => false | _ => true end.
(** ... and no line is moved or ends empty. *)
Fixpoint plain (size : Z) (b : book) (l : list op) : bool :=
  match l with
  | [] => true
  | e :: l =>
      match e with
      | LShow _ _ | LMove _ => false
      | LEnd i => match b_text b i with Some [] => false | _ => true end
      | _ => true
      end && match book_step false false size b e with Some b => plain size b l | None => true end
  end.
