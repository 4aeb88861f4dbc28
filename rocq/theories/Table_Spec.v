(** Specification for C19-C22. *)

From Coq Require Import ZArith List Bool.
From Verif Require Import Base Table_Model.
Import ListNotations.
Open Scope Z_scope.

(** *** Lines (C20): the texts put since the last flush, joined, plus a newline. *)
Inductive text_op := TPut (t : list Z) | TFlush.
Fixpoint lines (pending : list Z) (ops : list text_op) : list Z :=
  match ops with
  | [] => []
  | TPut t :: ops' => lines (pending ++ t) ops'
  | TFlush :: ops' => pending ++ [10] ++ lines [] ops'
  end.
Definition to_line_op (o : text_op) : line_op := match o with TPut t => LPut t | TFlush => LFlush end.

(** All text put between two flushes is shorter than [size]. *)
Fixpoint fits (size n : Z) (ops : list text_op) : Prop :=
  match ops with
  | [] => True
  | TPut t :: ops' => n + zlen t < size /\ fits size (n + zlen t) ops'
  | TFlush :: ops' => fits size 0 ops'
  end.

(** *** Binary dumps (C21): reading a dump line back. *)
Definition unhex (c : Z) : option Z :=
  if (48 <=? c) && (c <=? 57) then Some (c - 48)
  else if (97 <=? c) && (c <=? 102) then Some (c - 87) else None.

(** n columns of two hex digits and a blank; blank columns end the data. *)
Fixpoint parse_cols (l : list Z) (n : nat) {struct n} : option (list Z * list Z) :=
  match n with
  | O => Some ([], l)
  | S n' =>
      match l with
      | a :: b :: 32 :: l' =>
          match parse_cols l' n' with
          | Some (d, r) =>
              if (a =? 32) && (b =? 32) then match d with [] => Some ([], r) | _ => None end
              else match unhex a, unhex b with
                   | Some x, Some y => Some (x * 16 + y :: d, r)
                   | _, _ => None
                   end
          | None => None
          end
      | _ => None
      end
  end.

(** The column of text: the printable bytes, dots for the others, padded to 16. *)
Definition text_column (d : list Z) : list Z :=
  map (fun c => if (32 <=? c) && (c <=? 126) then c else 46) d ++ repeat 32 (16 - length d).
(** A line of a dump: oooo: hh hh .. hh  hh .. hh  text.  Gives the offset and the bytes. *)
Definition parse_dump_line (l : list Z) : option (Z * list Z) :=
  match l with
  | a :: b :: c :: d :: 58 :: 32 :: l' =>
      match unhex a, unhex b, unhex c, unhex d with
      | Some a, Some b, Some c, Some d =>
          match parse_cols l' 8 with
          | Some (d1, 32 :: l2) =>
              match parse_cols l2 8 with
              | Some (d2, 32 :: l3) =>
                  if list_eq_dec Z.eq_dec l3 (text_column (d1 ++ d2)) then Some (((a * 16 + b) * 16 + c) * 16 + d, d1 ++ d2) else None
              | _ => None
              end
          | _ => None
          end
      | _, _, _, _ => None
      end
  | _ => None
  end.

(** The data cut into pieces of 16 bytes, the last one possibly shorter. *)
Fixpoint chunks (fuel : nat) (d : list Z) : list (list Z) :=
  match fuel with
  | O => []
  | S f => match d with [] => [] | _ => firstn 16 d :: chunks f (skipn 16 d) end
  end.

(** The text of a dump: each line is the properties text of its round, the dump line and a newline. *)
Fixpoint dump_out (props : nat -> list Z) (i : nat) (lns : list (list Z)) : list Z :=
  match lns with
  | [] => []
  | ln :: lns' => props i ++ ln ++ [10] ++ dump_out props (S i) lns'
  end.

(** The number of 16-byte pieces. *)
Definition n_chunks (d : list Z) : nat := Z.to_nat ((zlen d + 15) / 16).

(** *** C19: the number of characters in the line, as long as everything fits. *)
Definition advance (size n : Z) (o : line_op) : Z :=
  match o with
  | LPut t => n + zlen t
  | LThread id => n + zlen id
  | LGet => n
  | LFlush => 0
  | LBinary d off => if (size - n <=? 72) || (zlen d <=? off) || negb (off mod 16 =? 0) then n else n + 72
  end.
(** All pieces fit, thread ids are shorter than the scratch buffer. *)
Fixpoint pieces_fit (size n : Z) (ops : list line_op) : Prop :=
  match ops with
  | [] => True
  | o :: ops' =>
      (match o with LPut t => n + zlen t <= size | LThread id => zlen id <= 15 /\ n + zlen id <= size | _ => True end)
      /\ pieces_fit size (advance size n o) ops'
  end.

(** *** The log (C22): which operations leave a trace, and which text. *)
Definition op_severity (o : log_op) : Z := match o with LText s _ _ _ | LBin s _ _ _ | LBlank s => s | LMin _ => 0 end.

(** [passed filter ops]: the operations of the history that must be shown, given the
    minimum severity in force at each point (None = no filter: everything is shown). *)
Fixpoint passed (filter : option Z) (ops : list log_op) : list log_op :=
  match ops with
  | [] => []
  | LMin m :: ops' => passed (match filter with None => None | Some _ => Some m end) ops'
  | o :: ops' =>
      match filter with
      | None => o :: passed filter ops'
      | Some m => if op_severity o <=? m then o :: passed filter ops' else passed filter ops'
      end
  end.

(** Lines long enough for the message. *)
Definition op_fits (size : Z) (o : log_op) : Prop :=
  match o with
  | LText _ raw p t => zlen raw = size + 2 /\ zlen p + zlen t < size
  | LBin _ raw p d => zlen raw = size + 2 /\ (forall i, zlen (p i) + 72 < size) /\ zlen d < 65536 /\ Forall byte_ok d
  | _ => True
  end.
