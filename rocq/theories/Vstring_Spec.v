(** What users of string streams rely on. *)

From Coq Require Import ZArith List Bool.
From Verif Require Import Base Cache_Model Linked_Model Cont_Model Cont_Spec Vstring_Model.
Import ListNotations.
Open Scope Z_scope.

(** Writing to a stream: put() of a char, or flush(). *)
Inductive wop := Put (x : Z) | Flush.
Fixpoint writes (c : Z) (m : mem Z) (b : sbuf) (l : list wop) : option (mem Z * sbuf * list Z) :=
  match l with
  | [] => Some (m, b, [])
  | o :: l =>
      match (match o with Put x => sputc c m b x | Flush => sync c m b end) with
      | COk (m, b, r) => match writes c m b l with Some (m, b, rs) => Some (m, b, r :: rs) | None => None end
      | _ => None
      end
  end.
(** [n] times get(). *)
Fixpoint reads (sgn : bool) (c : Z) (m : mem Z) (b : sbuf) (n : nat) : option (sbuf * list Z) :=
  match n with
  | O => Some (b, [])
  | S n =>
      match sbumpc sgn c m b with
      | COk (b, r) => match reads sgn c m b n with Some (b, rs) => Some (b, r :: rs) | None => None end
      | _ => None
      end
  end.
(** The chars that were put. *)
Fixpoint put_chars (l : list wop) : list Z := match l with [] => [] | Put x :: l => x :: put_chars l | Flush :: l => put_chars l end.
(** What writing returns if all goes well: the char that was put, or 0. *)
Definition write_results (l : list wop) : list Z := map (fun o => match o with Put x => x | Flush => 0 end) l.
