(** Calls on containers with or without a log. *)

From Coq Require Import ZArith List Bool.
From Verif Require Import Base Cache_Model Linked_Model Cont_Model Cont_Spec Nolog_Model.
Import ListNotations.
Open Scope Z_scope.

(** A call, made on container [c] of type [t]; iterators are given by their position. *)
Definition lcall {A} (log : bool) (t : ctype) (c : Z) (m : mem A) (o : op A) : lres (option (mem A * outcome)) :=
  match o with
  | PushBack x => lbind (lg_push_back log t c m x) (fun r => LRes (observe m r true))
  | PushFront x => lbind (lg_push_front log t c m x) (fun r => LRes (observe m r true))
  | Insert k x => lbind (lg_insert log t c m (itr_at m c k) x) (fun r => LRes (observe m r true))
  | PopBack => lbind (lg_erase t c m (c_rend c m)) (fun r => LRes (observe m r false))
  | PopFront => lbind (lg_erase t c m (c_begin c m)) (fun r => LRes (observe m r false))
  | Erase k => lbind (lg_erase t c m (itr_at m c k)) (fun r => LRes (observe m r false))
  end.
Fixpoint lcalls {A} (log : bool) (ts : Z -> ctype) (m : mem A) (h : list (Z * op A)) : lres (option (mem A * list outcome)) :=
  match h with
  | [] => LRes (Some (m, []))
  | (c, o) :: h =>
      lbind (lcall log (ts c) c m o) (fun r =>
        match r with
        | Some (m, out) => lbind (lcalls log ts m h) (fun r => LRes (match r with Some (m, outs) => Some (m, out :: outs) | None => None end))
        | None => LRes None
        end)
  end.

(** Every insertion of the history meets a container with fewer items than one page can hold. *)
Fixpoint one_page {A} (ts : Z -> ctype) (s : Z -> list A) (h : list (Z * op A)) (outs : list outcome) : Prop :=
  match h, outs with
  | (c, o) :: h, out :: outs =>
      match o with PushBack _ | PushFront _ | Insert _ _ => Z.of_nat (length (s c)) < t_cap (ts c) | _ => True end /\
      match ideal (s c) o out with Some l => one_page ts (upd s c l) h outs | None => False end
  | _, _ => True
  end.
