(** What the user of a test suite relies on, stated without the loops of test_suite::run. *)

From Coq Require Import String ZArith List Bool.
From Verif Require Import Suite_Model.
Import ListNotations.
Open Scope Z_scope.

Section Spec.
Variable W : Type.
(** The methods are called one after the other, each once and each from the state its predecessor left; their results. *)
Inductive called : list (method W) -> W -> list result -> W -> Prop :=
| called_nil : forall w, called [] w [] w
| called_cons : forall m ms w r w1 rs w2, m w = (r, w1) -> called ms w1 rs w2 -> called (m :: ms) w (r :: rs) w2.
(** All methods of a suite, in the order they are listed *)
Definition methods_of (cs : list (named_category W)) : list (method W) := List.map snd (concat (List.map snd cs)).
(** The names *)
Definition names_of (cs : list (named_category W)) : list string := List.map fst (concat (List.map snd cs)).
(** A method passes if it returns true. *)
Definition passes (r : result) : bool := match r with Returns true => true | _ => false end.
(** The results cut into categories *)
Fixpoint by_category (cs : list (named_category W)) (rs : list result) : list (string * list result) :=
  match cs with
  | [] => []
  | (name, ms) :: cs => (name, firstn (length ms) rs) :: by_category cs (skipn (length ms) rs)
  end.
End Spec.
(** The verdicts on methods among lines, in order *)
Definition method_verdicts (l : list line) : list (string * bool) :=
  flat_map (fun x => match x with LMethod n b => [(n, b)] | _ => [] end) l.
(** The verdicts on categories among lines, in order *)
Definition category_verdicts (l : list line) : list (string * bool) :=
  flat_map (fun x => match x with LCategory n b => [(n, b)] | _ => [] end) l.
