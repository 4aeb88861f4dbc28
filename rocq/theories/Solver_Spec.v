(** Specification vocabulary for C119: requests to the equation solver. *)

From Coq Require Import String ZArith List Bool.
From Verif Require Import Base ListMem Endpoint_Spec Rest_Spec RestBody_Spec.
From Verif Require Json_Spec.
Import ListNotations.
Open Scope string_scope.
Open Scope list_scope.
Open Scope Z_scope.

Section Problems.
Import Json_Spec.
(** The texts of two numbers; of two rows of two numbers. *)
Definition two_numbers (v : jv) : option (list Z * list Z) := match v with JArr [JNum x; JNum y] => Some (x, y) | _ => None end.
Definition two_rows (v : jv) : option (list Z * list Z * (list Z * list Z)) :=
  match v with JArr [r0; r1] => match two_numbers r0, two_numbers r1 with Some x, Some y => Some (x, y) | _, _ => None end | _ => None end.
(** What the members of a name say: each has the form [f], and the last one counts. *)
Definition said {A} (s : string) (f : jv -> option A) (ms : list (list Z * jv)) : option A :=
  let ps := map (fun p => f (snd p)) (filter (named s) ms) in if forallb is_some ps then last ps None else None.
(** The problem in a JSON value: an object with the members "a" (the matrix) and "b" (the right-hand side), in any order. *)
Definition problem_in (v : jv) : option (list Z * list Z * (list Z * list Z) * (list Z * list Z)) :=
  match v with
  | JObj ms => match said "a" two_rows ms, said "b" two_numbers ms with Some a, Some c => Some (a, c) | _, _ => None end
  | _ => None
  end.
(** The response: the kind of solution, and the texts of its numbers. *)
Definition solution (status : Z) (x y : list Z) : jv := JObj [(b "status", jint status); (b "x", JNum x); (b "y", JNum y)].
End Problems.
