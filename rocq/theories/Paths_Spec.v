(** What paths the samples are expected to use, stated without the arrays. *)

From Coq Require Import String ZArith List Bool.
From Verif Require Import Base ListMem.
Import ListNotations.
Open Scope list_scope.
Open Scope Z_scope.

(** A string: bytes other than 0 *)
Definition text (s : list Z) : Prop := Forall (fun c => c <> 0) s.
(** The program was started as dir/name: the separator is the last one. *)
Definition started_in (dir prog : list Z) : Prop := exists name, prog = dir ++ 47 :: name /\ ~ In 47 name.
(** The program was started by its name alone. *)
Definition started_by_name (prog : list Z) : Prop := ~ In 47 prog.
(** A file next to the program *)
Definition beside (dir : list Z) (file : string) : list Z := dir ++ bytes_of_string "/" ++ bytes_of_string file.
