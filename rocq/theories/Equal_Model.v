(** Model of the comparisons of test_context in src/test.h: the comparison of blobs (245-276) and the
    comparison of strings (223-241), with the calls of log->put_any that report them.

    The lines are those of Table_Model.v, with uninitialised buffers.  A call of put_any is represented by its
    severity and its formatted text; what a log makes of a call is the subject of C22.  The category, the tag
    and the comparison of other values (201-219) are left out. *)

From Coq Require Import String.
From Coq Require Import ZArith List Bool.
From Verif Require Import Base ListMem Table_Model.
Import ListNotations.
Open Scope Z_scope.

(** src/test.h:263, 269: a call of log->put_any: the severity and the text *)
Definition entry := (Z * list Z)%type.
(** src/i/log.i.h:65: severity::important *)
Definition important : Z := 3.
(** src/i/log.i.h:66: severity::optional *)
Definition optional : Z := 4.
(** src/size.h:46, src/test.h:252, 257: the size of the local lines, size::k2 *)
Definition k2 : Z := 2048.

(** src/test.h:246: std::memcmp(a, b, n) == 0; None = it reads outside of a buffer *)
Fixpoint memcmp0 (n : nat) (a b : list Z) : option bool :=
  match n with
  | O => Some true
  | S n => match a, b with
           | x :: a, y :: b => match memcmp0 n a b with Some r => Some ((x =? y) && r) | None => None end
           | _, _ => None
           end
  end.

(** src/test.h:261-272: what is reported *)
Definition report (equal : bool) (actual expected : list Z) : entry :=
  if negb equal
  then (important, bytes_of_string "Fail: are_equal(actual=" ++ actual ++ bytes_of_string ", expected=" ++ expected ++ bytes_of_string ")")
  else (optional, bytes_of_string "Pass: are_equal(actual=" ++ actual ++ bytes_of_string ", expected=" ++ expected ++ bytes_of_string ")").

(** src/test.h:248-273: the loop.  [raw i] are the uninitialised buffers of round i, [log] whether there is a
    log.  The destructors of the lines flush them (src/table.h:99-102). *)
Fixpoint blob_loop (fuel : nat) (raw : nat -> list Z * list Z) (i : nat) (log equal : bool)
    (actual expected : list Z) (offset : Z) : outcome (list entry) :=
  match fuel with
  | O => OutOfFuel
  | S fuel =>
      match line_put_binary (line_new k2 (fst (raw i)) None) actual offset with          (* 252-253 *)
      | None => Undefined
      | Some (la, offset', more) =>
          if negb more then match line_flush la with Some _ => Done [] | None => Undefined end     (* 254 *)
          else
            match line_put_binary (line_new k2 (snd (raw i)) None) expected offset with     (* 257-258 *)
            | None => Undefined
            | Some (le, _, _) =>
                match (if log then
                         match line_get la, line_get le with                                (* 263, 269 *)
                         | Some (la, ta), Some (le, te) => Some (la, le, [report equal ta te])
                         | _, _ => None
                         end
                       else Some (la, le, [])) with
                | None => Undefined
                | Some (la, le, es) =>
                    match line_flush le, line_flush la with
                    | Some _, Some _ =>
                        match blob_loop fuel raw (S i) log equal actual expected offset' with
                        | Done es' => Done (es ++ es')
                        | x => x
                        end
                    | _, _ => Undefined
                    end
                end
            end
      end
  end.

(** src/test.h:245-276: are_equal of two blobs of [size] bytes, lying at the start of [actual] and [expected] *)
Definition blob_equal (fuel : nat) (raw : nat -> list Z * list Z) (log : bool) (actual expected : list Z) (size : Z)
    : outcome (bool * list entry) :=
  match memcmp0 (Z.to_nat size) actual expected with
  | None => Undefined
  | Some equal =>
      match blob_loop fuel raw 0 log equal (take size actual) (take size expected) 0 with
      | Done es => Done (equal, es)
      | Undefined => Undefined
      | OutOfFuel => OutOfFuel
      end
  end.

(** src/test.h:224: std::strcmp(a, b) == 0; None = it reads outside of an array *)
Fixpoint strcmp0 (a b : list Z) : option bool :=
  match a, b with
  | x :: a, y :: b => if x =? y then (if x =? 0 then Some true else strcmp0 a b) else Some false
  | _, _ => None
  end.
(** src/test.h:223-241: are_equal of two strings *)
Definition str_equal (log : bool) (actual expected : list Z) : option (bool * list entry) :=
  match strcmp0 actual expected with
  | None => None
  | Some equal =>
      if log then match c_str actual, c_str expected with
                  | Some a, Some e => Some (equal, [report equal a e])
                  | _, _ => None
                  end
      else Some (equal, [])
  end.
