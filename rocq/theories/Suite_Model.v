(** Model of src/test.h (test_suite: run, srand) and of the end of test/main.cpp.
    Simplified: what a method does is arbitrary: it turns the state of the program into another one and returns or
    throws; whether there is a log makes no difference for what is returned, the lines are those a log would get.
    Left out: test_context::are_equal (its dump is in Log_Model), blank lines, colors, headings. *)

From Coq Require Import String ZArith List Bool.
Import ListNotations.
Open Scope Z_scope.

(** src/test.h:327-336: how a call of a test method ends: it returns, it throws something derived from
    std::exception, it throws something else. *)
Inductive result := Returns (b : bool) | Throws_std | Throws_other.
(** src/test.h:331-386: the lines of the log: an exception (334), the verdict on a method (340, 345), on a category (354, 359), the
    seed (373), the verdict on the suite (378, 383) *)
Inductive line := LException | LMethod (name : string) (pass : bool) | LCategory (name : string) (pass : bool) | LSeed (s : Z) | LSummary (pass : bool).

Section Suite.
(** src/test.h:329, 400-404: everything the methods can read and change, the generator of random numbers included *)
Variable W : Type.
(** src/test.h:114: test_method *)
Definition method := W -> result * W.
(** src/test.h:121: named_test_method *)
Definition named_method := (string * method)%type.
(** src/test.h:135: named_test_category *)
Definition named_category := (string * list named_method)%type.
(** src/test.h:400-401, 404: std::srand, std::rand, the count of the system clock *)
Record libc := { seed_with : Z -> W -> W; next_rand : W -> Z * W; ticks : Z }.
(** RAND_MAX of glibc (src/test.h:400) *)
Definition rand_max : Z := 2147483647.
(** seed_t is unsigned (src/test.h:41, 400-401) *)
Definition u32 (x : Z) : Z := x mod 2 ^ 32.

(** test_suite::srand (src/test.h:397-405): the seed used and the state after it *)
Definition suite_srand (lib : libc) (seed : Z) (w : W) : Z * W :=
  let (seed, w) :=
    if seed =? 0 then
      let w := seed_with lib (u32 (Z.rem (ticks lib) rand_max)) w in
      let (r, w) := next_rand lib w in (u32 r, w)
    else (seed, w) in
  (seed, seed_with lib seed w).

(** What is left of a run: it ended, or an exception left a noexcept function (src/test.h:300, 327-336) and std::terminate was called; the lines so far. *)
Inductive ending (A : Type) := Ended (x : A) (w : W) (l : list line) | Died (l : list line).
Arguments Ended {A} x w l.
Arguments Died {A} l.

(** the loop over the methods of a category (src/test.h:319-350) *)
Fixpoint run_methods (ms : list named_method) (category_passed : bool) (w : W) (l : list line) : ending bool :=
  match ms with
  | [] => Ended category_passed w l
  | (name, m) :: ms =>
    let (r, w) := m w in
    match r with
    | Throws_other => Died l
    | Throws_std => run_methods ms (category_passed && false) w (l ++ [LException; LMethod name false])
    | Returns b => run_methods ms (category_passed && b) w (l ++ [LMethod name b])
    end
  end.
(** the loop over the categories (src/test.h:311-367) *)
Fixpoint run_categories (cs : list named_category) (all_passed : bool) (w : W) (l : list line) : ending bool :=
  match cs with
  | [] => Ended all_passed w l
  | (name, ms) :: cs =>
    match run_methods ms true w l with
    | Died l => Died l
    | Ended category_passed w l => run_categories cs (all_passed && category_passed) w (l ++ [LCategory name category_passed])
    end
  end.
(** test_suite::run (src/test.h:300-394): the answer and the member seed *)
Definition run (lib : libc) (cs : list named_category) (seed : Z) (w : W) : ending (bool * Z) :=
  let (seed, w) := suite_srand lib seed w in
  match run_categories cs true w [] with
  | Died l => Died l
  | Ended all_passed w l => Ended (all_passed, seed) w (l ++ [LSeed seed; LSummary all_passed])
  end.
(** the status of the process (test/main.cpp:197-199); std::terminate calls abort: 134 in a shell *)
Definition exit_status (e : ending (bool * Z)) : Z :=
  match e with Ended (passed, _) _ _ => if passed then 0 else 1 | Died _ => 134 end.
End Suite.
Arguments Ended {W A} x w l.
Arguments Died {W A} l.
Arguments seed_with {W} l.
Arguments next_rand {W} l.
Arguments ticks {W} l.
