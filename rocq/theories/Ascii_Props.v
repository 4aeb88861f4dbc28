(** C01: bounded and case-insensitive text comparison is exact. *)

From Coq Require Import ZArith List Bool.
From Verif Require Import Base Ascii_Model Ascii_Spec Ascii_Proofs.
Import ListNotations.
Open Scope Z_scope.

(** are_equal(s1, s2): equal iff the strings are equal, whatever follows the
    terminators in memory. *)
Theorem C01_are_equal_exact : forall a b ra rb,
  no_nul a -> no_nul b ->
  (are_equal (Some (c_string a ra)) (Some (c_string b rb)) = Some true <-> a = b).
Proof. exact are_equal_spec. Qed.

(** are_equal_i: equal iff equal after mapping A-Z to a-z. *)
Theorem C01_are_equal_i_exact : forall a b ra rb,
  no_nul a -> no_nul b ->
  (are_equal_i (Some (c_string a ra)) (Some (c_string b rb)) = Some true
   <-> map lower a = map lower b).
Proof. exact are_equal_i_spec. Qed.

Theorem C01_are_equal_n_exact : forall a b ra rb n,
  no_nul a -> no_nul b ->
  (are_equal_n (Some (c_string a ra)) (Some (c_string b rb)) n = Some true
   <-> firstn n a = firstn n b).
Proof. exact are_equal_n_spec. Qed.

Theorem C01_are_equal_i_n_exact : forall a b ra rb n,
  no_nul a -> no_nul b ->
  (are_equal_i_n (Some (c_string a ra)) (Some (c_string b rb)) n = Some true
   <-> map lower (firstn n a) = map lower (firstn n b)).
Proof. exact are_equal_i_n_spec. Qed.

(** The comparison never reads outside NUL-terminated strings ... *)
Theorem C01_no_read_past_terminator : forall cs a b ra rb n,
  no_nul a -> no_nul b ->
  exists r, are_equal4 (Some (c_string a ra)) (Some (c_string b rb)) cs n = Some r.
Proof. exact are_equal_no_oob. Qed.

(** ... and with a bound [n], never beyond the first [n] bytes, even if there is
    no terminator; what follows does not influence the result. *)
Theorem C01_bounded_reads : forall cs n p1 p2 q1 q2,
  (n <= List.length p1)%nat -> (n <= List.length p2)%nat ->
  are_equal4 (Some (p1 ++ q1)) (Some (p2 ++ q2)) cs n = are_equal4 (Some p1) (Some p2) cs n
  /\ are_equal4 (Some p1) (Some p2) cs n <> None.
Proof. exact (fun cs n p1 p2 q1 q2 H1 H2 => loop_bounded cs n p1 p2 q1 q2 0 H1 H2). Qed.

(** Null pointers: equal only to each other. *)
Theorem C01_null : forall cs n m,
  are_equal4 None None cs n = Some true
  /\ are_equal4 None (Some m) cs n = Some false
  /\ are_equal4 (Some m) None cs n = Some false.
Proof. exact (fun _ _ _ => conj eq_refl (conj eq_refl eq_refl)). Qed.

(** [lower] identifies exactly the characters that differ by letter case. *)
Theorem C01_case_only : forall c d, lower c = lower d <-> same_letter c d.
Proof. exact lower_same_letter. Qed.

(** Non-trivial instances. *)
From Coq Require Import String.
Example C01_ex1 :
  are_equal_i (Some (c_string (bytes_of_string "Content-Type") [7;7]))
              (Some (c_string (bytes_of_string "content-TYPE") [])) = Some true
  /\ are_equal (Some (c_string (bytes_of_string "Content-Type") [7;7]))
              (Some (c_string (bytes_of_string "content-TYPE") [])) = Some false.
Proof. split; vm_compute; reflexivity. Qed.
Example C01_ex2 :
  are_equal_i_n (Some (c_string (bytes_of_string "/Resources/x") []))
                (Some (c_string (bytes_of_string "/resources") [])) 10 = Some true
  /\ are_equal_i_n (Some (c_string (bytes_of_string "/Res") []))
                (Some (c_string (bytes_of_string "/resources") [])) 10 = Some false.
Proof. split; vm_compute; reflexivity. Qed.
Example C01_ex3 : no_nul (bytes_of_string "Content-Type") /\ no_nul (bytes_of_string "content-TYPE").
Proof. split; repeat constructor; discriminate. Qed.

Print Assumptions C01_are_equal_exact.
Print Assumptions C01_are_equal_i_exact.
Print Assumptions C01_are_equal_n_exact.
Print Assumptions C01_are_equal_i_n_exact.
Print Assumptions C01_no_read_past_terminator.
Print Assumptions C01_bounded_reads.
Print Assumptions C01_null.
Print Assumptions C01_case_only.
