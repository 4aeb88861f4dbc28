(** C117: comparisons in tests.  The verdict on two blobs is right; every difference is shown in the log.

    Full statement: whenever are_equal of two blobs of [size] bytes is called with a log, it returns true exactly
    if the blobs are the same, and each k < size with actual[k] <> expected[k] is shown as different
    (difference_shown).  The verdict and the differences in the whole pieces of 16 bytes hold; the bytes behind
    the last whole piece are never shown (C117_tail_refuted), so that a failure may leave no message at all, or
    one that shows twice the same. *)

From Coq Require Import String.
From Coq Require Import ZArith List Bool Lia ZifyBool.
From Verif Require Import Base ListMem Table_Model Table_Spec Table_Proofs Equal_Model Equal_Spec Equal_Proofs.
Import ListNotations.
Open Scope Z_scope.

(** The comparison of blobs ends without undefined behaviour, and its verdict is right, with and without a log. *)
Theorem C117_verdict : forall fuel raw log actual expected size,
  raws_ok raw -> 0 <= size <= zlen actual -> size <= zlen expected -> size / 16 < Z.of_nat fuel ->
  exists verdict es, blob_equal fuel raw log actual expected size = Done (verdict, es)
  /\ (verdict = true <-> same_bytes size actual expected) /\ (log = false -> es = []).
Proof.
  intros fuel raw log a e size Hr Ha He Hf. destruct (blob_equal_done fuel raw log a e size Hr Ha He Hf) as (v & E & V).
  eexists; eexists. split; [exact E|]. split; [exact V|]. intros ->. reflexivity.
Qed.

(** One message for each whole piece of 16 bytes, which shows this piece of both blobs; all of them are failures
    of severity important, or all are passes of severity optional. *)
Theorem C117_report_partial : forall fuel raw actual expected size,
  raws_ok raw -> Forall byte_ok actual -> Forall byte_ok expected ->
  0 <= size <= zlen actual -> size <= zlen expected -> size / 16 < Z.of_nat fuel ->
  exists verdict es, blob_equal fuel raw true actual expected size = Done (verdict, es)
  /\ Z.of_nat (length es) = size / 16
  /\ forall i e, nth_error es i = Some e ->
       shows e (if verdict then 4 else 3) (if verdict then "Pass" else "Fail") (16 * Z.of_nat i mod 65536) (piece i actual) (piece i expected).
Proof.
  intros fuel raw a e size Hr Ba Be Ha He Hf. destruct (blob_equal_done fuel raw true a e size Hr Ha He Hf) as (v & E & V).
  eexists; eexists. split; [exact E|]. rewrite entries_length.
  pose proof (Z.div_pos size 16 ltac:(lia) ltac:(lia)). split; [lia|].
  intros i x Hx. assert (i < Z.to_nat (size / 16))%nat as Hi.
  { assert (nth_error (entries (Z.to_nat (size / 16)) 0 v (take size a) (take size e)) i <> None) as Hn by congruence.
    apply nth_error_Some in Hn. rewrite entries_length in Hn. exact Hn. }
  rewrite entries_nth in Hx by assumption. cbn [Nat.add] in Hx. injection Hx as <-.
  apply report_shows; try assumption. pose proof (Z.mul_div_le size 16 ltac:(lia)). lia.
Qed.

(** Every difference in the whole pieces is shown. *)
Theorem C117_difference_partial : forall fuel raw actual expected size k,
  raws_ok raw -> Forall byte_ok actual -> Forall byte_ok expected ->
  0 <= size <= zlen actual -> size <= zlen expected -> size / 16 < Z.of_nat fuel ->
  0 <= k < 16 * (size / 16) -> nth_error actual (Z.to_nat k) <> nth_error expected (Z.to_nat k) ->
  exists es, blob_equal fuel raw true actual expected size = Done (false, es) /\ difference_shown es k actual expected.
Proof.
  intros fuel raw a e size k Hr Ba Be Ha He Hf Hk Hd.
  destruct (blob_equal_done fuel raw true a e size Hr Ha He Hf) as (v & E & V).
  pose proof (Z.mul_div_le size 16 ltac:(lia)).
  assert (v = false) as ->.
  { destruct v; [|reflexivity]. exfalso. apply Hd. destruct V as [V _]. specialize (V eq_refl k ltac:(lia)).
    rewrite (nth_error_nth' a 0), (nth_error_nth' e 0) by (unfold zlen in *; lia). congruence. }
  eexists; split; [exact E|].
  pose proof (Z.div_mod k 16 ltac:(lia)). pose proof (Z.mod_pos_bound k 16 ltac:(lia)). pose proof (Z.div_pos k 16 ltac:(lia) ltac:(lia)).
  assert (k / 16 < size / 16) by (apply Z.div_lt_upper_bound; lia).
  exists (Z.to_nat (k / 16)). eexists. exists (16 * Z.of_nat (Z.to_nat (k / 16)) mod 65536), (piece (Z.to_nat (k / 16)) a), (piece (Z.to_nat (k / 16)) e), (Z.to_nat (k mod 16)).
  split; [rewrite entries_nth by lia; reflexivity|]. cbn [Nat.add].
  split; [apply (report_shows false); try assumption; lia|]. split; [lia|].
  rewrite !piece_nth by lia. replace (16 * Z.to_nat (k / 16) + Z.to_nat (k mod 16))%nat with (Z.to_nat k) by lia.
  auto.
Qed.

(** A case: 20 bytes with a difference in the first piece *)
Definition blob_a : list Z := map Z.of_nat (seq 1 20).
Definition blob_b : list Z := [1; 2; 3; 4; 5; 6; 7; 8; 9; 255] ++ map Z.of_nat (seq 11 10).
Definition case_raw (_ : nat) : list Z * list Z := (repeat 170 (Z.to_nat 2050), repeat 85 (Z.to_nat 2050)).
Example C117_case : raws_ok case_raw /\ Forall byte_ok blob_a /\ Forall byte_ok blob_b /\ zlen blob_a = 20 /\ zlen blob_b = 20
  /\ (exists e, blob_equal 5 case_raw true blob_a blob_b 20 = Done (false, [e])
      /\ shows e 3 "Fail" 0 (firstn 16 blob_a) (firstn 16 blob_b))
  /\ nth_error blob_a 9 <> nth_error blob_b 9.
Proof.
  assert (raws_ok case_raw) as R by (intros i; split; reflexivity).
  assert (Forall byte_ok blob_a) as Ba by (repeat (constructor; [unfold byte_ok; lia|]); constructor).
  assert (Forall byte_ok blob_b) as Bb by (repeat (constructor; [unfold byte_ok; lia|]); constructor).
  repeat split; auto; try (vm_compute; congruence).
  destruct (blob_equal_done 5 case_raw true blob_a blob_b 20 R) as (v & E & V); [vm_compute; intuition congruence..|].
  assert (v = false) as -> by (destruct v; [|reflexivity]; destruct V as [V _]; specialize (V eq_refl 9 ltac:(lia)); vm_compute in V; discriminate).
  eexists. split; [exact E|]. apply (report_shows false 0 20); auto. lia.
Qed.

(** The bytes behind the last whole piece are not shown: two blobs of 5 bytes that differ, and no message; two
    blobs of 20 bytes that differ, and the only message shows the same bytes for both. *)
Theorem C117_tail_refuted : exists a b c d,
  raws_ok case_raw /\ zlen a = 5 /\ zlen b = 5 /\ zlen c = 20 /\ zlen d = 20
  /\ ~ same_bytes 5 a b /\ blob_equal 5 case_raw true a b 5 = Done (false, [])
  /\ ~ same_bytes 20 c d
  /\ exists e bytes, blob_equal 5 case_raw true c d 20 = Done (false, [e]) /\ shows e 3 "Fail" 0 bytes bytes.
Proof.
  assert (raws_ok case_raw) as R by (intros i; split; reflexivity).
  exists [1; 2; 3; 4; 5], [1; 2; 3; 4; 6], blob_a, (firstn 19 blob_a ++ [0]).
  split; [exact R|]. repeat (split; [reflexivity|]).
  split; [intros K; specialize (K 4 ltac:(lia)); discriminate K|].
  split; [vm_compute; reflexivity|].
  assert (~ same_bytes 20 blob_a (firstn 19 blob_a ++ [0])) as N by (intros K; specialize (K 19 ltac:(lia)); discriminate K).
  split; [exact N|].
  destruct (blob_equal_done 5 case_raw true blob_a (firstn 19 blob_a ++ [0]) 20 R) as (v & E & V); [vm_compute; intuition congruence..|].
  assert (v = false) as -> by (destruct v; [|reflexivity]; exfalso; apply N, V; reflexivity).
  eexists. exists (firstn 16 blob_a). split; [exact E|]. apply (report_shows false 0 20).
  - repeat (constructor; [unfold byte_ok; lia|]); constructor.
  - repeat (constructor; [unfold byte_ok; lia|]); constructor.
  - lia.
Qed.

(** The comparison of strings: true exactly if the strings are the same; the one message shows both. *)
Theorem C117_strings : forall actual expected s t, c_str actual = Some s -> c_str expected = Some t ->
  exists verdict, (verdict = true <-> s = t)
  /\ str_equal false actual expected = Some (verdict, [])
  /\ str_equal true actual expected = Some (verdict,
       [(if verdict then 4 else 3,
         bytes_of_string (if verdict then "Pass: are_equal(actual=" else "Fail: are_equal(actual=") ++ s ++ bytes_of_string ", expected=" ++ t ++ bytes_of_string ")")]).
Proof.
  intros a e s t Ha He. destruct (strcmp0_spec a e s t Ha He) as (r & E & R). exists r. split; [exact R|].
  unfold str_equal. rewrite E, Ha, He. split; [reflexivity|]. unfold report. destruct r; reflexivity.
Qed.
Example C117_strings_case : str_equal true (bytes_of_string "ab" ++ [0; 7]) (bytes_of_string "abc" ++ [0])
  = Some (false, [(3, bytes_of_string "Fail: are_equal(actual=ab, expected=abc)")]).
Proof. vm_compute. reflexivity. Qed.

Print Assumptions C117_verdict.
Print Assumptions C117_report_partial.
Print Assumptions C117_difference_partial.
Print Assumptions C117_tail_refuted.
Print Assumptions C117_strings.
