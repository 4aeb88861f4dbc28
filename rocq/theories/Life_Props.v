(** C115: what is put into a line reaches the table once.  [once] says what a user relies on. *)

From Coq Require Import ZArith List Bool Lia.
From Verif Require Import Base ListMem Table_Model Table_Proofs Life_Model Life_Spec Life_Proofs.
Import ListNotations.
Open Scope Z_scope.

(** True as long as no line is moved, none ends empty (for instance right after flush()), and << is not used. *)
Theorem C115_once_partial : forall size l b, 0 <= size < 2 ^ 31 -> plain size book_new l = true -> once size l = Some b ->
  exists w, run size world_new l = Some w /\ w_out w = b_out b.
Proof.
  intros size l b Hs P E. destruct (plain_run size l book_new b P E) as (N & R).
  destruct (run_same size Hs l world_new book_new b (start_same size) N R) as (w & Ew & S & _). exists w. split; [exact Ew|exact S].
Qed.

(** What the table receives in every program that does not use <<: a line that was moved from keeps its text and writes it again, and a line that
    holds nothing writes an empty line at its end. *)
Theorem C115_exact : forall size l b, 0 <= size < 2 ^ 31 -> forallb no_show l = true -> book_run true true size book_new l = Some b ->
  exists w, run size world_new l = Some w /\ w_out w = b_out b.
Proof.
  intros size l b Hs N R. destruct (run_same size Hs l world_new book_new b (start_same size) N R) as (w & Ew & S & _). exists w. split; [exact Ew|exact S].
Qed.

(** abc::line_ostream<> a(&table); a.put_any("ab"); abc::line_ostream<> b(std::move(a)); } writes the line twice. *)
Theorem C115_moved_refuted : exists l b w, once 4 l = Some b /\ run 4 world_new l = Some w /\
  l = [LNew [0;0;0;0;0;0]; LPut 0 [97;98]; LMove 0; LEnd 1; LEnd 0] /\ b_out b = [97;98;10] /\ w_out w = [97;98;10] ++ [97;98;10].
Proof.
  set (l := [LNew [0;0;0;0;0;0]; LPut 0 [97;98]; LMove 0; LEnd 1; LEnd 0]).
  exists l. unfold once. destruct (book_run false false 4 book_new l) as [b|] eqn:Eb; [|vm_compute in Eb; discriminate].
  destruct (run 4 world_new l) as [w|] eqn:Ew; [|vm_compute in Ew; discriminate].
  exists b, w. split; [reflexivity|]. split; [reflexivity|]. split; [reflexivity|].
  split; [assert (option_map b_out (book_run false false 4 book_new l) = Some [97;98;10]) as H by (vm_compute; reflexivity); rewrite Eb in H; injection H as H; exact H|].
  assert (option_map w_out (run 4 world_new l) = Some [97;98;10;97;98;10]) as H by (vm_compute; reflexivity). rewrite Ew in H. injection H as H. exact H.
Qed.

(** A line that is flushed and then destroyed writes an empty line more. *)
Theorem C115_flushed_refuted : exists l, option_map b_out (once 4 l) = Some [97;98;10] /\ option_map w_out (run 4 world_new l) = Some [97;98;10;10] /\
  l = [LNew [0;0;0;0;0;0]; LPut 0 [97;98]; LFlush 0; LEnd 0].
Proof. eexists. split; [|split; [|reflexivity]]; vm_compute; reflexivity. Qed.

(** Text put by << does not reach the table; it overwrites what is there. *)
Theorem C115_show_refuted : exists l, option_map b_out (once 8 l) = Some [97;98;99;88;89;10] /\ option_map w_out (run 8 world_new l) = Some [88;89;99;10] /\
  l = [LNew [0;0;0;0;0;0;0;0;0;0]; LPut 0 [97;98;99]; LShow 0 [88;89]; LEnd 0].
Proof. eexists. split; [|split; [|reflexivity]]; vm_compute; reflexivity. Qed.

Theorem C115_unseen_refuted : exists l, option_map b_out (once 8 l) = Some [97;98;10] /\ option_map w_out (run 8 world_new l) = Some [10] /\
  l = [LNew [0;0;0;0;0;0;0;0;0;0]; LShow 0 [97;98]; LEnd 0].
Proof. eexists. split; [|split; [|reflexivity]]; vm_compute; reflexivity. Qed.

(** After a move << writes to the object that was moved from, which may be gone. *)
Theorem C115_gone_refuted : exists l, option_map b_out (once 4 l) = Some [97;10] /\ run 4 world_new l = None /\
  l = [LNew [0;0;0;0;0;0]; LMove 0; LEnd 0; LShow 1 [97]; LEnd 1].
Proof. eexists. split; [|split; [|reflexivity]]; vm_compute; reflexivity. Qed.

Example C115_once_case : let l := [LNew [0;0;0;0;0;0]; LNew [7;7;7;7;7;7]; LPut 0 [97]; LPut 1 [65;66]; LFlush 1; LPut 0 [98]; LPut 1 [67]; LEnd 1; LEnd 0] in
  plain 4 book_new l = true /\ option_map b_out (once 4 l) = Some [65;66;10;67;10;97;98;10].
Proof. split; vm_compute; reflexivity. Qed.
Example C115_exact_case : let l := [LNew [0;0;0;0;0;0]; LPut 0 [97]; LMove 0; LPut 1 [98]; LFlush 1; LEnd 0; LEnd 1] in
  forallb no_show l = true /\ option_map b_out (book_run true true 4 book_new l) = Some [97;98;10;97;10;10].
Proof. split; vm_compute; reflexivity. Qed.

Print Assumptions C115_once_partial.
Print Assumptions C115_exact.
Print Assumptions C115_moved_refuted.
Print Assumptions C115_flushed_refuted.
Print Assumptions C115_show_refuted.
Print Assumptions C115_unseen_refuted.
Print Assumptions C115_gone_refuted.
