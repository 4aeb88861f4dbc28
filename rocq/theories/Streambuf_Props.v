(** C02: buffer_streambuf. *)

From Coq Require Import ZArith List Bool Lia.
From Verif Require Import Base Streambuf_Model Streambuf_Spec Streambuf_Proofs.
Import ListNotations.
Open Scope Z_scope.

(** Every sequence of stream operations answers like the two tapes: reads yield
    the characters of the get range in order and then EOF, writes are accepted
    exactly while there is room; the memory ends up with the accepted characters
    at the start of the put range and is otherwise unchanged. *)
Theorem C02_reads_and_writes : forall m g0 g1 p0 p1 ops, g0 <= g1 -> p0 <= p1 ->
  (forall x, g0 <= x < g1 -> ~ (p0 <= x < p1)) ->
  let '(s, rs) := sb_run (sb_reset m g0 g1 p0 p1) ops in
  let '(t, rs') := t_run {| before := []; after := bytes_at m g0 (Z.to_nat (g1 - g0)); written := []; room := Z.to_nat (p1 - p0) |} ops in
  rs = rs'
  /\ (zlen (written t) <= p1 - p0)
  /\ bytes_at (sb_mem s) p0 (length (written t)) = written t
  /\ forall x, ~ (p0 <= x < p0 + zlen (written t)) -> sb_mem s x = m x.
Proof. exact streambuf_refines. Qed.

(** Even when the ranges overlap no write leaves the put range. *)
Theorem C02_write_bounds : forall m g0 g1 p0 p1 ops x, ~ (p0 <= x < p1) ->
  sb_mem (fst (sb_run (sb_reset m g0 g1 p0 p1) ops)) x = m x.
Proof. intros. apply (put_bounds ops (sb_reset m g0 g1 p0 p1) p0 p1); cbn; auto; lia. Qed.

Example C02_ex :
  let m := fun a => a in
  let '(s, rs) := sb_run (sb_reset m 10 13 20 22) [Getn 2; Put 7; Peek; Bump; Bump; Unget; Putn [8; 9]; Put 1] in
  rs = [RChars [10; 11]; RChar (Some 7); RChar (Some 12); RChar (Some 12); RChar None; RChar (Some 12); RCount 1; RChar None]
  /\ bytes_at (sb_mem s) 19 5 = [19; 7; 8; 22; 23].
Proof. vm_compute. auto. Qed.

(** C60: moving a buffer stream does not keep its position: the moved-to stream
    starts over at the beginning of both ranges. *)
Theorem C60_move_position_refuted : exists m ops,
  let s := fst (sb_run (sb_reset m 10 13 20 22) ops) in
  snd (sb_step s Bump) = RChar (Some 11) /\ snd (sb_step (sb_move s) Bump) = RChar (Some 10)
  /\ (* the next character written overwrites the first one *)
     bytes_at (sb_mem (fst (sb_run (sb_move s) [Put 9]))) 20 1 = [9] /\ bytes_at (sb_mem s) 20 1 = [7].
Proof. exists (fun a => a), [Bump; Put 7]. vm_compute. auto. Qed.
(** What does hold: a stream that has not been used yet is moved faithfully. *)
Theorem C60_move_fresh_partial : forall m g0 g1 p0 p1 ops,
  sb_run (sb_move (sb_reset m g0 g1 p0 p1)) ops = sb_run (sb_reset m g0 g1 p0 p1) ops.
Proof. reflexivity. Qed.

Print Assumptions C02_reads_and_writes.
Print Assumptions C02_write_bounds.
Print Assumptions C60_move_position_refuted.
Print Assumptions C60_move_fresh_partial.
