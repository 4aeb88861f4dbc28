(** C19-C22, C61: line buffers, tables and logs. *)

From Coq Require Import String ZArith List Bool Lia.
From Verif Require Import Base ListMem Table_Model Table_Spec Table_Proofs.
Import ListNotations.
Open Scope string_scope.
Open Scope list_scope.
Open Scope Z_scope.

Definition s2b := bytes_of_string.

(** C19 full claim: for every history of operations line_run is defined (no access
    outside the Size+2 bytes).  It is false: three formatted characters beyond Size make
    flush read past the buffer, and a second put writes past it. *)
Theorem C19_overrun_refuted : exists ops, line_run (line_new 4 [1;1;1;1;1;1] (Some [])) ops = None
  /\ ops = [LPut (s2b "overrun"); LFlush].
Proof. eexists. split; [|reflexivity]. vm_compute. reflexivity. Qed.
Theorem C19_overwrite_refuted : line_run (line_new 4 [1;1;1;1;1;1] None) [LPut (s2b "overrun"); LPut (s2b "x")] = None.
Proof. vm_compute. reflexivity. Qed.
(** Printing the id of no thread (36 characters) leaves the 17-byte scratch buffer unterminated. *)
Theorem C19_thread_id_refuted :
  line_run (line_new 100 (repeat 1 102) None) [LThread (s2b "thread::id of a non-executing thread")] = None.
Proof. vm_compute. reflexivity. Qed.
(** Part that holds: if every formatted piece fits into what is left of Size and thread
    ids have at most 15 characters, every history stays inside the buffer. *)
Theorem C19_no_overrun_partial : forall size raw table ops, 0 <= size < 2 ^ 31 -> zlen raw = size + 2 ->
  pieces_fit size 0 ops ->
  exists l, line_run (line_new size raw table) ops = Some l /\ zlen (l_buf l) = size + 2.
Proof.
  intros size raw table ops Hs Hr F. apply (inb_run size Hs ops _ 0); [|exact F].
  unfold inb, line_new; cbn. repeat split; auto; lia.
Qed.
Example C19_ex : exists l, pieces_fit 4 0 [LPut (s2b "ab"); LGet; LPut (s2b "cd"); LBinary [1] 0; LFlush; LThread (s2b "7f")]
  /\ line_run (line_new 4 [1;1;1;1;1;1] (Some [])) [LPut (s2b "ab"); LGet; LPut (s2b "cd"); LBinary [1] 0; LFlush; LThread (s2b "7f")] = Some l.
Proof. eexists. vm_compute. repeat split; congruence. Qed.

(** C20: as long as the text between two flushes is shorter than Size, the table receives
    exactly that text plus a newline per flush. *)
Theorem C20_flushed_lines_partial : forall size raw out ops, 0 <= size < 2 ^ 31 -> zlen raw = size + 2 ->
  fits size 0 ops ->
  exists l, line_run (line_new size raw (Some out)) (map to_line_op ops) = Some l /\ l_table l = Some (out ++ lines [] ops).
Proof. intros. apply (lines_run size); auto. apply new_holds; auto. Qed.
Example C20_ex : fits 6 0 [TPut (s2b "ab"); TPut (s2b "cde"); TFlush; TFlush; TPut (s2b "f"); TFlush]
  /\ lines [] [TPut (s2b "ab"); TPut (s2b "cde"); TFlush; TFlush; TPut (s2b "f"); TFlush]
     = s2b "abcde" ++ [10; 10] ++ s2b "f" ++ [10].
Proof. vm_compute. repeat split; reflexivity. Qed.
(** The full claim says fits into Size; with exactly Size characters it is false: the last one
    is replaced by a null. *)
Theorem C20_full_line_refuted : exists l,
  line_run (line_new 4 [1;1;1;1;1;1] (Some [])) [LPut (s2b "abcd"); LFlush] = Some l
  /\ l_table l = Some (s2b "abc" ++ [0; 10]).
Proof. eexists. vm_compute. split; reflexivity. Qed.

(** C21: the loop over dump lines ends; the lines, parsed back, are the 16-byte pieces of the
    buffer with their offsets; the pieces make up the buffer.  (When the length is a multiple
    of 16 one more line without dump follows.) *)
Theorem C21_binary_dump : forall size raw out props data sev,
  0 <= size < 2 ^ 31 -> zlen raw = size + 2 -> (forall i, zlen (props i) + 72 < size) ->
  zlen data < 65536 -> Forall byte_ok data ->
  exists lns,
    log_put_bin (bin_fuel data) {| g_size := size; g_filter := None; g_out := out |} sev raw props data
    = Done {| g_size := size; g_filter := None;
              g_out := out ++ dump_out props 0 (lns ++ (if zlen data mod 16 =? 0 then [[]] else [])) |}
    /\ map parse_dump_line lns
       = map Some (combine (map (fun k => 16 * Z.of_nat k) (seq 0 (n_chunks data))) (chunks (n_chunks data) data))
    /\ concat (chunks (n_chunks data) data) = data.
Proof. exact binary_dump. Qed.
Example C21_ex :
  let data := s2b "0123456789abcdefXY" ++ [0; 255] in
  log_put_bin (bin_fuel data) {| g_size := 100; g_filter := None; g_out := [] |} 0 (repeat 1 102) (fun _ => s2b "> ") data
  = Done {| g_size := 100; g_filter := None; g_out :=
      s2b "> 0000: 30 31 32 33 34 35 36 37  38 39 61 62 63 64 65 66  0123456789abcdef" ++ [10] ++
      s2b "> 0010: 58 59 00 ff                                       XY..            " ++ [10] |}.
Proof. vm_compute. reflexivity. Qed.
(** With a line too short for a dump line nothing is shown at all. *)
Theorem C21_short_line_shows_nothing : exists data, data <> [] /\
  log_put_bin (bin_fuel data) {| g_size := 70; g_filter := None; g_out := [] |} 0 (repeat 1 72) (fun _ => []) data
  = Done {| g_size := 70; g_filter := None; g_out := [10] |}.
Proof. exists [7]. split; [discriminate|]. vm_compute. reflexivity. Qed.

(** C22: the output of a filtered history is what an unfiltered log shows for exactly the
    operations that pass the filter in force at their time. *)
Theorem C22_filter : forall size ops f out, 0 <= size < 2 ^ 31 -> Forall (op_fits size) ops ->
  exists out' f',
    log_run {| g_size := size; g_filter := f; g_out := out |} ops = Done {| g_size := size; g_filter := f'; g_out := out' |}
    /\ log_run {| g_size := size; g_filter := None; g_out := out |} (passed f ops) = Done {| g_size := size; g_filter := None; g_out := out' |}.
Proof. exact log_filtering. Qed.
(** Shown text of one unfiltered message: properties, message, newline. *)
Theorem C22_message_text : forall size raw props text s f out, 0 <= size < 2 ^ 31 -> zlen raw = size + 2 ->
  zlen props + zlen text < size ->
  log_step {| g_size := size; g_filter := f; g_out := out |} (LText s raw props text)
  = Done {| g_size := size; g_filter := f;
            g_out := match f with
                     | None => out ++ props ++ text ++ [10]
                     | Some m => if s <=? m then out ++ props ++ text ++ [10] else out
                     end |}.
Proof.
  intros. rewrite (log_step_spec size) by (cbn; auto). cbn [g_filter g_out is_min op_severity orb emitted].
  unfold enabled, is_higher_or_equal. destruct f as [m|]; [destruct (s <=? m)|]; reflexivity.
Qed.
(** Raising the verbosity never hides a message. *)
Theorem C22_monotone : forall ops m1 m2, m1 <= m2 -> Forall (fun o => is_min o = false) ops ->
  forall o, In o (passed (Some m1) ops) -> In o (passed (Some m2) ops).
Proof. exact passed_monotone. Qed.
Example C22_ex :
  let raw := repeat 1 102 in
  let ops := [LText 2 raw (s2b "p:") (s2b "a"); LText 5 raw (s2b "p:") (s2b "b"); LMin 5; LText 5 raw (s2b "p:") (s2b "c"); LBlank 6; LBlank 1] in
  log_run {| g_size := 100; g_filter := Some 3; g_out := [] |} ops
  = Done {| g_size := 100; g_filter := Some 5; g_out := s2b "p:a" ++ [10] ++ s2b "p:c" ++ [10; 10] |}.
Proof. vm_compute. reflexivity. Qed.

(** C61: a test log line is indented by two blanks per severity level above critical,
    for every initial content of the scratch array ... *)
Theorem C61_test_indent_partial : forall raw s, zlen raw = 17 -> 1 <= s <= 255 ->
  test_indent raw s = Some (repeat 32 (Z.to_nat (2 * (Z.min s 8 - 1)))).
Proof. exact test_indent_spec. Qed.
Example C61_ex : test_indent (repeat 7 17) 3 = Some [32; 32; 32; 32] /\ test_indent (repeat 7 17) 200 = Some (repeat 32 14).
Proof. vm_compute. auto. Qed.
(** ... but severity 0 (off) writes before the array. *)
Theorem C61_test_indent_refuted : forall raw, test_indent raw 0 = None.
Proof.
  intros. unfold test_indent. cbn [Z.leb Z.compare]. change (repeat 32 (Z.to_nat (2 * 0))) with (@nil Z).
  destruct (write_at raw 0 []); reflexivity.
Qed.

Print Assumptions C19_overrun_refuted.
Print Assumptions C19_overwrite_refuted.
Print Assumptions C19_thread_id_refuted.
Print Assumptions C19_no_overrun_partial.
Print Assumptions C20_flushed_lines_partial.
Print Assumptions C20_full_line_refuted.
Print Assumptions C21_binary_dump.
Print Assumptions C21_short_line_shows_nothing.
Print Assumptions C22_filter.
Print Assumptions C22_message_text.
Print Assumptions C22_monotone.
Print Assumptions C61_test_indent_partial.
Print Assumptions C61_test_indent_refuted.
