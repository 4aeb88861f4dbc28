(** C118: a debug log or a diagnostic log says what was logged: time, thread, category, severity, tag and text of
    every entry that passes the filter can be read back from it, in order.

    Full statement: for every history of entries (in the ranges of the types, fitting into their lines), reading the
    log gives the entries that pass the filter.  True if no text contains a newline (C118_read_partial); false
    otherwise: a text with a newline makes an entry that was never logged (C118_forged_refuted). *)

From Coq Require Import String.
From Coq Require Import ZArith List Bool Lia ZifyBool.
From Verif Require Import Base ListMem Table_Model Table_Spec Table_Proofs Entry_Model Entry_Spec Entry_Proofs.
Import ListNotations.
Open Scope Z_scope.

Theorem C118_read_partial : forall k size filter es,
  0 <= size < 2 ^ 31 -> Forall (entry_ok size) es -> Forall one_line (shown filter es) ->
  exists out, put_entries k size filter [] es = Some out /\ read_log k [] out = Some (map fact_of (shown filter es)).
Proof.
  intros k size filter es Hs H O. eexists. split; [apply put_entries_out; assumption|]. cbn [app].
  apply (read_shown size); [apply shown_Forall; exact H|exact O].
Qed.

(** Whatever the texts are, the log is the lines of the entries that pass the filter, one after the other, each with
    its properties in front: it is never out of bounds, and appending entries does not change what was written. *)
Theorem C118_appends : forall k size filter es es',
  0 <= size < 2 ^ 31 -> Forall (entry_ok size) (es ++ es') ->
  exists out more, put_entries k size filter [] es = Some out /\ put_entries k size filter [] (es ++ es') = Some (out ++ more)
  /\ put_entries k size filter [] es' = Some more.
Proof.
  intros k size filter es es' Hs H. pose proof H as H'. apply Forall_app in H. destruct H as [H1 H2].
  rewrite !put_entries_out by assumption. cbn [app]. eexists. eexists. split; [reflexivity|]. split; [|reflexivity].
  unfold shown. rewrite filter_app, map_app, concat_app. reflexivity.
Qed.

Definition t0 : when := {| year := 2023; month := 7; day := 4; hours := 5; minutes := 6; seconds := 7; millis := 89 |}.
Definition mk (sev tag : Z) (text : list Z) : entry :=
  {| e_time := t0; e_thread := bytes_of_string "7f3c01"; e_category := 32772; e_severity := sev; e_tag := tag; e_text := text;
     e_raw := repeat 170 (Z.to_nat 302) |}.
Definition case_es : list entry :=
  [mk 2 66000 (bytes_of_string "a | b, c"); mk 8 1 (bytes_of_string "hidden"); mk 3 (2 ^ 64 - 1) []].
Example C118_case : Forall (entry_ok 300) case_es /\ Forall one_line (shown (Some 4) case_es)
  /\ put_entries Diag 300 (Some 4) [] case_es
     = Some (bytes_of_string "2023-07-04T05:06:07.089Z,7f3c01,8004,2,101d0,a | b, c" ++ [10]
             ++ bytes_of_string "2023-07-04T05:06:07.089Z,7f3c01,8004,3,ffffffffffffffff," ++ [10])
  /\ put_entries Debug 300 (Some 4) [] [mk 2 66000 (bytes_of_string "x")]
     = Some (bytes_of_string "2023-07-04 05:06:07.089 |           7f3c01 | 8004 | 2 |            101d0 | x" ++ [10]).
Proof.
  split.
  - repeat constructor; cbn; try lia; try discriminate.
  - split; [repeat constructor; unfold one_line; cbn; lia|]. split; vm_compute; reflexivity.
Qed.

(** Two histories with the same log: the text of the only entry of the first one contains a newline and a line of its
    own, and reads as an entry with another severity and tag. *)
Theorem C118_forged_refuted : forall k, exists es es',
  Forall (entry_ok 300) es /\ Forall (entry_ok 300) es' /\ length es = 1%nat /\ length es' = 2%nat
  /\ put_entries k 300 None [] es = put_entries k 300 None [] es'
  /\ exists out, put_entries k 300 None [] es = Some out /\ read_log k [] out = Some (map fact_of es')
     /\ map fact_of es' <> map fact_of es.
Proof.
  intros [].
  - exists [mk 3 5 (bytes_of_string "user=x" ++ [10] ++ bytes_of_string "2023-07-04 05:06:07.089 |           7f3c01 | 8004 | 1 |             1234 | shutdown")],
           [mk 3 5 (bytes_of_string "user=x"); mk 1 4660 (bytes_of_string "shutdown")].
    split; [repeat constructor; cbn; try lia; try discriminate|]. split; [repeat constructor; cbn; try lia; try discriminate|].
    split; [reflexivity|]. split; [reflexivity|]. split; [vm_compute; reflexivity|].
    eexists. split; [vm_compute; reflexivity|]. split; [vm_compute; reflexivity|]. intros K. apply (f_equal (@length _)) in K. discriminate K.
  - exists [mk 3 5 (bytes_of_string "user=x" ++ [10] ++ bytes_of_string "2023-07-04T05:06:07.089Z,7f3c01,8004,1,1234,shutdown")],
           [mk 3 5 (bytes_of_string "user=x"); mk 1 4660 (bytes_of_string "shutdown")].
    split; [repeat constructor; cbn; try lia; try discriminate|]. split; [repeat constructor; cbn; try lia; try discriminate|].
    split; [reflexivity|]. split; [reflexivity|]. split; [vm_compute; reflexivity|].
    eexists. split; [vm_compute; reflexivity|]. split; [vm_compute; reflexivity|]. intros K. apply (f_equal (@length _)) in K. discriminate K.
Qed.

Print Assumptions C118_read_partial.
Print Assumptions C118_appends.
Print Assumptions C118_forged_refuted.
