(** The theorems about the paths of the samples: C108. *)

From Coq Require Import String ZArith List Bool Lia ZifyBool.
From Verif Require Import Base ListMem Paths_Model Paths_Spec Paths_Proofs.
Import ListNotations.
Open Scope list_scope.
Local Open Scope string_scope.
Open Scope list_scope.
Open Scope Z_scope.

(** The games: however the program was started and whatever the array held, nothing is written outside of it.  The pool and the results
    are next to the program, and files are served from its directory, unless the directory has 1009 characters or more: then the
    program says so and ends.  Started by name: the files are in the current directory (for the root directory see below). *)
Theorem C108_tictactoe : forall prog buf, zlen buf = 1024 -> text prog ->
  (started_by_name prog -> exists root, tictactoe_main (Some prog) buf = Goes (bytes_of_string "tictactoe.vmem", bytes_of_string "results.csv", root)) /\
  (forall dir, started_in dir prog -> zlen dir < 1009 -> tictactoe_main (Some prog) buf = Goes (beside dir "tictactoe.vmem", beside dir "results.csv", dir)) /\
  (forall dir, started_in dir prog -> 1009 <= zlen dir -> tictactoe_main (Some prog) buf = Too_long).
Proof.
  intros prog buf B T. destruct (game_spec tictactoe_vmem results_csv prog buf B T) as (A & C); try (repeat constructor; discriminate); try discriminate.
  split; [intro S; exists []; exact (A S)|]. unfold tictactoe_main. assert (M : Z.max (zlen tictactoe_vmem) (zlen results_csv) = 14) by reflexivity. rewrite M in C.
  split; intros dir S L; rewrite (C dir S); destruct (Z.leb_spec 1024 (zlen dir + 1 + 14)); try lia; reflexivity.
Qed.
Theorem C108_connect4 : forall prog buf, zlen buf = 1024 -> text prog ->
  (started_by_name prog -> exists root, connect4_main (Some prog) buf = Goes (bytes_of_string "connect4.vmem", bytes_of_string "results.csv", root)) /\
  (forall dir, started_in dir prog -> zlen dir < 1010 -> connect4_main (Some prog) buf = Goes (beside dir "connect4.vmem", beside dir "results.csv", dir)) /\
  (forall dir, started_in dir prog -> 1010 <= zlen dir -> connect4_main (Some prog) buf = Too_long).
Proof.
  intros prog buf B T. destruct (game_spec connect4_vmem results_csv prog buf B T) as (A & C); try (repeat constructor; discriminate); try discriminate.
  split; [intro S; exists []; exact (A S)|]. unfold connect4_main. assert (M : Z.max (zlen connect4_vmem) (zlen results_csv) = 13) by reflexivity. rewrite M in C.
  split; intros dir S L; rewrite (C dir S); destruct (Z.leb_spec 1024 (zlen dir + 1 + 13)); try lia; reflexivity.
Qed.
(** An array that holds anything *)
Definition dirt : list Z := repeat 77 1024.
Example C108_tictactoe_ex : zlen dirt = 1024 /\ text (bytes_of_string "/home/pi/abc/tictactoe") /\ started_in (bytes_of_string "/home/pi/abc") (bytes_of_string "/home/pi/abc/tictactoe") /\
  tictactoe_main (Some (bytes_of_string "/home/pi/abc/tictactoe")) dirt =
    Goes (bytes_of_string "/home/pi/abc/tictactoe.vmem", bytes_of_string "/home/pi/abc/results.csv", bytes_of_string "/home/pi/abc") /\
  tictactoe_main (Some (repeat 65 1009 ++ bytes_of_string "/t")) dirt = Too_long /\
  exists r, connect4_main (Some (repeat 65 1009 ++ bytes_of_string "/t")) dirt = Goes r.
Proof.
  split; [reflexivity|]. split; [repeat constructor; discriminate|]. split.
  - exists (bytes_of_string "tictactoe"). split; [reflexivity|]. cbn. intro H. repeat (destruct H as [H|H]; [discriminate|]). exact H.
  - split; [vm_compute; reflexivity|]. split; [vm_compute; reflexivity|]. eexists. vm_compute. reflexivity.
Qed.
(** The vmem sample *)
Theorem C108_vmem : forall prog buf, zlen buf = 1024 -> text prog ->
  (started_by_name prog -> vmem_main (Some prog) buf = Goes (bytes_of_string "pool.vmem")) /\
  (forall dir, started_in dir prog -> zlen dir < 1014 -> vmem_main (Some prog) buf = Goes (beside dir "pool.vmem")) /\
  (forall dir, started_in dir prog -> 1014 <= zlen dir -> vmem_main (Some prog) buf = Too_long).
Proof.
  intros prog buf B T. destruct (vmem_spec prog buf B T) as (A & C). split; [exact A|].
  split; intros dir S L; rewrite (C dir S); destruct (Z.leb_spec 1014 (zlen dir)); try lia; reflexivity.
Qed.
Example C108_vmem_ex : vmem_main (Some (bytes_of_string "./vmem")) dirt = Goes (bytes_of_string "./pool.vmem") /\ vmem_main (Some (bytes_of_string "vmem")) dirt = Goes (bytes_of_string "pool.vmem").
Proof. split; vm_compute; reflexivity. Qed.
(** The TLS sample *)
Theorem C108_tls : forall prog buf1 buf2, zlen buf1 = 1024 -> zlen buf2 = 1024 -> text prog ->
  (started_by_name prog -> tls_main (Some prog) buf1 buf2 = Goes (bytes_of_string "cert.pem", bytes_of_string "pkey.pem")) /\
  (forall dir, started_in dir prog -> zlen dir < 1015 -> tls_main (Some prog) buf1 buf2 = Goes (beside dir "cert.pem", beside dir "pkey.pem")) /\
  (forall dir, started_in dir prog -> 1015 <= zlen dir -> tls_main (Some prog) buf1 buf2 = Too_long).
Proof.
  intros prog buf1 buf2 B1 B2 T. destruct (tls_spec prog buf1 buf2 B1 B2 T) as (A & C). split; [exact A|].
  split; intros dir S L; rewrite (C dir S); destruct (Z.leb_spec 1015 (zlen dir)); try lia; reflexivity.
Qed.
Example C108_tls_ex : tls_main (Some (bytes_of_string "/usr/bin/tls")) dirt dirt = Goes (bytes_of_string "/usr/bin/cert.pem", bytes_of_string "/usr/bin/pkey.pem").
Proof. vm_compute. reflexivity. Qed.
(** The car *)
Theorem C108_car : forall prog buf, zlen buf = 1024 -> text prog ->
  (started_by_name prog -> exists root, car_main (Some prog) buf = Goes root) /\
  (forall dir, started_in dir prog -> zlen dir < 1024 -> car_main (Some prog) buf = Goes dir) /\
  (forall dir, started_in dir prog -> 1024 <= zlen dir -> car_main (Some prog) buf = Too_long).
Proof.
  intros prog buf B T. destruct (car_spec prog buf B T) as (A & C). split; [intro S; exists []; exact (A S)|].
  split; intros dir S L; rewrite (C dir S); destruct (Z.leb_spec 1024 (zlen dir)); try lia; reflexivity.
Qed.
Example C108_car_ex : car_main (Some (bytes_of_string "/home/pi/picar_4wd")) dirt = Goes (bytes_of_string "/home/pi") /\ car_main (Some (repeat 65 1023 ++ bytes_of_string "/p")) dirt = Goes (repeat 65 1023).
Proof. split; vm_compute; reflexivity. Qed.
(** The cases are all there are: either the program was started by name, or there is a directory. *)
Theorem C108_cases : forall prog, started_by_name prog \/ exists dir, started_in dir prog.
Proof. exact started. Qed.
Example C108_cases_ex : started_by_name (bytes_of_string "tictactoe") /\ started_in [] (bytes_of_string "/tictactoe").
Proof.
  split; [|exists (bytes_of_string "tictactoe"); split; [reflexivity|]]; cbn; intro H; repeat (destruct H as [H|H]; [discriminate|]); exact H.
Qed.
(** False: "a game serves its files from the directory it keeps its pool in".  Started by name (found in PATH) it keeps the pool in the current
    directory, but a request for /resources/index.html, to which the endpoint puts the root directory in front, reads from the root of the file system. *)
Theorem C108_name_refuted : exists prog v r root, text prog /\ started_by_name prog /\ tictactoe_main (Some prog) dirt = Goes (v, r, root) /\
  v = bytes_of_string "tictactoe.vmem" /\ root ++ bytes_of_string "/resources/index.html" = bytes_of_string "/resources/index.html" /\ car_main (Some prog) dirt = Goes root.
Proof.
  exists (bytes_of_string "tictactoe"), tictactoe_vmem, results_csv, []. split; [repeat constructor; discriminate|]. split; [apply C108_cases_ex|].
  split; [vm_compute; reflexivity|]. split; [reflexivity|]. split; [reflexivity|]. vm_compute. reflexivity.
Qed.
(** False without argv[0]: the null pointer is read. *)
Theorem C108_argv_refuted : exists a, tictactoe_main a dirt = Bad /\ connect4_main a dirt = Bad /\ vmem_main a dirt = Bad /\ tls_main a dirt dirt = Bad /\ car_main a dirt = Bad.
Proof. exists None. repeat split; vm_compute; reflexivity. Qed.

Print Assumptions C108_tictactoe.
Print Assumptions C108_connect4.
Print Assumptions C108_vmem.
Print Assumptions C108_tls.
Print Assumptions C108_car.
Print Assumptions C108_cases.
Print Assumptions C108_name_refuted.
Print Assumptions C108_argv_refuted.
