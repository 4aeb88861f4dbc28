(** What users rely on when a pool is opened. *)

From Coq Require Import ZArith List Bool String.
From Verif Require Import Base Cache_Model Open_Model.
Import ListNotations.
Open Scope Z_scope.

(** A file has these bytes at [off]. *)
Fixpoint has_bytes (f : file) (off : Z) (l : list Z) : Prop :=
  match l with [] => True | b :: l => f_at f off = b /\ has_bytes f (off + 1) l end.
(** A pool file begins with version 2, the signature abc::vmem with a zero behind it, and the page size 4096, all in
    little endian bytes, and is as long as some number of pages. *)
Definition header : list Z := [2; 0; 97; 98; 99; 58; 58; 118; 109; 101; 109; 0; 0; 16].
Definition is_pool (f : file) : Prop := has_bytes f 0 header /\ 0 < f_size f /\ (4096 | f_size f).
(** The bytes of a file are bytes. *)
Definition bytes (f : file) : Prop := 0 <= f_size f /\ forall i, 0 <= f_at f i < 256.
(** The result of a write() of 4096 bytes. *)
Definition write_result (w : Z) : Prop := -1 <= w <= 4096.
(** The empty file, which open() makes if there is none. *)
Definition no_file : file := mkFile 0 (fun _ => 0).
(** A new pool: a root page without free pages and a blank start page. *)
Definition is_new_pool (f : file) : Prop :=
  f_size f = 8192 /\ has_bytes f 0 header /\ has_bytes f 16 (repeat 255 16) /\ (forall i, 33 <= i < 8192 -> f_at f i = 0).
