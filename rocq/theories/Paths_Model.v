(** Model of how the samples build paths from argv[0]: samples/tictactoe/main.cpp:51-120, samples/connect4/main.cpp:51-118,
    samples/vmem/main.cpp:74-102, samples/tls/main.cpp:106-147, samples/picar_4wd/main.cpp:43-74.
    An array of char is a list of bytes; writing outside of it is [Bad].  argv[0] is its characters without the terminating 0;
    None: argv[0] == nullptr (a program started with an empty argv).
    Left out: what is done with the paths (pool, stream and endpoint read them at once: the array is reused afterwards). *)

From Coq Require Import String ZArith List Bool.
From Verif Require Import Base ListMem.
Import ListNotations.
Open Scope list_scope.
Open Scope Z_scope.

(** samples/picar_4wd/main.cpp:43-74: How a main goes on: it touches memory outside of an array; it returns 1 at once; it goes on with the paths. *)
Inductive going (A : Type) := Bad | Too_long | Goes (x : A).
Arguments Bad {A}.
Arguments Too_long {A}.
Arguments Goes {A} x.
(** (samples/tictactoe/main.cpp:55-111) one after the other *)
Definition then_ {A B} (x : option A) (f : A -> going B) : going B := match x with Some a => f a | None => Bad end.

(** samples/tictactoe/main.cpp:53, abc::size::k1 *)
Definition max_path : Z := 1024.
(** std::strrchr(argv[0], '/') - argv[0] (samples/tictactoe/main.cpp:63, 68); None: nullptr *)
Fixpoint last_separator (s : list Z) : option Z :=
  match s with
  | [] => None
  | c :: s => match last_separator s with Some i => Some (i + 1) | None => if c =? 47 then Some 0 else None end
  end.
(** std::strncpy (samples/tictactoe/main.cpp:80): n bytes, zeros after the end of the source *)
Definition strncpy (b src : list Z) (n : Z) : option (list Z) :=
  write_at b 0 (take n src ++ repeat 0 (Z.to_nat (n - zlen src))).
(** std::strcpy to an offset (samples/tictactoe/main.cpp:82, 102) *)
Definition strcpy_at (b : list Z) (p : Z) (src : list Z) : option (list Z) := write_at b p (src ++ [0]).
(** An array read as a string (samples/tictactoe/main.cpp:89, 104, 118); None: there is no 0 in it *)
Fixpoint c_str (b : list Z) : option (list Z) :=
  match b with
  | [] => None
  | c :: b => if c =? 0 then Some [] else option_map (cons c) (c_str b)
  end.

(** main of the games (samples/tictactoe/main.cpp:51-120, samples/connect4/main.cpp:51-118); [buf] is the uninitialised array.
    The answer: the path of the pool, of the results, the root directory. *)
Definition game_main (vmem_path results_path : list Z) (argv0 : option (list Z)) (buf : list Z) : going (list Z * list Z * list Z) :=
  then_ (write_at buf 0 [0]) (fun path =>
  then_ argv0 (fun prog =>
  let finish (prog_path_len prog_path_len_1 : Z) (path : list Z) :=
    then_ (strcpy_at path prog_path_len_1 vmem_path) (fun path =>
    then_ (c_str path) (fun vmem =>
    then_ (strcpy_at path prog_path_len_1 results_path) (fun path =>
    then_ (c_str path) (fun results =>
    then_ (write_at path prog_path_len [0]) (fun path =>
    then_ (c_str path) (fun root => Goes (vmem, results, root))))))) in
  match last_separator prog with
  | Some i =>
    let prog_path_len := i in
    let prog_path_len_1 := prog_path_len + 1 in
    let full_path_len := prog_path_len_1 + Z.max (zlen vmem_path) (zlen results_path) in
    if max_path <=? full_path_len then Too_long
    else then_ (strncpy path prog prog_path_len_1) (finish prog_path_len prog_path_len_1)
  | None => finish 0 0 path
  end)).
(** samples/tictactoe/main.cpp:57, samples/connect4/main.cpp:57 *)
Definition tictactoe_vmem : list Z := bytes_of_string "tictactoe.vmem".
(** samples/connect4/main.cpp:57 *)
Definition connect4_vmem : list Z := bytes_of_string "connect4.vmem".
(** samples/tictactoe/main.cpp:60, samples/connect4/main.cpp:60 *)
Definition results_csv : list Z := bytes_of_string "results.csv".
(** samples/tictactoe/main.cpp *)
Definition tictactoe_main := game_main tictactoe_vmem results_csv.
(** samples/connect4/main.cpp *)
Definition connect4_main := game_main connect4_vmem results_csv.

(** samples/vmem/main.cpp:80 *)
Definition pool_vmem : list Z := bytes_of_string "pool.vmem".
(** main of the vmem sample (samples/vmem/main.cpp:74-108): the path of the pool *)
Definition vmem_main (argv0 : option (list Z)) (buf : list Z) : going (list Z) :=
  then_ (write_at buf 0 [0]) (fun path =>
  then_ argv0 (fun prog =>
  let finish (prog_path_len : Z) (path : list Z) :=
    then_ (strcpy_at path prog_path_len pool_vmem) (fun path => then_ (c_str path) (fun p => Goes p)) in
  match last_separator prog with
  | Some i =>
    let prog_path_len := i + 1 in
    let full_path_len := prog_path_len + zlen pool_vmem in
    if max_path <=? full_path_len then Too_long
    else then_ (strncpy path prog prog_path_len) (finish prog_path_len)
  | None => finish 0 path
  end)).

(** samples/tls/main.cpp:116 *)
Definition cert_pem : list Z := bytes_of_string "cert.pem".
(** samples/tls/main.cpp:119 *)
Definition pkey_pem : list Z := bytes_of_string "pkey.pem".
(** main of the TLS sample (samples/tls/main.cpp:106-151): the paths of the certificate and of the key *)
Definition tls_main (argv0 : option (list Z)) (buf1 buf2 : list Z) : going (list Z * list Z) :=
  then_ (write_at buf1 0 [0]) (fun cert_path =>
  then_ (write_at buf2 0 [0]) (fun pkey_path =>
  then_ argv0 (fun prog =>
  let finish (prog_path_len_1 : Z) (cert_path pkey_path : list Z) :=
    then_ (strcpy_at cert_path prog_path_len_1 cert_pem) (fun cert_path =>
    then_ (strcpy_at pkey_path prog_path_len_1 pkey_pem) (fun pkey_path =>
    then_ (c_str cert_path) (fun c => then_ (c_str pkey_path) (fun k => Goes (c, k))))) in
  match last_separator prog with
  | Some i =>
    let prog_path_len_1 := i + 1 in
    let full_path_len := prog_path_len_1 + Z.max (zlen cert_pem) (zlen pkey_pem) in
    if max_path <=? full_path_len then Too_long
    else then_ (strncpy cert_path prog prog_path_len_1) (fun cert_path =>
         then_ (strncpy pkey_path prog prog_path_len_1) (finish prog_path_len_1 cert_path))
  | None => finish 0 cert_path pkey_path
  end))).

(** main of the car (samples/picar_4wd/main.cpp:43-74): the root directory *)
Definition car_main (argv0 : option (list Z)) (buf : list Z) : going (list Z) :=
  then_ (write_at buf 0 [0]) (fun path =>
  then_ argv0 (fun prog =>
  let finish (prog_path_len : Z) (path : list Z) :=
    then_ (write_at path prog_path_len [0]) (fun path => then_ (c_str path) (fun root => Goes root)) in
  match last_separator prog with
  | Some i =>
    let prog_path_len := i in
    if max_path <=? prog_path_len then Too_long
    else then_ (strncpy path prog prog_path_len) (finish prog_path_len)
  | None => finish 0 path
  end)).
