(** Model of opening and creating the file of a vmem pool (src/x/vmem_pool.x.h:50-76, 139-303, 424-453).

    Simplifications: the path names a file that can be sought and mapped (what follows when mmap fails is C34);
    bytes written through the shared mapping are in the file at once; the copy of the 33 bytes of a root page is one
    step; of the log, only what it reads from the file is modelled. *)

From Coq Require Import ZArith List Bool String.
From Verif Require Import Base Cache_Model.
Import ListNotations.
Open Scope Z_scope.

(** src/i/vmem_pool.i.h:42 *)
Definition page_size : Z := 4096.
(** src/i/vmem_pool.i.h:48 *)
Definition min_mapped_pages : Z := 3.
(** The file behind _fd: its size, and its bytes from 0 to size - 1 (src/x/vmem_pool.x.h:157-167). *)
Record file := mkFile { f_size : Z; f_at : Z -> Z }.
(** the two bytes of a 16-bit number (little endian) at [off] (src/i/vmem_layout.i.h:190-192) *)
Definition u16_at (f : file) (off : Z) : Z := f_at f off + 256 * f_at f (off + 1).
(** the signature without the zero at its end (src/i/vmem_layout.i.h:191) *)
Definition signature : list Z := bytes_of_string "abc::vmem".
(** src/i/vmem_layout.i.h:189-196: vmem_root_page as initialised *)
Definition root_bytes : list Z := [2; 0] ++ signature ++ [0] ++ [0; 16] ++ [204; 204] ++ repeat 255 16 ++ [204].
(** src/x/vmem_pool.x.h:424-453; [wb] is the result of write(): bytes appended, or -1 *)
Definition create_page (f : file) (wb : Z) : file * Z :=
  let n := Z.max 0 wb in
  (mkFile (f_size f + n) (fun i => if (f_size f <=? i) && (i <? f_size f + n) then 0 else f_at f i),
   if wb =? page_size then f_size f / page_size else page_nil).
(** src/x/vmem_pool.x.h:211-214, 235: memset of a page to 0 and memmove of [bs] to its beginning *)
Definition write_page (f : file) (pos : Z) (bs : list Z) : file :=
  mkFile (f_size f) (fun i => if (pos * page_size <=? i) && (i <? (pos + 1) * page_size) then nth (Z.to_nat (i - pos * page_size)) bs 0 else f_at f i).
(** src/x/vmem_pool.x.h:188-242: the states the file goes through, and whether it ends without an exception;
    [w0] and [w1] are the results of the two write() calls *)
Definition init_pool (f : file) (w0 w1 : Z) : list file * bool :=
  let '(f0, p0) := create_page f w0 in
  if p0 =? page_nil then ([f0], false)
  else
    let f1 := write_page f0 p0 [] in
    let f2 := write_page f1 p0 root_bytes in
    let '(f3, p1) := create_page f2 w1 in
    if p1 =? page_nil then ([f0; f1; f2; f3], false)
    else ([f0; f1; f2; f3; write_page f3 p1 []], true).
(** std::strcmp(...) == 0 of the string at [off] with [lit] (src/x/vmem_pool.x.h:272) *)
Fixpoint strcmp_eq (f : file) (off : Z) (lit : list Z) : bool :=
  match lit with
  | [] => f_at f off =? 0
  | c :: lit => (f_at f off =? c) && strcmp_eq f (off + 1) lit
  end.
(** src/x/vmem_pool.x.h:266-278 *)
Definition root_ok (f : file) : bool :=
  (u16_at f 0 =? 2) && strcmp_eq f 2 signature && (u16_at f 12 =? page_size).
(** the string at [off] ends on the first [n] bytes from there: what the log reads for the format s
    (src/x/vmem_pool.x.h:261-264) *)
Fixpoint string_ends (f : file) (off : Z) (n : nat) : bool :=
  match n with O => false | S n => (f_at f off =? 0) || string_ends f (off + 1) n end.
(** src/x/vmem_pool.x.h:261-264: What the constructor does: the pool is ready, it throws, or the log reads behind the root page. *)
Inductive opening := Ready (f : file) | Thrown (f : file) | Overrun.
(** src/x/vmem_pool.x.h:246-303: verification of the root page and the start page, which is only locked *)
Definition verify_pool (log : bool) (f : file) : opening :=
  if log && negb (string_ends f 2 (Z.to_nat (page_size - 2))) then Overrun
  else if root_ok f then Ready f else Thrown f.
(** src/x/vmem_pool.x.h:50-76, 139-184: the constructor; [max] is MaxMappedPages, [path] tells that file_path is not
    null, [fd] that open() succeeds, [log] that a log records debug entries *)
Definition open_pool (log : bool) (max : Z) (path fd : bool) (f : file) (w0 w1 : Z) : opening :=
  if max <? min_mapped_pages then Thrown f
  else if negb path then Thrown f
  else if negb fd then Thrown f
  else if negb (Z.land (f_size f) (page_size - 1) =? 0) then Thrown f
  else if 0 <? f_size f then verify_pool log f
  else
    let '(fs, ok) := init_pool f w0 w1 in
    if ok then verify_pool log (last fs f) else Thrown (last fs f).
