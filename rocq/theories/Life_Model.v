(** Model of the life of lines: several line_ostream objects on one table_ostream are made, written to in both ways (put_any and the operator <<
    of the base class), flushed, moved and destroyed.  src/table.h, src/stream.h, src/buffer_streambuf.h.

    [None] = undefined behaviour: an access outside a buffer, or of an object that is gone. *)

From Coq Require Import ZArith List Bool.
From Verif Require Import Base ListMem Table_Model.
Import ListNotations.
Open Scope Z_scope.

(** src/i/table.i.h:184-205: a line_ostream: its members (the table is that of the world); how far _sb is written; the object whose _sb
    the base class writes to; whether the base class is in a failed state *)
Record obj := mkO { o_line : line; o_put : Z; o_sb : nat; o_bad : bool }.
(** src/table.h:36-58: what the table has received; the objects that exist; the number of objects made so far *)
Record world := mkW { w_out : list Z; w_obj : nat -> option obj; w_next : nat }.
(** src/table.h:36-44 *)
Definition world_new : world := mkW [] (fun _ => None) O.

(** src/i/table.i.h:184-205: object [i] becomes [x] *)
Definition put_obj (f : nat -> option obj) (i : nat) (x : option obj) : nat -> option obj := fun k => if Nat.eqb k i then x else f k.

(** src/table.h:80-87, 90-101, 115-145; src/stream.h:134-170: what the program does.  [LNew raw]: a line over a buffer that contains [raw]. *)
Inductive op := LNew (raw : list Z) | LPut (i : nat) (t : list Z) | LShow (i : nat) (t : list Z) | LFlush (i : nat) | LMove (i : nat) | LEnd (i : nat).

(** src/table.h:115-126: flush() of an object on the table *)
Definition obj_flush (w : world) (o : obj) : option (list Z * obj) :=
  let l := o_line o in
  match line_flush {| l_size := l_size l; l_buf := l_buf l; l_pcount := l_pcount l; l_table := Some (w_out w) |} with
  | Some l' => match l_table l' with
               | Some out => Some (out, mkO {| l_size := l_size l'; l_buf := l_buf l'; l_pcount := l_pcount l'; l_table := None |} (o_put o) (o_sb o) (o_bad o))
               | None => None
               end
  | None => None
  end.

(** src/table.h:80-86: [_sb] covers the first Size characters of the buffer, and knows nothing of _pcount *)
Definition step (size : Z) (w : world) (e : op) : option world :=
  match e with
  | LNew raw => Some (mkW (w_out w) (put_obj (w_obj w) (w_next w) (Some (mkO (line_new size raw None) 0 (w_next w) false))) (S (w_next w)))
  | LPut i t =>                                                                      (* src/table.h:130-145 *)
      match w_obj w i with
      | Some o => match put_anyv (o_line o) t with
                  | Some l => Some (mkW (w_out w) (put_obj (w_obj w) i (Some (mkO l (o_put o) (o_sb o) (o_bad o)))) (w_next w))
                  | None => None
                  end
      | None => None
      end
  | LShow i t =>                                                                     (* operator << : sputn of the rdbuf *)
      match w_obj w i with
      | Some o =>
          if o_bad o then Some w else
          match w_obj w (o_sb o) with
          | Some b =>
              let n := Z.min (zlen t) (size - o_put b) in
              let l := o_line b in
              match write_at (l_buf l) (o_put b) (take n t) with
              | Some buf =>
                  let f := put_obj (w_obj w) (o_sb o) (Some (mkO {| l_size := l_size l; l_buf := buf; l_pcount := l_pcount l; l_table := l_table l |} (o_put b + n) (o_sb b) (o_bad b))) in
                  match f i with
                  | Some o' => Some (mkW (w_out w) (put_obj f i (Some (mkO (o_line o') (o_put o') (o_sb o') (n <? zlen t)))) (w_next w))
                  | None => None
                  end
              | None => None
              end
          | None => None
          end
      | None => None
      end
  | LFlush i =>                                                                      (* src/table.h:115-126 *)
      match w_obj w i with
      | Some o => match obj_flush w o with
                  | Some (out, o') => Some (mkW out (put_obj (w_obj w) i (Some o')) (w_next w))
                  | None => None
                  end
      | None => None
      end
  | LMove i =>                                                                       (* src/table.h:90-96; src/stream.h:41-44 *)
      match w_obj w i with
      | Some o => Some (mkW (w_out w) (put_obj (w_obj w) (w_next w) (Some (mkO (o_line o) (o_put o) (o_sb o) false))) (S (w_next w)))
      | None => None
      end
  | LEnd i =>                                                                        (* src/table.h:99-101 *)
      match w_obj w i with
      | Some o => match obj_flush w o with
                  | Some (out, _) => Some (mkW out (put_obj (w_obj w) i None) (w_next w))
                  | None => None
                  end
      | None => None
      end
  end.
(** src/table.h:80-145: a program *)
Fixpoint run (size : Z) (w : world) (l : list op) : option world :=
  match l with
  | [] => Some w
  | e :: l => match step size w e with Some w => run size w l | None => None end
  end.
