(** C23, C24 and C58: socket streams and socket descriptors. *)

From Coq Require Import ZArith List Bool Lia.
From Verif Require Import Base Socket_Model Socket_Spec Socket_Proofs.
Import ListNotations.
Open Scope Z_scope.

(** ** C23: writing *)
(** Whatever is written, character by character or in blocks, with flushes anywhere: every call
    reports success, the socket has been given what was written except for at most the last byte,
    and after a flush all of it, in order, each byte once. *)
Theorem C23_put : forall l received, Forall (fun w => Forall (fun c => 0 <= c < 256) (bytes_of w)) l ->
  (let s := do_writes (sb_new received) l in
   sent s = written l \/ exists c, written l = sent s ++ [c] /\ pending s = true) /\
  sent (do_writes (sb_new received) (l ++ [Flush])) = written l /\
  (forall c, 0 <= c < 256 -> fst (sb_sputc (do_writes (sb_new received) l) c) = c) /\
  (forall cs, Forall (fun c => 0 <= c < 256) cs -> fst (sb_xsputn (do_writes (sb_new received) l) cs) = zlen cs).
Proof.
  intros l i H. split; [|split; [exact (writes_flush l i H)|split]].
  - destruct (writes_prefix l i H) as [E|(c & P & E)]; [left; exact E|right; exists c; auto].
  - intros c Hc. apply sputc_total. exact Hc.
  - intros cs Hc. apply xsputn_total. exact Hc.
Qed.
Example C23_put_ex :
  let l := [Put 72; Puts [105; 255; 0; 13]; Flush; Put 10; Puts []; Put 33; Put 200] in
  sent (do_writes (sb_new []) l) = [72; 105; 255; 0; 13; 10; 33] /\
  sent (do_writes (sb_new []) (l ++ [Flush])) = [72; 105; 255; 0; 13; 10; 33; 200].
Proof. vm_compute. split; reflexivity. Qed.
(** The property does not survive moving the stream buffer: a byte that was written but not yet
    given to the socket is dropped by the move constructor. *)
Theorem C23_move_refuted : exists l, Forall (fun w => Forall (fun c => 0 <= c < 256) (bytes_of w)) l /\
  sent (do_writes (sb_move (do_writes (sb_new []) l)) [Flush]) <> written l.
Proof. exists [Put 65]. split; [repeat constructor; lia|vm_compute; discriminate]. Qed.

(** ** C24: reading *)
(** Full statement: reading yields exactly the received bytes, then end-of-file.
    Proved: for data without the byte 0xff, the first |data| characters taken are the data, wherever
    the peer sends more or not, and also after any writes.
    Missing: false for 0xff and for the end of the data, see below. *)
Theorem C24_read_partial : forall l more writes, Forall (fun c => 0 <= c < 256 /\ c <> 255) l ->
  exists s, sb_reads (length l) (do_writes (sb_new (l ++ more)) writes) = Some (l, s) /\ inp s = more.
Proof.
  intros l more ws H.
  assert (K : forall ws s, avail (do_writes s ws) = avail s /\ inp (do_writes s ws) = inp s).
  { induction ws0 as [|w ws0 IH]; intro s; cbn; [auto|]. unfold do_writes in IH. destruct (IH (do_write s w)) as (-> & ->).
    destruct w as [c|cs|]; cbn; [unfold sb_sputc; destruct (pending s); cbn; auto| |auto].
    revert s. induction cs as [|c cs IHc]; intro s; cbn [sb_xsputn]; [auto|]. destruct (pending s).
    - destruct (sb_overflow s c) as [r s'] eqn:E. unfold sb_overflow in E. injection E as _ <-. destruct (r =? -1); [cbn; auto|].
      match goal with |- context [sb_xsputn ?x cs] => destruct (sb_xsputn x cs) as [n s2] eqn:F; pose proof (IHc x) as Hx end. rewrite F in Hx. cbn in *. exact Hx.
    - match goal with |- context [sb_xsputn ?x cs] => destruct (sb_xsputn x cs) as [n s2] eqn:F; pose proof (IHc x) as Hx end. rewrite F in Hx. cbn in *. exact Hx. }
  destruct (K ws (sb_new (l ++ more))) as (A & I). destruct (reads_all l more _ A I) as (s & R & _ & Is & _).
  - apply Forall_impl with (2 := H). intros a Ha. exact Ha.
  - exists s. auto.
Qed.
Example C24_read_ex : match sb_reads 4 (do_writes (sb_new [71; 69; 84; 200; 32]) [Put 65]) with Some (l, s) => l = [71; 69; 84; 200] /\ inp s = [32] | None => False end.
Proof. vm_compute. split; reflexivity. Qed.

(** After the peer has closed, reading never reports end-of-file: every further read returns the
    last byte again. *)
Theorem C24_eof_refuted : forall l c k, Forall (fun x => 0 <= x < 256 /\ x <> 255) (l ++ [c]) ->
  exists s, sb_reads (length l + 1 + k) (sb_new (l ++ [c])) = Some (l ++ [c] ++ repeat c k, s) /\ ~ In (-1) (l ++ [c] ++ repeat c k).
Proof.
  intros l c k H. destruct (never_eof l c k) as (s & E); [exact H|]. exists s. split; [exact E|].
  rewrite Forall_forall in H. rewrite app_assoc. intro I. apply in_app_iff in I. destruct I as [I|I].
  - specialize (H _ I). lia.
  - apply repeat_spec in I. specialize (H c). rewrite in_app_iff in H. cbn in H. assert (X := H (or_intror (or_introl eq_refl))). lia.
Qed.
Example C24_eof_ex : match sb_reads 5 (sb_new [79; 75]) with Some (l, _) => l = [79; 75; 75; 75; 75] | None => False end.
Proof. reflexivity. Qed.
(** The received byte 0xff is reported as end-of-file. *)
Theorem C24_ff_refuted : exists s l more, inp s = 255 :: more /\ sb_sbumpc s = Some (-1, l) /\ more <> [].
Proof. eexists (sb_new [255; 65]), _, [65]. split; [reflexivity|]. split; [vm_compute; reflexivity|discriminate]. Qed.
(** Looking at the next character without taking it gives a negative number for bytes above 0x7f. *)
Theorem C24_peek_refuted : exists s s' more, inp s = 200 :: more /\ sb_sgetc s = Some (-56, s') /\ more = [].
Proof. eexists (sb_new [200]), _, []. split; [reflexivity|]. split; [vm_compute; reflexivity|reflexivity]. Qed.
(** If the peer closes before sending anything, an uninitialised character is read. *)
Theorem C24_uninitialised_refuted : exists s, inp s = [] /\ s = sb_new [] /\ sb_sgetc s = None.
Proof. exists (sb_new []). repeat split. Qed.

(** ** C58: descriptors *)
(** In every history of creating, binding, connecting, accepting, moving, closing and destroying
    sockets, whatever the system answers: no descriptor is closed or used while it is not open;
    those still open are exactly those held by live objects, each by one object. *)
Theorem C58_descriptors : forall l w, steps start l = Some w ->
  exists open, proper [] (trace w) = Some open /\ NoDup open /\ NoDup (held (objs w)) /\ (forall fd, In fd open <-> In fd (held (objs w))).
Proof.
  intros l w H. destruct (inv_steps l start w inv_start H) as (P & N & N2 & E & _). exists (os_open w). auto.
Qed.
(** When all objects are gone every descriptor obtained has been closed as often as it was obtained. *)
Theorem C58_all_closed : forall l w, steps start l = Some w -> Forall (fun o => o = None) (objs w) ->
  proper [] (trace w) = Some [] /\ forall fd, opens fd (trace w) = closes fd (trace w).
Proof.
  intros l w H D. destruct (inv_steps l start w inv_start H) as (P & N & _ & E & _). unfold owned in E. rewrite (held_none _ D) in E.
  assert (O : os_open w = []) by (destruct (os_open w) as [|x r]; [reflexivity|destruct (E x) as (K & _); destruct K; left; reflexivity]).
  rewrite O in P. split; [exact P|]. intro fd. assert (K := opens_closes (trace w) [] [] P (NoDup_nil Z) fd). cbn in K. lia.
Qed.
(** A destroyed object holds nothing; destroying and closing never throw (the step is always possible). *)
Theorem C58_destroy_total : forall w i fd, get_obj w i = Some fd -> step w (Destroy i) <> None /\ step w (Close i) <> None /\ step w (Move i) <> None.
Proof. intros w i fd H. cbn [step]. rewrite H. repeat split; discriminate. Qed.
(** A server: bind after a failed host, accept twice, move a client, serve, close, destroy; descriptor 5 is reused. *)
Example C58_ex :
  let l := [New; Tie 0 true (Some 3) (Some [false; true]); Listen 0; Accept 0 (Some 4); Accept 0 (Some 5); Move 1; Transfer 1; Transfer 3;
            Close 2; Destroy 2; Accept 0 (Some 5); New; Tie 5 false (Some 7) None; Destroy 4; Destroy 0; Destroy 1; Destroy 3; Destroy 5] in
  match steps start l with
  | Some w => Forall (fun o => o = None) (objs w) /\ opens 5 (trace w) = 2%nat /\ length (trace w) = 24%nat
  | None => False
  end.
Proof. vm_compute. split; [repeat (apply Forall_cons; [reflexivity|]); apply Forall_nil|split; reflexivity]. Qed.
Example C58_open_ex :
  let l := [New; Tie 0 true (Some 3) (Some [true]); Listen 0; Accept 0 (Some 4); Move 1] in
  match steps start l with Some w => held (objs w) = [3; 4] /\ proper [] (trace w) = Some [4; 3] | None => False end.
Proof. vm_compute. split; reflexivity. Qed.

Print Assumptions C23_put.
Print Assumptions C23_move_refuted.
Print Assumptions C24_read_partial.
Print Assumptions C24_eof_refuted.
Print Assumptions C24_ff_refuted.
Print Assumptions C24_peek_refuted.
Print Assumptions C24_uninitialised_refuted.
Print Assumptions C58_descriptors.
Print Assumptions C58_all_closed.
Print Assumptions C58_destroy_total.
