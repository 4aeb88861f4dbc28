(** C83 to C88: TLS sockets. *)

From Coq Require Import ZArith Lia List Bool.
From Verif Require Import Tls_Model Tls_Spec Tls_Proofs Tls_Records Tls_Listen.
Import ListNotations.
Open Scope Z_scope.

(** ** Worlds for the examples *)
Definition honest : peer := {| p_id := 1; p_cert := Some {| k_root := 7; k_sound := true |} |}.
Definition impostor : peer := {| p_id := 2; p_cert := Some {| k_root := 7; k_sound := false |} |}.
Definition anybody : peer := {| p_id := 3; p_cert := None |}.
(** a server that verifies its clients, listening on descriptor 3 *)
Definition strict_server : list call := [New_server true true 6 true true true true; Bind 0 (Some 3) true; Listen 0 true].
(** a server that does not *)
Definition plain_server : list call := [New_server true false 6 true true true true; Bind 0 (Some 3) true; Listen 0 true].
(** a client with the arguments of the constructor *)
Definition new (log verify : bool) : list call := [New_client log verify true true true].
(** a client that talks to a server, is moved, talks on and ends; two more do so with the server *)
Definition session : list call :=
  plain_server ++ new true false ++ [Connect 1 (Some 4) (Some honest) true Completes; Transfer 1 10 Completes 7; Move 1; Transfer 2 100 Completes 100; Destroy 1; Destroy 2] ++
  [Accept 0 (Some (4, anybody)) true true Completes; Accept 0 (Some (5, honest)) true true Completes; Transfer 4 20 Completes 20; Destroy 3; Accept 0 (Some (4, impostor)) true true (Fails true); Destroy 4; Destroy 0].

(** ** C83: a server that verifies its clients accepts only clients whose certificates it has verified *)
(** False: verify_client sets SSL_VERIFY_PEER without SSL_VERIFY_FAIL_IF_NO_PEER_CERT, so a client that shows no
    certificate at all is accepted. *)
Theorem C83_absent_refuted : exists w v p w',
  reachable w /\ objs w 0 = Some (Server v) /\ v_verify v = true /\ p_cert p = None /\ step w (Accept 0 (Some (4, p)) true true Completes) = Back 0 w'.
Proof.
  destruct (steps start strict_server) as [w|] eqn:E; [|vm_compute in E; discriminate]. assert (R : reachable w) by (exists strict_server; exact E).
  vm_compute in E. injection E as <-. eexists _, _, anybody, _. split; [exact R|]. split; [reflexivity|]. split; [reflexivity|]. split; [reflexivity|]. vm_compute. reflexivity.
Qed.
(** What holds: such a server never accepts a client that shows a certificate it has not verified.
    Missing: clients that show none.  (Since no authority is ever loaded, no certificate can be verified, and the
    server accepts no client that shows one: C83_good_refuted.) *)
Theorem C83_shown_partial : forall w i v fd p ok_ssl ok_fd a r w',
  reachable w -> objs w i = Some (Server v) -> v_verify v = true -> step w (Accept i (Some (fd, p)) ok_ssl ok_fd a) = Back r w' -> p_cert p = None.
Proof.
  intros w i v fd p ok_ssl ok_fd a r w' R O V S. destruct (reachable_inv w R) as (LX & LS & H). cbn [step] in S. rewrite O in S.
  exact (proj2 (accept_fine w LX LS i v (Some (fd, p)) ok_ssl ok_fd a H O) V r w' fd p S eq_refl).
Qed.
Example C83_shown_case : exists w v w', reachable w /\ objs w 0 = Some (Server v) /\ v_verify v = true /\ step w (Accept 0 (Some (4, anybody)) true true Completes) = Back 0 w'.
Proof.
  destruct (steps start strict_server) as [w|] eqn:E; [|vm_compute in E; discriminate]. assert (R : reachable w) by (exists strict_server; exact E).
  vm_compute in E. injection E as <-. eexists _, _, _. split; [exact R|]. split; [reflexivity|]. split; [reflexivity|]. vm_compute. reflexivity.
Qed.
(** False too: "a client with a sound certificate can be accepted by a server that verifies its clients". *)
Theorem C83_good_refuted : exists w v k, reachable w /\ objs w 0 = Some (Server v) /\ v_verify v = true /\ v_fd v = 3 /\ k_sound k = true /\
  forall fd id ok_ssl ok_fd a r w', step w (Accept 0 (Some (fd, {| p_id := id; p_cert := Some k |})) ok_ssl ok_fd a) <> Back r w'.
Proof.
  destruct (steps start strict_server) as [w|] eqn:E; [|vm_compute in E; discriminate]. assert (R : reachable w) by (exists strict_server; exact E).
  assert (O : exists v, objs w 0 = Some (Server v) /\ v_verify v = true /\ v_fd v = 3) by (vm_compute in E; injection E as <-; eexists; split; [reflexivity|split; reflexivity]).
  destruct O as (v & O & V & F). exists w, v, {| k_root := 7; k_sound := true |}. split; [exact R|]. split; [exact O|]. split; [exact V|]. split; [exact F|]. split; [reflexivity|].
  intros fd id ok_ssl ok_fd a r w' S. assert (K := C83_shown_partial w 0 v fd _ ok_ssl ok_fd a r w' R O V S). discriminate.
Qed.
(** A server that does not verify accepts every client that completes the handshake. *)
Theorem C83_plain : forall w i v fd p, reachable w -> objs w i = Some (Server v) -> v_ctx v <> None -> v_fd v <> -1 -> v_verify v = false -> 0 <= fd -> fds w fd = None ->
  exists w', step w (Accept i (Some (fd, p)) true true Completes) = Back 0 w'.
Proof.
  intros w i v fd p R O X N V P F. destruct (reachable_inv w R) as (LX & LS & H). destruct (v_ctx v) as [x|] eqn:X'; [|contradiction].
  destruct (accept_computes w LX LS i v x fd p Completes H O X' N P F) as (w' & A & _); [congruence|]. exists w'. cbn [step]. rewrite O. exact A.
Qed.
Example C83_plain_case : exists w v, reachable w /\ objs w 0 = Some (Server v) /\ v_ctx v <> None /\ v_fd v = 3 /\ v_verify v = false /\ fds w 4 = None.
Proof.
  destruct (steps start plain_server) as [w|] eqn:E; [|vm_compute in E; discriminate]. assert (R : reachable w) by (exists plain_server; exact E).
  vm_compute in E. injection E as <-. eexists _, _. split; [exact R|]. split; [reflexivity|]. repeat split. discriminate.
Qed.

(** ** C84: a client that verifies its server talks only to servers whose certificates it has verified, and can
    talk to those *)
(** The first half holds: connect() never returns to such a client, and send() and receive() never transfer
    anything, whatever the server shows and answers. *)
Theorem C84_impostor_partial : forall w i c, reachable w -> objs w i = Some (Client c) -> c_verify c = true ->
  (forall got reached ok_fd a r w', step w (Connect i got reached ok_fd a) <> Back r w') /\
  (forall size a n r w', 0 <= size -> step w (Transfer i size a n) = Back r w' -> r = 0).
Proof.
  intros w i c R O V. destruct (reachable_inv w R) as (LX & LS & H). assert (CV := reachable_cv w R i c O V). split.
  - intros got reached ok_fd a r w' S. cbn [step] in S. rewrite O in S. destruct (c_ctx c) as [x|] eqn:X.
    + apply (proj2 (connect_fine w LX LS i c got reached ok_fd a H O)) in S; [exact S|congruence|exact V].
    + specialize (CV eq_refl). revert S. unfold connect.
      assert (K : forall w1 c1, c_ssl c1 = None -> connect_handshake w1 c1 ok_fd a <> Back r w') by (intros w1 c1 E; unfold connect_handshake; destruct (negb (is_open (c_fd c1))); [discriminate|]; rewrite E; discriminate).
      destruct (is_open (c_fd c)).
      * destruct reached; [|discriminate]. destruct (fds (note w [Used (c_fd c)]) (c_fd c)) as [[q|]|]; try discriminate. apply K. exact CV.
      * destruct got as [fd|]; [|discriminate]. destruct (os_open w fd None); [|discriminate]. cbn zeta. destruct reached; [|discriminate].
        match goal with |- (match ?m with Some _ => _ | None => _ end = _) -> _ => destruct m as [[q|]|] end; try discriminate. apply K. exact CV.
  - intros size a n r w' P S. cbn [step] in S. rewrite O in S. unfold transfer in S. destruct (negb (is_open (c_fd c))); [discriminate|]. destruct (c_ssl c) as [s|] eqn:SS; [|discriminate].
    destruct (c_ctx c) as [x|] eqn:X; [|specialize (CV eq_refl); discriminate]. destruct H as (M & D & VV).
    unfold ssl_transfer in S. assert (HV := handshake_ver w LX LS i c s a M VV O SS). destruct (handshake w s a) as [q w1|w1| | | |] eqn:E; try discriminate.
    destruct (HV q w1 eq_refl) as (_ & N). assert (q = -1) as -> by (destruct (handshake_one _ _ _ _ _ E) as [ -> | -> ]; [|reflexivity]; destruct N; congruence).
    cbn in S. injection S as <- _. reflexivity.
Qed.
Example C84_impostor_case : exists w c, reachable w /\ objs w 0 = Some (Client c) /\ c_verify c = true /\
  (exists w', step w (Connect 0 (Some 3) (Some impostor) true (Fails true)) = Threw w') /\ step w (Connect 0 (Some 3) (Some honest) true Completes) = Never.
Proof.
  destruct (steps start (new true true)) as [w|] eqn:E; [|vm_compute in E; discriminate]. assert (R : reachable w) by (exists (new true true); exact E).
  vm_compute in E. injection E as <-. eexists _, _. split; [exact R|]. split; [reflexivity|]. split; [reflexivity|]. split; [eexists; vm_compute; reflexivity|vm_compute; reflexivity].
Qed.
(** The second half is false: no authority is ever loaded into the context, so a client made with the default
    verify_server = true cannot connect to any server, however sound its certificate. *)
Theorem C84_good_refuted : exists w c, reachable w /\ objs w 0 = Some (Client c) /\ c_verify c = true /\ c_log c = true /\
  forall id k got ok_fd a r w', k_sound k = true -> step w (Connect 0 got (Some {| p_id := id; p_cert := Some k |}) ok_fd a) <> Back r w'.
Proof.
  destruct (steps start (new true true)) as [w|] eqn:E; [|vm_compute in E; discriminate]. assert (R : reachable w) by (exists (new true true); exact E).
  assert (O : exists c, objs w 0 = Some (Client c) /\ c_verify c = true /\ c_log c = true) by (vm_compute in E; injection E as <-; eexists; split; [reflexivity|split; reflexivity]).
  destruct O as (c & O & V & L). exists w, c. split; [exact R|]. split; [exact O|]. split; [exact V|]. split; [exact L|].
  intros id k got ok_fd a r w' _. apply (proj1 (C84_impostor_partial w 0 c R O V)).
Qed.
(** The log may be null (it is by default), says the constructor; but connect() calls a method of it. *)
Theorem C84_log_refuted : exists w c, reachable w /\ objs w 0 = Some (Client c) /\ c_log c = false /\ step w (Connect 0 (Some 3) (Some honest) true Completes) = Null_log.
Proof.
  destruct (steps start (new false false)) as [w|] eqn:E; [|vm_compute in E; discriminate]. assert (R : reachable w) by (exists (new false false); exact E).
  vm_compute in E. injection E as <-. eexists _, _. split; [exact R|]. split; [reflexivity|]. split; [reflexivity|]. vm_compute. reflexivity.
Qed.
(** It is the only call that does, and only without a log.  Missing: connect() without one. *)
Theorem C84_log_partial : forall w c, reachable w -> step w c = Null_log -> exists i d got reached ok_fd a, c = Connect i got reached ok_fd a /\ objs w i = Some (Client d) /\ c_log d = false.
Proof.
  intros w c R S. destruct (reachable_inv w R) as (LX & LS & (M & D & V)).
  destruct c as [log v m x s|log v len m x c k|i got reached f a|i size a n|i got ok|i ok|i got s f a|i|i|i]; cbn [step] in S;
    try (destruct (objs w i) as [[c|v]|] eqn:O); try discriminate.
  - unfold new_client in S. destruct m, x, s; try discriminate. cbn [negb] in S. destruct (ssl_new _ _); discriminate.
  - unfold new_server in S. destruct (max_password <=? len); [discriminate|]. destruct m, x, c, k; discriminate.
  - exists i, c, got, reached, f, a. split; [reflexivity|]. split; [exact O|].
    assert (K : forall w1 c1, mem w1 LX LS -> objs w1 i = Some (Client c1) -> c_log c1 = c_log c -> connect_handshake w1 c1 f a = Null_log -> c_log c = false).
    { intros w1 c1 M1 O1 L1. unfold connect_handshake. destruct (negb (is_open (c_fd c1))); [discriminate|]. destruct (c_ssl c1) as [s|] eqn:SS; [|discriminate].
      destruct (ssls w1 s) as [l|] eqn:L; [|discriminate]. destruct (negb f); [discriminate|]. rewrite L1. destruct (c_log c); [|reflexivity]. cbn [negb].
      destruct (shake_mem _ LX LS s true a (mem_set_fd w1 LX LS s l (c_fd c1) M1 L)) as (_ & A & _); [cbn; rewrite upd_same; discriminate|].
      destruct (ssl_shake (ssl_set_fd w1 s l (c_fd c1)) s true a) as [r w2|w2| | | |]; try discriminate; [destruct (r =? 1); discriminate|congruence]. }
    unfold connect in S. destruct (is_open (c_fd c)).
    + destruct reached as [p|]; [|discriminate]. destruct (fds (note w [Used (c_fd c)]) (c_fd c)) as [[q|]|]; try discriminate. refine (K (os_connected (note w [Used (c_fd c)]) (c_fd c) p) c _ O eq_refl S). apply (mem_ext w); auto.
    + destruct got as [fd|]; [|discriminate]. destruct (os_open w fd None) as [w1|] eqn:W; [|discriminate]. destruct (os_open_facts _ _ _ _ W) as (Q1 & Q2 & Q3 & Q4 & Q5 & Q6 & _).
      cbn zeta in S. destruct reached as [p|]; [|discriminate]. match type of S with match ?m with Some _ => _ | None => _ end = _ => destruct m as [[q|]|] end; try discriminate.
      set (w2 := set_obj w1 i (Some (Client (with_fd c fd)))) in S. refine (K (os_connected (note w2 [Used fd]) fd p) (with_fd c fd) _ _ eq_refl S); [|cbn; apply upd_same].
      apply (mem_ext (set_obj w1 i (Some (Client (with_fd c fd))))); auto. apply (mem_same w1 LX LS i (Client c)); auto; [apply (mem_ext w); auto|rewrite Q1; exact O].
  - unfold transfer in S. destruct (negb (is_open (c_fd c))); [discriminate|]. destruct (c_ssl c) as [s|] eqn:SS; [|discriminate].
    destruct (m_own _ _ _ M i (Client c) s O SS) as (N & _). destruct (transfer_mem w LX LS s (to_int size) a n M N) as (_ & A & _). destruct (ssl_transfer w s (to_int size) a n); try discriminate. congruence.
  - unfold bind in S. destruct (is_open (v_fd v)); [discriminate|]. destruct got as [fd|]; [|discriminate]. destruct (os_open w fd None); [|discriminate]. destruct ok; discriminate.
  - unfold listen in S. destruct ok; cbn in S; [destruct (is_open (v_fd v))|]; discriminate.
  - unfold accept in S. destruct got as [(fd, p)|]; [|discriminate]. destruct (negb (is_open (v_fd v))); [discriminate|]. destruct (os_open (note w [Used (v_fd v)]) fd (Some p)) as [w1|] eqn:W; [|discriminate].
    destruct (os_open_facts _ _ _ _ W) as (Q1 & Q2 & Q3 & Q4 & Q5 & Q6 & _). destruct (v_ctx v) as [x|] eqn:X; [|discriminate]. destruct (negb s); [discriminate|].
    assert (M1 : mem w1 LX LS) by (apply (mem_ext w); auto). assert (O1 : objs w1 i = Some (Server v)) by (rewrite Q1; exact O).
    destruct (mem_ssl_new w1 LX LS x M1 (mem_ctx_held w1 LX LS i (Server v) x M1 O1 X)) as (w2 & d & C & E2 & M2 & H1 & H2 & H3 & H4 & _). rewrite E2 in S.
    destruct (negb f); [discriminate|]. rewrite H4, upd_same in S. cbn zeta in S.
    match type of S with context [ssl_shake ?w3 ?t false a] => destruct (shake_mem w3 LX (mark LS (nssls w1) true) t false a) as (_ & A & _);
      [apply mem_set_fd; [exact M2|rewrite H4; apply upd_same]|cbn; rewrite upd_same; discriminate|]; destruct (ssl_shake w3 t false a) as [r w4|w4| | | |] end; try discriminate; [|congruence].
    destruct (r <=? 0); [|discriminate]. match type of S with context [client_free w4 ?c] => destruct (client_free w4 c); discriminate end.
  - unfold close_client in S. destruct (is_open (c_fd c)); discriminate.
  - unfold close_server in S. destruct (is_open (v_fd v)); discriminate.
  - unfold destroy_client in S. destruct (client_free (set_obj w i None) c); discriminate.
  - unfold destroy_server in S. match type of S with match ?m with Some _ => _ | None => _ end = _ => destruct m; discriminate end.
Qed.
Example C84_log_case : exists w, reachable w /\ step w (Connect 0 (Some 3) (Some honest) true Completes) = Null_log.
Proof. destruct C84_log_refuted as (w & c & R & _ & _ & S). eauto. Qed.

(** ** C85: what is sent is encrypted with keys agreed with the program it is sent to *)
(** False: close() closes the descriptor but keeps the SSL.  (1) A client is closed, another client gets the same
    descriptor; the end of the first writes an alert into the connection of the second. *)
Definition two_clients : list call :=
  new true false ++ [Connect 0 (Some 3) (Some honest) true Completes; Close 0] ++ new true false ++ [Connect 1 (Some 3) (Some impostor) true Completes; Destroy 0].
Theorem C85_records_refuted : exists l w, steps start l = Some w /\ ~ Forall rightly (trace w).
Proof.
  exists two_clients. destruct (steps start two_clients) as [w|] eqn:E; [|vm_compute in E; discriminate]. exists w. split; [reflexivity|]. vm_compute in E. injection E as <-. cbn. intro K.
  repeat match goal with K : Forall _ (_ :: _) |- _ => inversion K; clear K; subst; cbn in * end; discriminate.
Qed.
(** (2) A client that is closed and connected again does no handshake: connect() returns although the other end
    has never answered, and what is sent is encrypted with the keys of the connection before. *)
Definition again : list call := new true false ++ [Connect 0 (Some 3) (Some honest) true Completes; Close 0].
Theorem C85_handshake_refuted : exists w w' w'', reachable w /\ step w (Connect 0 (Some 3) (Some impostor) true Silent) = Back 0 w' /\
  step w' (Transfer 0 10 Silent 10) = Back 10 w'' /\ ~ Forall rightly (trace w'').
Proof.
  destruct (steps start again) as [w|] eqn:E; [|vm_compute in E; discriminate]. assert (R : reachable w) by (exists again; exact E).
  vm_compute in E. injection E as <-. eexists _, _, _. split; [exact R|]. split; [vm_compute; reflexivity|]. split; [vm_compute; reflexivity|]. cbn. intro K.
  repeat match goal with K : Forall _ (_ :: _) |- _ => inversion K; clear K; subst; cbn in * end; discriminate.
Qed.
(** What holds, of every history in which nobody calls close().  Missing: histories with close(). *)
Theorem C85_records_partial : forall l w, never_closed l -> steps start l = Some w -> Forall rightly (trace w).
Proof. intros l w N S. exact (proj1 (proj2 (steps_rec l start _ _ w inv_start own_start N S))). Qed.
Theorem C85_handshake_partial : forall l w i got reached ok_fd a r w', never_closed l -> steps start l = Some w ->
  step w (Connect i got reached ok_fd a) = Back r w' -> a = Completes.
Proof.
  intros l w i got reached ok_fd a r w' N S E. destruct (steps_rec l start _ _ w inv_start own_start N S) as (H & _).
  destruct (steps_inv l start _ _ w inv_start S) as (LX & LS & IV & _). cbn [step] in E. destruct (objs w i) as [[c|v]|] eqn:O; try discriminate.
  exact (connect_completes w LX LS i c got reached ok_fd a r w' IV H O E).
Qed.
Lemma session_not_closed : never_closed session.
Proof. intros i K. cbn in K. repeat (destruct K as [K|K]; [discriminate|]). exact K. Qed.
Example C85_case : never_closed session /\ match steps start session with Some w => In (Record_on 4 (Some 2%nat) 2) (trace w) | None => False end.
Proof.
  split; [exact session_not_closed|vm_compute; tauto].
Qed.
Example C85_handshake_case : never_closed (new true false) /\ exists w w', steps start (new true false) = Some w /\ step w (Connect 0 (Some 3) (Some honest) true Completes) = Back 0 w'.
Proof. split; [intros i [K|[]]; discriminate|]. eexists _, _. split; vm_compute; reflexivity. Qed.

(** ** C86: resources *)
(** No history of calls uses memory of OpenSSL that is freed, or frees it twice. *)
Theorem C86_memory : forall w c, reachable w -> step w c <> Freed.
Proof. intros w c R. destruct (reachable_inv w R) as (LX & LS & H). exact (proj1 (step_fine w LX LS c H)). Qed.
(** Descriptors are closed once, those that are open are exactly those that objects have, one each. *)
Theorem C86_descriptors : forall w, reachable w -> exists open, proper false [] (trace w) = Some open /\
  (forall fd, In fd open <-> fd <> -1 /\ exists i, has_fd w i fd) /\
  (forall i j fd, fd <> -1 -> has_fd w i fd -> has_fd w j fd -> i = j).
Proof.
  intros w R. destruct (reachable_inv w R) as (LX & LS & (_ & D & _)). destruct (d_trace _ _ D) as (open & P & _ & E). exists open. split; [exact P|].
  assert (HF : forall i fd, has_fd w i fd <-> exists o, objs w i = Some o /\ fd_of o = fd).
  { intros i fd. unfold has_fd. destruct (objs w i) as [[c|v]|]; split; try (intros <-; eexists; split; reflexivity); try contradiction; intros (o & K & F); try discriminate; injection K as <-; exact F. }
  split.
  - intro fd. rewrite E. split.
    + intro F. assert (K := d_pos _ _ D fd F). split; [lia|]. destruct (d_all _ _ D fd F) as [A|(i & o & O & A)]; [discriminate|]. exists i. apply HF. eauto.
    + intros (N & i & A). apply HF in A. destruct A as (o & O & <-). exact (proj1 (d_own _ _ D i o O N)).
  - intros i j fd N A B. apply HF in A. apply HF in B. destruct A as (o & O & F). destruct B as (o' & O' & F'). apply (d_one _ _ D i j o o' O O'); congruence.
Qed.
Example C86_case : match steps start session with Some w => proper false [] (trace w) = Some [] /\ objs w 3 = None | None => False end /\
  match steps start (firstn 13 session) with Some w => proper false [] (trace w) = Some [5; 4; 3] /\ has_fd w 0 3 /\ has_fd w 3 4 /\ has_fd w 4 5 | None => False end.
Proof. vm_compute. auto. Qed.
(** False: "a descriptor is used only while it is open": after close(), the destructor sends the alert to it. *)
Theorem C86_uses_refuted : exists l w, steps start l = Some w /\ proper true [] (trace w) = None.
Proof.
  exists (again ++ [Destroy 0]). destruct (steps start (again ++ [Destroy 0])) as [w|] eqn:E; [|vm_compute in E; discriminate]. exists w. split; [reflexivity|]. vm_compute in E. injection E as <-. vm_compute. reflexivity.
Qed.
(** It holds of every history in which nobody calls close().  Missing: histories with close(). *)
Theorem C86_uses_partial : forall l w, never_closed l -> steps start l = Some w -> proper true [] (trace w) <> None.
Proof. intros l w N S. destruct (steps_rec l start _ _ w inv_start own_start N S) as (_ & _ & open & P & _). congruence. Qed.
Example C86_uses_case : never_closed session /\ match steps start session with Some w => proper true [] (trace w) = Some [] | None => False end.
Proof. split; [exact session_not_closed|vm_compute; reflexivity]. Qed.
(** False: "when all objects are gone, so is the memory of OpenSSL": a constructor that throws does not release
    what it has obtained, e.g. the context when the certificate file cannot be read. *)
Theorem C86_leak_refuted : exists l w, steps start l = Some w /\ all_gone w /\ ~ nothing_allocated w.
Proof.
  exists [New_server true false 6 true true false true]. eexists. split; [vm_compute; reflexivity|]. split; [intro i; reflexivity|]. intros (K & _). specialize (K 0%nat). vm_compute in K. discriminate.
Qed.
(** It holds if no constructor throws after it has obtained something.  Missing: those that do. *)
Theorem C86_leak_partial : forall l w, Forall constructs l -> steps start l = Some w -> all_gone w -> nothing_allocated w.
Proof.
  intros l w F S G. destruct (steps_inv l start _ _ w inv_start S) as (LX & LS & (M & _) & E). destruct (E F) as (E1 & E2).
  assert (Z : forall s, ssls w s = None).
  { intro s. destruct (ssls w s) eqn:K; [|reflexivity]. assert (N : ssls w s <> None) by congruence. destruct (m_all _ _ _ M s N) as [A|(i & o & O & _)]; [rewrite E2 in A; discriminate|]. rewrite (G i) in O. discriminate. }
  split; [|exact Z]. intro x. destruct (ctxs w x) as [c|] eqn:K; [|reflexivity]. assert (R := m_refs _ _ _ M x). assert (P := m_pos _ _ _ M x c K). unfold refs in R. rewrite K, E1 in R.
  rewrite cnt_zero in R by (intros i _; unfold obj_holds; rewrite G; reflexivity). rewrite cnt_zero in R by (intros s _; unfold ssl_holds; rewrite Z; reflexivity). cbn in R. congruence.
Qed.
Example C86_leak_case : Forall constructs session /\ exists w, steps start session = Some w /\ all_gone w.
Proof.
  split; [repeat constructor|]. destruct (steps start session) as [w|] eqn:E; [|vm_compute in E; discriminate]. exists w. split; [reflexivity|]. vm_compute in E. injection E as <-. intro i. cbn.
  do 6 (destruct i as [|i]; [reflexivity|]). reflexivity.
Qed.

(** ** C87: one client cannot stop an HTTPS endpoint from serving the others *)
(** False: accept() does the handshake, in the thread that listens; if the client makes it fail, the exception
    leaves start() and ends the process. *)
Theorem C87_fails_refuted : exists w v l, reachable w /\ objs w 0 = Some (Server v) /\ may_come w v l /\ In (5, honest, Completes) l /\ accepting w 0 0 l = ([], Terminated).
Proof.
  destruct (steps start plain_server) as [w|] eqn:E; [|vm_compute in E; discriminate]. assert (R : reachable w) by (exists plain_server; exact E).
  vm_compute in E. injection E as <-. eexists _, _, [(4, anybody, Fails true); (5, honest, Completes)]. split; [exact R|]. split; [reflexivity|]. split; [|split; [right; left; reflexivity|vm_compute; reflexivity]].
  split; [cbn; repeat constructor; cbn; intuition discriminate|]. repeat constructor; cbn; try lia; discriminate.
Qed.
(** False: if the client connects and says nothing, the listener waits for it. *)
Theorem C87_silent_refuted : exists w v l, reachable w /\ objs w 0 = Some (Server v) /\ may_come w v l /\ In (5, honest, Completes) l /\ accepting w 0 0 l = ([], Stuck).
Proof.
  destruct (steps start plain_server) as [w|] eqn:E; [|vm_compute in E; discriminate]. assert (R : reachable w) by (exists plain_server; exact E).
  vm_compute in E. injection E as <-. eexists _, _, [(4, anybody, Silent); (5, honest, Completes)]. split; [exact R|]. split; [reflexivity|]. split; [|split; [right; left; reflexivity|vm_compute; reflexivity]].
  split; [cbn; repeat constructor; cbn; intuition discriminate|]. repeat constructor; cbn; try lia; discriminate.
Qed.
(** What holds: the clients served are those before the first that does not complete the handshake, and that one
    decides what becomes of the listener.  Missing: everybody after it. *)
Theorem C87_served_partial : forall w i v l, reachable w -> objs w i = Some (Server v) -> v_ctx v <> None -> v_fd v <> -1 -> may_come w v l ->
  accepting w i 0 l = (seq 0 (behaved l), ending l).
Proof. intros w i v l R O X N C. destruct (reachable_inv w R) as (LX & LS & H). exact (accepting_served l w LX LS i v 0 H O X N C). Qed.
Example C87_case : exists w v, reachable w /\ objs w 0 = Some (Server v) /\ v_ctx v <> None /\ v_fd v = 3 /\
  may_come w v [(4, anybody, Completes); (6, honest, Completes); (5, honest, Fails false)] /\
  accepting w 0 0 [(4, anybody, Completes); (6, honest, Completes); (5, honest, Fails false)] = ([0; 1]%nat, Terminated).
Proof.
  destruct (steps start plain_server) as [w|] eqn:E; [|vm_compute in E; discriminate]. assert (R : reachable w) by (exists plain_server; exact E).
  vm_compute in E. injection E as <-. eexists _, _. split; [exact R|]. split; [reflexivity|]. split; [discriminate|]. split; [reflexivity|]. split; [|vm_compute; reflexivity].
  split; [cbn; repeat constructor; cbn; intuition discriminate|]. repeat constructor; cbn; try lia; discriminate.
Qed.

(** ** C88: passwords and sizes *)
(** A password that is kept is given to OpenSSL unchanged, if its buffer is longer than the password. *)
Theorem C88_password_partial : forall pw stored size, c_string pw -> keep_password pw = Some stored -> (length pw < size)%nat ->
  exists rest, pem_passwd_cb stored size = Some (pw ++ 0 :: rest, Z.of_nat (length pw)).
Proof.
  intros pw stored size C K L. assert (P : (length pw < 256)%nat) by (unfold keep_password, max_password in K; destruct (Z.leb_spec 256 (Z.of_nat (length pw))); [discriminate|lia]).
  destruct (password_stored pw P) as (r & E). rewrite E in K. injection K as <-. exact (password_given pw r size C L).
Qed.
(** A password is refused only for its length. *)
Theorem C88_kept : forall pw, keep_password pw = None <-> (256 <= length pw)%nat.
Proof. intro pw. unfold keep_password, max_password. destruct (Z.leb_spec 256 (Z.of_nat (length pw))); split; try discriminate; try lia; reflexivity. Qed.
Example C88_password_case : exists stored rest, keep_password [115; 101; 99; 114; 101; 116] = Some stored /\ pem_passwd_cb stored 8 = Some ([115; 101; 99; 114; 101; 116] ++ 0 :: rest, 6).
Proof. eexists _, [0]. split; vm_compute; reflexivity. Qed.
(** False without the condition: with a shorter buffer OpenSSL is given a different password (instead of 0,
    an error). *)
Theorem C88_short_refuted : exists pw stored size buf r, c_string pw /\ keep_password pw = Some stored /\ pem_passwd_cb stored size = Some (buf, r) /\ 0 < r /\ firstn (Z.to_nat r) buf <> pw.
Proof. exists [115; 101; 99; 114; 101; 116]. eexists _, 4%nat, _, _. split; [repeat constructor; discriminate|]. split; [vm_compute; reflexivity|]. split; [vm_compute; reflexivity|]. split; [lia|]. vm_compute. discriminate. Qed.
(** send() and receive() return how many bytes OpenSSL transferred, or 0; never more than asked for. *)
Theorem C88_transferred : forall w i size a n r w', 0 <= size -> step w (Transfer i size a n) = Back r w' -> 0 <= r <= size /\ (r <> 0 -> r = n).
Proof.
  intros w i size a n r w' P S. cbn [step] in S. destruct (objs w i) as [[c|v]|]; try discriminate. destruct (transfer_size w c size a n r w' P S) as (A & B). split; [exact A|]. intro K. exact (proj1 (B K)).
Qed.
Example C88_transferred_case : exists w w', reachable w /\ step w (Transfer 0 10 Completes 7) = Back 7 w'.
Proof.
  destruct (steps start (new true false ++ [Connect 0 (Some 3) (Some honest) true Completes])) as [w|] eqn:E; [|vm_compute in E; discriminate]. assert (R : reachable w) by (eexists; exact E).
  vm_compute in E. injection E as <-. eexists _, _. split; [exact R|]. vm_compute. reflexivity.
Qed.
(** False: "what can be sent in pieces can be sent": of 2^31 bytes none is sent, whatever OpenSSL could do,
    because the size becomes a negative int. *)
Theorem C88_size_refuted : exists size, 0 < size < 18446744073709551616 /\ forall w i a n r w', step w (Transfer i size a n) = Back r w' -> r = 0.
Proof.
  exists 2147483648. split; [lia|]. intros w i a n r w' S. cbn [step] in S. destruct (objs w i) as [[c|v]|]; try discriminate. destruct (transfer_size w c 2147483648 a n r w' ltac:(lia) S) as (A & B).
  destruct (Z.eq_dec r 0) as [|K]; [assumption|]. destruct (B K) as (-> & C). change (to_int 2147483648) with (-2147483648) in C. lia.
Qed.

Print Assumptions C83_absent_refuted.
Print Assumptions C83_shown_partial.
Print Assumptions C83_good_refuted.
Print Assumptions C83_plain.
Print Assumptions C84_impostor_partial.
Print Assumptions C84_good_refuted.
Print Assumptions C84_log_refuted.
Print Assumptions C84_log_partial.
Print Assumptions C85_records_refuted.
Print Assumptions C85_handshake_refuted.
Print Assumptions C85_records_partial.
Print Assumptions C85_handshake_partial.
Print Assumptions C86_memory.
Print Assumptions C86_descriptors.
Print Assumptions C86_uses_refuted.
Print Assumptions C86_uses_partial.
Print Assumptions C86_leak_refuted.
Print Assumptions C86_leak_partial.
Print Assumptions C87_fails_refuted.
Print Assumptions C87_silent_refuted.
Print Assumptions C87_served_partial.
Print Assumptions C88_password_partial.
Print Assumptions C88_kept.
Print Assumptions C88_short_refuted.
Print Assumptions C88_transferred.
Print Assumptions C88_size_refuted.
