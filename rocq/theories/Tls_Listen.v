(** Proofs for C84 (clients that were moved from), C87 (the accepting loop) and C88 (passwords, sizes). *)

From Coq Require Import ZArith Lia List Bool.
From Verif Require Import Tls_Model Tls_Spec Tls_Proofs.
Import ListNotations.
Open Scope Z_scope.

(** ** A verifying client without a context has been moved from *)
Definition mfrom (c : client) : Prop := c_verify c = true -> c_ctx c = None -> c_ssl c = None.
Definition cv (w : world) : Prop := forall i c, objs w i = Some (Client c) -> mfrom c.
Lemma cv_upd : forall w w' i q, cv w -> objs w' = upd (objs w) i q -> (forall c, q = Some (Client c) -> mfrom c) -> cv w'.
Proof. intros w w' i q H E Q j c J. rewrite E in J. destruct (Nat.eq_dec j i) as [->|N]; [rewrite upd_same in J; exact (Q c J)|]. rewrite upd_other in J by exact N. exact (H j c J). Qed.
Lemma cv_same : forall w w', cv w -> objs w' = objs w -> cv w'. Proof. intros w w' H E j c. rewrite E. apply H. Qed.
Lemma close_fd_objs : forall w fd, objs (close_fd w fd) = objs w. Proof. intros. unfold close_fd. destruct (is_open fd); reflexivity. Qed.
Lemma step_cv : forall w LX LS c w', inv w LX LS -> cv w -> came (step w c) = Some w' -> cv w'.
Proof.
  intros w LX LS c w' H CV E. assert (M := proj1 H).
  destruct c as [log v m x s|log v len m x c k|i got reached f a|i size a n|i got ok|i ok|i got s f a|i|i|i]; cbn [step] in E;
    try (destruct (objs w i) as [[c|v]|] eqn:O); try discriminate.
  - unfold new_client in E. destruct m; cbn [negb] in E; [|injection E as <-; assumption]. destruct x; cbn [negb] in E; [|injection E as <-; assumption]. destruct s; cbn [negb] in E; [|injection E as <-; exact CV].
    unfold ssl_new in E. cbn [ctx_new ctxs nctxs] in E. rewrite upd_same in E. cbn in E. injection E as <-. eapply (cv_upd w); [exact CV|reflexivity|]. intros c K. injection K as <-. intros _ K. discriminate.
  - unfold new_server in E. destruct (max_password <=? len); [injection E as <-; assumption|]. destruct m; cbn [negb] in E; [|injection E as <-; assumption].
    destruct x; cbn [negb] in E; [|injection E as <-; assumption]. destruct c; cbn [negb] in E; [|injection E as <-; assumption]. destruct k; cbn [negb came] in E; injection E as <-; [|exact CV].
    eapply (cv_upd w); [exact CV|reflexivity|]. discriminate.
  - assert (K : forall w1 c1, mem w1 LX LS -> cv w1 -> objs w1 i = Some (Client c1) -> came (connect_handshake w1 c1 f a) = Some w' -> cv w').
    { intros w1 c1 M1 C1 O1 K. unfold connect_handshake in K. destruct (negb (is_open (c_fd c1))); [injection K as <-; exact C1|]. destruct (c_ssl c1) as [s|] eqn:S; [|injection K as <-; exact C1].
      destruct (ssls w1 s) as [l|] eqn:L; [|discriminate]. destruct (negb f); [injection K as <-; exact C1|]. destruct (negb (c_log c1)); [discriminate|].
      assert (M2 := mem_set_fd w1 LX LS s l (c_fd c1) M1 L). destruct (shake_mem _ LX LS s true a M2) as (_ & _ & HT & B); [cbn; rewrite upd_same; discriminate|].
      destruct (ssl_shake (ssl_set_fd w1 s l (c_fd c1)) s true a) as [r w2|w2| | | |]; try discriminate; [|destruct (HT w2 eq_refl)].
      destruct (B r w2 eq_refl) as (_ & _ & (SB & _)). assert (w' = w2) as -> by (destruct (r =? 1); injection K as <-; reflexivity). apply (cv_same w1); auto. }
    unfold connect in E. destruct (is_open (c_fd c)).
    + destruct reached as [p|]; [|injection E as <-; exact CV]. destruct (fds (note w [Used (c_fd c)]) (c_fd c)) as [[q|]|]; try discriminate.
      refine (K (os_connected (note w [Used (c_fd c)]) (c_fd c) p) c _ CV O E). apply (mem_ext w); auto.
    + destruct got as [fd|]; [|injection E as <-; exact CV]. destruct (os_open w fd None) as [w1|] eqn:W; [|discriminate].
      destruct (os_open_facts _ _ _ _ W) as (Q1 & Q2 & Q3 & Q4 & Q5 & Q6 & _).
      assert (M1 : mem w1 LX LS) by (apply (mem_ext w); auto). assert (O1 : objs w1 i = Some (Client c)) by (rewrite Q1; exact O).
      assert (M2 := mem_same w1 LX LS i (Client c) (Client (with_fd c fd)) M1 O1 eq_refl eq_refl).
      assert (C2 : cv (set_obj w1 i (Some (Client (with_fd c fd))))).
      { eapply (cv_upd w); [exact CV|cbn; rewrite Q1; reflexivity|]. intros d K'. injection K' as <-. exact (CV i c O). }
      cbn zeta in E. set (w2 := set_obj w1 i (Some (Client (with_fd c fd)))) in *.
      destruct reached as [p|]; [|injection E as <-; exact C2]. destruct (fds (note w2 [Used (c_fd (with_fd c fd))]) (c_fd (with_fd c fd))) as [[q|]|]; try discriminate.
      refine (K (os_connected (note w2 [Used (c_fd (with_fd c fd))]) (c_fd (with_fd c fd)) p) (with_fd c fd) _ C2 _ E); [apply (mem_ext w2); auto|cbn; apply upd_same].
  - unfold transfer in E. destruct (negb (is_open (c_fd c))); [injection E as <-; exact CV|]. destruct (c_ssl c) as [s|] eqn:S; [|injection E as <-; exact CV].
    destruct (m_own _ _ _ M i (Client c) s O S) as (N & _). destruct (transfer_mem w LX LS s (to_int size) a n M N) as (_ & _ & HT & B).
    destruct (ssl_transfer w s (to_int size) a n) as [r w2|w2| | | |]; try discriminate; [|destruct (HT w2 eq_refl)]. cbn in E. injection E as <-. destruct (B r w2 eq_refl) as (_ & _ & (SB & _)). exact (cv_same w w2 CV SB).
  - unfold bind in E. destruct (is_open (v_fd v)); [injection E as <-; exact CV|]. destruct got as [fd|]; [|injection E as <-; exact CV]. destruct (os_open w fd None) as [w1|] eqn:W; [|discriminate].
    destruct (os_open_facts _ _ _ _ W) as (Q1 & _). destruct ok; cbn in E; injection E as <-; [|exact (cv_same w _ CV Q1)].
    eapply (cv_upd w); [exact CV|cbn; rewrite Q1; reflexivity|discriminate].
  - unfold listen in E. destruct ok; cbn in E; [destruct (is_open (v_fd v)); [injection E as <-; exact CV|discriminate]|injection E as <-; exact CV].
  - unfold accept in E. destruct got as [(fd, p)|]; [|injection E as <-; exact CV]. destruct (negb (is_open (v_fd v))); [discriminate|].
    destruct (os_open (note w [Used (v_fd v)]) fd (Some p)) as [w1|] eqn:W; [|discriminate]. destruct (os_open_facts _ _ _ _ W) as (Q1 & Q2 & Q3 & Q4 & Q5 & Q6 & _).
    assert (C1 : forall w2, objs w2 = objs w1 -> cv (close_fd w2 fd)) by (intros w2 K; apply (cv_same w); [exact CV|rewrite close_fd_objs, K; exact Q1]).
    destruct (v_ctx v) as [x|] eqn:X; [|injection E as <-; apply C1; reflexivity]. destruct s; cbn [negb] in E; [|injection E as <-; apply C1; reflexivity].
    assert (M1 : mem w1 LX LS) by (apply (mem_ext w); auto). assert (O1 : objs w1 i = Some (Server v)) by (rewrite Q1; exact O).
    destruct (mem_ssl_new w1 LX LS x M1 (mem_ctx_held w1 LX LS i (Server v) x M1 O1 X)) as (w2 & d & C & E2 & M2 & H1 & H2 & H3 & H4 & _). rewrite E2 in E.
    destruct f; cbn [negb] in E; [|injection E as <-; apply C1; exact H1]. rewrite H4, upd_same in E. cbn zeta in E.
    match type of E with context [ssl_set_fd w2 ?s ?l fd] => set (w3 := ssl_set_fd w2 s l fd) in * end.
    destruct (shake_mem w3 LX (mark LS (nssls w1) true) (nssls w1) false a) as (_ & _ & HT & B); [apply mem_set_fd; [exact M2|rewrite H4; apply upd_same]|subst w3; cbn; rewrite upd_same; discriminate|].
    destruct (ssl_shake w3 (nssls w1) false a) as [r w4|w4| | | |]; try discriminate; [|destruct (HT w4 eq_refl)]. destruct (B r w4 eq_refl) as (B1 & _ & (SB & SB2 & _)).
    destruct (r <=? 0).
    + match type of E with context [client_free w4 ?c] => set (cc := c) in * end.
      destruct (mem_fresh w1 LX LS M1) as (_ & F2 & _).
      destruct (client_free_mem w4 LX LS cc B1) as (w5 & G0 & _ & G2 & _); [cbn; intros t T; injection T as <-; exact F2|]. rewrite G0 in E. cbn in E. injection E as <-. apply C1. rewrite G2, SB. exact H1.
    + cbn in E. injection E as <-. eapply (cv_upd w4); [apply (cv_same w); [exact CV|rewrite SB; subst w3; cbn; rewrite H1; exact Q1]|reflexivity|]. intros c K. injection K as <-. intro K. discriminate.
  - unfold close_client in E. destruct (is_open (c_fd c)); injection E as <-; [|exact CV]. eapply (cv_upd w); [exact CV|reflexivity|]. intros d K. injection K as <-. exact (CV i c O).
  - unfold close_server in E. destruct (is_open (v_fd v)); injection E as <-; [|exact CV]. eapply (cv_upd w); [exact CV|reflexivity|]. discriminate.
  - cbn in E. injection E as <-. eapply (cv_upd (set_obj w i _)); [|reflexivity|intros d K; injection K as <-; exact (CV i c O)]. eapply (cv_upd w); [exact CV|reflexivity|]. intros d K. injection K as <-. intros _ _. reflexivity.
  - cbn in E. injection E as <-. eapply (cv_upd (set_obj w i _)); [|reflexivity|discriminate]. eapply (cv_upd w); [exact CV|reflexivity|discriminate].
  - unfold destroy_client in E. assert (M1 := mem_release w LX LS i (Client c) None M O I). cbn [ctx_of ssl_of] in M1.
    destruct (client_free_mem _ LX LS c M1 (fun s S => proj2 (m_own _ _ _ M i (Client c) s O S))) as (w1 & E1 & _ & G2 & _). rewrite E1 in E. cbn in E. injection E as <-.
    apply (cv_same w1); [|apply close_fd_objs]. eapply (cv_upd w); [exact CV|exact G2|discriminate].
  - unfold destroy_server in E.
    assert (G : forall w1, (match v_ctx v with Some x => ctx_free (set_obj w i None) x | None => Some (set_obj w i None) end) = Some w1 -> objs w1 = upd (objs w) i None).
    { intros w1 G. destruct (v_ctx v) as [x|]; [|injection G as <-; reflexivity]. unfold ctx_free in G. destruct (ctxs (set_obj w i None) x); [|discriminate]. injection G as <-. reflexivity. }
    destruct (match v_ctx v with Some x => ctx_free (set_obj w i None) x | None => Some (set_obj w i None) end) as [w1|]; [|discriminate]. cbn in E. injection E as <-.
    apply (cv_same w1); [|apply close_fd_objs]. eapply (cv_upd w); [exact CV|exact (G w1 eq_refl)|discriminate].
Qed.
Lemma steps_cv : forall l w LX LS w', inv w LX LS -> cv w -> steps w l = Some w' -> cv w'.
Proof.
  induction l as [|c l IH]; intros w LX LS w' H R S; cbn in S; [injection S as <-; exact R|].
  destruct (step_fine w LX LS c H) as (_ & F). assert (G : exists w1, came (step w c) = Some w1 /\ steps w1 l = Some w') by (destruct (step w c) as [r w1|w1| | | |]; try discriminate; exists w1; auto).
  destruct G as (w1 & G & G'). destruct (F w1 G) as (LX1 & LS1 & H1 & _). apply (IH w1 LX1 LS1 w' H1); [|exact G']. exact (step_cv w LX LS c w1 H R G).
Qed.
Lemma reachable_cv : forall w, reachable w -> cv w.
Proof. intros w (l & S). apply (steps_cv l start _ _ w inv_start); [intros i c; discriminate|exact S]. Qed.

(** ** The accepting loop *)
Lemma accept_computes : forall w LX LS i v x fd p a, inv w LX LS -> objs w i = Some (Server v) -> v_ctx v = Some x -> v_fd v <> -1 ->
  0 <= fd -> fds w fd = None -> (v_verify v = true -> p_cert p = None) ->
  match a with
  | Completes => exists w', accept w v (Some (fd, p)) true true a = Back 0 w' /\ objs w' i = Some (Server v) /\ forall f, f <> fd -> fds w' f = fds w f
  | Fails _ => exists w', accept w v (Some (fd, p)) true true a = Threw w'
  | Silent => accept w v (Some (fd, p)) true true a = Waits
  end.
Proof.
  intros w LX LS i v x fd p a (M & D & V) O X N P F Y. assert (XH := mem_ctx_held w LX LS i (Server v) x M O X). destruct (ctxs w x) as [d|] eqn:C; [|contradiction].
  assert (MD := v_srv _ V i v x d O X C). assert (RT := v_roots _ V x d C).
  assert (AL : allowed false (x_mode d) (x_roots d) p = true).
  { rewrite MD, RT. unfold allowed, server_mode. destruct (v_verify v); [rewrite (Y eq_refl); reflexivity|]. destruct (p_cert p); reflexivity. }
  destruct (mem_fresh w LX LS M) as (_ & _ & _ & _ & NO). assert (NI : i <> nobjs w) by congruence.
  assert (IO : is_open (v_fd v) = true) by (unfold is_open, invalid; destruct (Z.eqb_spec (v_fd v) (-1)); [contradiction|reflexivity]).
  assert (LT : (fd <? 0) = false) by (apply Z.ltb_ge; exact P).
  set (w2 := {| objs := objs w; nobjs := nobjs w; ctxs := upd (ctxs w) x (Some {| x_mode := x_mode d; x_roots := x_roots d; x_refs := S (x_refs d) |}); nctxs := nctxs w;
     ssls := upd (ssls w) (nssls w) (Some {| l_ctx := x; l_mode := x_mode d; l_fd := None; l_shake := Fresh |}); nssls := S (nssls w);
     fds := updz (fds w) fd (Some (Some (nconns w, p))); nconns := S (nconns w); trace := (trace w ++ [Used (v_fd v)]) ++ [Opened fd] |}).
  set (l := {| l_ctx := x; l_mode := x_mode d; l_fd := None; l_shake := Fresh |}).
  set (c := {| c_fd := fd; c_log := v_log v; c_verify := false; c_ctx := None; c_ssl := Some (nssls w) |}).
  assert (E : accept w v (Some (fd, p)) true true a =
    match ssl_shake (ssl_set_fd w2 (nssls w) l fd) (nssls w) false a with
    | Back r w => if r <=? 0 then match client_free w c with None => Freed | Some w => Threw (close_fd w fd) end else Back 0 (add_obj w (Client c))
    | o => o
    end).
  { unfold accept. rewrite IO. cbn. unfold os_open. rewrite LT. cbn. rewrite F, X. cbn. unfold ssl_new. cbn. rewrite C. cbn. rewrite upd_same. reflexivity. }
  set (w4 := ssl_shaken (ssl_set_fd w2 (nssls w) l fd) (nssls w) {| l_ctx := x; l_mode := x_mode d; l_fd := Some fd; l_shake := Fresh |} (Begun false)).
  set (l4 := {| l_ctx := x; l_mode := x_mode d; l_fd := Some fd; l_shake := Begun false |}).
  assert (E4 : ssls w4 (nssls w) = Some l4) by (subst w4; cbn; apply upd_same).
  assert (SH : ssl_shake (ssl_set_fd w2 (nssls w) l fd) (nssls w) false a = handshake w4 (nssls w) a) by (unfold ssl_shake; cbn [ssl_set_fd set_ssl ssls]; rewrite upd_same; reflexivity).
  assert (HS : handshake w4 (nssls w) a =
    match a with
    | Completes => Back 1 (ssl_shaken (note w4 [Used fd]) (nssls w) l4 (Complete (nconns w)))
    | Fails true => Back (-1) (ssl_shaken (note w4 [Used fd]) (nssls w) l4 Broken)
    | Fails false => Back (-1) (note w4 [Used fd])
    | Silent => Waits
    end).
  { unfold handshake. rewrite E4. cbn. rewrite updz_same, upd_same. cbn. rewrite AL. reflexivity. }
  rewrite SH, HS in E.
  assert (MF : forall w5, mem w5 (give (c_ctx c) LX) (gives (c_ssl c) LS true) -> exists w', match client_free w5 c with None => Freed | Some w => Threw (close_fd w fd) end = Threw w').
  { intros w5 M5. destruct (client_free_mem w5 LX LS c M5) as (w' & G & _); [cbn; intros t T; injection T as <-; exact (proj1 (proj2 (mem_fresh w LX LS M)))|]. rewrite G. eauto. }
  assert (M4 : mem w4 LX (mark LS (nssls w) true)).
  { apply mem_shaken; [|cbn; apply upd_same]. apply mem_set_fd; [|cbn; apply upd_same].
    assert (M1 : mem (note w [Used (v_fd v)]) LX LS) by (apply mem_note; exact M).
    destruct (mem_ssl_new w LX LS x M) as (w' & d' & C' & G & M2 & _); [congruence|]. unfold ssl_new in G. rewrite C in G. injection G as <-. apply (mem_ext _ w2 _ _ M2); reflexivity. }
  destruct a as [|[|]|].
  - eexists. split; [exact E|]. cbn. split; [rewrite upd_other by exact NI; exact O|]. intros f K. apply updz_other. exact K.
  - destruct (MF (ssl_shaken (note w4 [Used fd]) (nssls w) l4 Broken)) as (w' & G); [apply mem_shaken; [apply mem_note; exact M4|exact E4]|]. exists w'. rewrite E. exact G.
  - destruct (MF (note w4 [Used fd])) as (w' & G); [apply mem_note; exact M4|]. exists w'. rewrite E. exact G.
  - exact E.
Qed.
Lemma accepting_served : forall l w LX LS i v n, inv w LX LS -> objs w i = Some (Server v) -> v_ctx v <> None -> v_fd v <> -1 -> may_come w v l ->
  accepting w i n l = (seq n (behaved l), ending l).
Proof.
  induction l as [|((fd, p), a) l IH]; intros w LX LS i v n H O X N (ND & FA); [reflexivity|]. inversion ND as [|? ? N1 N2]; subst. inversion FA as [|? ? F0 F4]; subst. destruct F0 as (F1 & F2 & F3).
  destruct (v_ctx v) as [x|] eqn:X'; [|contradiction]. assert (A := accept_computes w LX LS i v x fd p a H O X' N F1 F2 F3).
  cbn [accepting step]. rewrite O. destruct a as [|b|]; cbn [behaved ending].
  - destruct A as (w' & A1 & A2 & A3). rewrite A1. destruct (proj1 (accept_fine w LX LS i v (Some (fd, p)) true true Completes H O)) as (_ & G). rewrite A1 in G.
    destruct (G w' eq_refl) as (LX' & LS' & H' & _). rewrite (IH w' LX' LS' i v (S n) H' A2); [reflexivity|congruence|exact N|]. split; [exact N2|].
    apply Forall_forall. intros ((f, q), b) I. rewrite Forall_forall in F4. destruct (F4 _ I) as (G1 & G2 & G3). split; [exact G1|]. split; [|exact G3]. rewrite A3; [exact G2|].
    intros ->. apply N1. apply in_map_iff. exists (fd, q, b). auto.
  - destruct A as (w' & A). rewrite A. reflexivity.
  - rewrite A. reflexivity.
Qed.

(** ** The password *)
Lemma strlen_string : forall pw r, c_string pw -> strlen (pw ++ 0 :: r) = Some (Z.of_nat (length pw)).
Proof.
  induction pw as [|c pw IH]; intros r H; [reflexivity|]. inversion H as [|? ? H1 H2]; subst. cbn [app strlen length]. destruct (Z.eqb_spec c 0); [contradiction|]. rewrite (IH r H2). f_equal. lia.
Qed.
Lemma strncpy_long : forall pw n, (length pw < n)%nat -> exists r, strncpy pw n = pw ++ 0 :: r.
Proof.
  induction pw as [|c pw IH]; intros n L; destruct n as [|n]; cbn in L; [lia|eexists; reflexivity|lia|]. destruct (IH n) as (r & E); [lia|]. exists r. cbn. rewrite E. reflexivity.
Qed.
Lemma strncpy_length : forall n pw, length (strncpy pw n) = n. Proof. induction n as [|n IH]; intros [|c pw]; cbn; rewrite ?IH; reflexivity. Qed.
Lemma poke_app : forall l r i c, (length l <= i)%nat -> poke (l ++ r) i c = l ++ poke r (i - length l) c.
Proof. induction l as [|x l IH]; intros r i c L; cbn in *; [rewrite Nat.sub_0_r; reflexivity|]. destruct i as [|i]; [lia|]. rewrite IH by lia. reflexivity. Qed.
Lemma poke_zero : forall r i, exists r', poke (0 :: r) i 0 = 0 :: r'.
Proof. intros r [|i]; cbn; eauto. Qed.
Lemma password_stored : forall pw, (length pw < 256)%nat -> exists r, keep_password pw = Some (pw ++ 0 :: r).
Proof.
  intros pw L. unfold keep_password, max_password. destruct (Z.leb_spec 256 (Z.of_nat (length pw))); [lia|]. destruct (strncpy_long pw 256 L) as (r & E). rewrite E, <- app_assoc.
  rewrite poke_app by lia. destruct (poke_zero (r ++ [0]) (256 - length pw)) as (r' & K). exists r'. rewrite <- K. reflexivity.
Qed.
Lemma password_given : forall pw r size, c_string pw -> (length pw < size)%nat -> exists r', pem_passwd_cb (pw ++ 0 :: r) size = Some (pw ++ 0 :: r', Z.of_nat (length pw)).
Proof.
  intros pw r size C L. unfold pem_passwd_cb. rewrite (strlen_string pw r C), Nat2Z.id. destruct size as [|last]; [lia|].
  rewrite firstn_app, firstn_all, Nat.sub_diag. cbn [firstn]. rewrite app_nil_r. destruct (strncpy_long pw (S last) L) as (q & E). rewrite E, poke_app by lia.
  destruct (poke_zero q (last - length pw)) as (r' & K). rewrite K. rewrite (strlen_string pw r' C). exists r'. reflexivity.
Qed.

(** ** Sizes *)
Lemma to_int_le : forall size, 0 <= size -> to_int size <= size.
Proof. intros size H. unfold to_int. assert (K := Z.mod_le (size + 2147483648) 4294967296). lia. Qed.
Lemma to_int_small : forall size, 0 <= size < 2147483648 -> to_int size = size.
Proof. intros size H. unfold to_int. rewrite Z.mod_small by lia. lia. Qed.
Lemma handshake_one : forall w s a r w', handshake w s a = Back r w' -> r = 1 \/ r = -1.
Proof.
  intros w s a r w' H. unfold handshake in H. destruct (ssls w s) as [l|]; [|discriminate]. destruct (l_shake l); try (injection H as <- <-; auto). destruct (l_fd l) as [fd|]; [|injection H as <- <-; auto].
  destruct a as [|[|]|]; try (injection H as <- <-; auto).
  - destruct (fds (note w [Used fd]) fd) as [[[c p]|]|]; destruct (ctxs (note w [Used fd]) (l_ctx l)); try discriminate. destruct (allowed as_client (l_mode l) (x_roots c0) p); [injection H as <- <-; auto|discriminate].
  - destruct (fds (note w [Used fd]) fd) as [[?|]|]; discriminate.
Qed.
Lemma transfer_size : forall w c size a n r w', 0 <= size -> transfer w c size a n = Back r w' -> 0 <= r <= size /\ (r <> 0 -> r = n /\ n <= to_int size).
Proof.
  intros w c size a n r w' P H. unfold transfer in H. destruct (negb (is_open (c_fd c))); [discriminate|]. destruct (c_ssl c) as [s|]; [|discriminate].
  assert (Z0 : forall q w1, q = -1 -> Back (if q <? 0 then 0 else q) w1 = Back r w' -> 0 <= r <= size /\ (r <> 0 -> r = n /\ n <= to_int size)) by (intros q w1 -> K; cbn in K; injection K as <- _; lia).
  unfold ssl_transfer in H. destruct (handshake w s a) as [q w1|w1| | | |] eqn:E; try discriminate.
  destruct (handshake_one _ _ _ _ _ E) as [ -> | -> ]; [|exact (Z0 _ _ eq_refl H)].
  destruct (ssls w1 s) as [l|]; [|discriminate]. destruct (l_shake l); try discriminate. destruct (l_fd l); [|discriminate].
  assert (T := to_int_le size P). destruct (Z.leb_spec (to_int size) 0); [exact (Z0 _ _ eq_refl H)|]. destruct ((0 <? n) && (n <=? to_int size)) eqn:B.
  - apply andb_true_iff in B. destruct B as (B1 & B2). apply Z.ltb_lt in B1. apply Z.leb_le in B2. destruct (Z.ltb_spec n 0); [lia|]. injection H as <- _. lia.
  - destruct (n =? 0); [exact (Z0 _ _ eq_refl H)|discriminate].
Qed.
