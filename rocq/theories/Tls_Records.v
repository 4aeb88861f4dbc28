(** Proofs for C85 and C86: histories in which nobody calls close(). *)

From Coq Require Import ZArith Lia List Bool.
From Verif Require Import Tls_Model Tls_Spec Tls_Proofs.
Import ListNotations.
Open Scope Z_scope.

(** the descriptor and the keys of an SSL are those of the object that has it *)
Definition okl (w : world) (c : client) (l : ssl) : Prop :=
  (forall f, l_fd l = Some f -> c_fd c = f /\ f <> -1) /\
  (forall k, l_shake l = Complete k -> exists f p, l_fd l = Some f /\ fds w f = Some (Some (k, p))).
Definition own (w : world) : Prop := forall i c s l, objs w i = Some (Client c) -> c_ssl c = Some s -> ssls w s = Some l -> okl w c l.
Definition seen (w : world) : Prop := Forall rightly (trace w) /\ tracks true w.
Definition rec (w : world) : Prop := own w /\ seen w.

Definition good (w : world) (e : event) : Prop :=
  match e with
  | Used f => f = -1 \/ fds w f <> None
  | Record_on f found k => found = Some k /\ fds w f <> None
  | _ => False
  end.
Lemma proper_good : forall w e o, (forall f, In f o <-> fds w f <> None) -> Forall (good w) e -> proper true o e = Some o.
Proof.
  intros w e. induction e as [|[fd|fd|fd|fd k c] e IH]; intros o E H; inversion H as [|x y U V]; subst; cbn in *; try contradiction; [reflexivity| |].
  - assert (X : (fd =? -1) || existsb (Z.eqb fd) o = true). { destruct U as [->|U]; [reflexivity|]. apply E, existsb_In in U. rewrite U. apply orb_true_r. }
    rewrite X. apply IH; assumption.
  - destruct U as (_ & U). apply E, existsb_In in U. rewrite U, orb_true_r. apply IH; assumption.
Qed.
Lemma seen_note : forall w w' e, seen w -> Forall (good w) e -> trace w' = trace w ++ e -> fds w' = fds w -> seen w'.
Proof.
  intros w w' e (R & open & P & N & E) G T F. split.
  - rewrite T. apply Forall_app. split; [exact R|]. eapply Forall_impl; [|exact G]. intros [fd|fd|fd|fd k c]; cbn; tauto.
  - exists open. rewrite T, F, proper_app, P, (proper_good w e open E G). auto.
Qed.
Lemma seen_used : forall w w' fd, seen w -> (fd = -1 \/ fds w fd <> None) -> trace w' = trace w ++ [Used fd] -> fds w' = fds w -> seen w'.
Proof. intros w w' fd H O T F. apply (seen_note w w' [Used fd]); auto. Qed.
Lemma seen_ext : forall w w', seen w -> trace w' = trace w -> fds w' = fds w -> seen w'.
Proof. intros w w' H T F. apply (seen_note w w' []); auto. rewrite app_nil_r. exact T. Qed.
Lemma seen_open : forall w fd p w', seen w -> os_open w fd p = Some w' -> seen w'.
Proof.
  intros w fd p w' (R & T) H. split; [|apply (tracks_open true w fd p); assumption]. destruct (os_open_facts _ _ _ _ H) as (_ & _ & _ & _ & _ & _ & _ & _ & _ & E & _ & _).
  rewrite E. apply Forall_app. split; [exact R|repeat constructor].
Qed.
Lemma seen_connected : forall w fd p, seen w -> fds w fd <> None -> seen (os_connected w fd p).
Proof. intros w fd p (R & T) H. split; [exact R|apply tracks_connected; assumption]. Qed.
Lemma seen_close : forall w fd, seen w -> fds w fd <> None -> seen (os_close w fd).
Proof. intros w fd (R & T) H. split; [|apply tracks_close; assumption]. cbn. apply Forall_app. split; [exact R|repeat constructor]. Qed.
Lemma seen_close_fd : forall w fd, seen w -> (fd = -1 \/ fds w fd <> None) -> seen (close_fd w fd).
Proof. intros w fd H O. unfold close_fd, is_open, invalid. destruct (Z.eqb_spec fd (-1)); [exact H|]. destruct O as [O|O]; [contradiction|]. apply seen_close; assumption. Qed.

(** descriptors that are connected stay so *)
Definition kept (w w' : world) : Prop := forall f k, fds w f = Some (Some k) -> fds w' f = Some (Some k).
Lemma okl_kept : forall w w' c l, kept w w' -> okl w c l -> okl w' c l.
Proof. intros w w' c l K (A & B). split; [exact A|]. intros k E. destruct (B k E) as (f & p & F & D). exists f, p. auto. Qed.
Lemma own_kept : forall w w', own w -> objs w' = objs w -> ssls w' = ssls w -> kept w w' -> own w'.
Proof. intros w w' H O S K i c s l. rewrite O, S. intros A B C. exact (okl_kept w w' c l K (H i c s l A B C)). Qed.
Lemma kept_eq : forall w w', fds w' = fds w -> kept w w'. Proof. intros w w' E f k. rewrite E. auto. Qed.
Lemma kept_open : forall w fd p w', os_open w fd p = Some w' -> kept w w'.
Proof.
  intros w fd p w' H f k F. destruct (os_open_facts _ _ _ _ H) as (_ & _ & _ & _ & _ & _ & _ & _ & A & _ & B & _). rewrite B; [exact F|]. intros ->. congruence.
Qed.
Lemma kept_trans : forall w w1 w2, kept w w1 -> kept w1 w2 -> kept w w2. Proof. unfold kept. auto. Qed.

(** the handshake *)
Lemma handshake_rec : forall w s a l r w', ssls w s = Some l -> ctxs w (l_ctx l) <> None -> (forall f, l_fd l = Some f -> fds w f <> None) -> seen w ->
  handshake w s a = Back r w' -> seen w' /\ fds w' = fds w /\ exists l', ssls w' s = Some l' /\ l_fd l' = l_fd l /\
    forall k, l_shake l' = Complete k -> l_shake l = Complete k \/ exists f p, l_fd l = Some f /\ fds w f = Some (Some (k, p)).
Proof.
  intros w s a l r w' E C O S H.
  destruct (handshake_cases w s a l E C) as [K|[K|[(c & K1 & K)|[(K1 & K)|(fd & b & F & B & [K|[K|(c & p & x & _ & X1 & _ & _ & K)]])]]]]; rewrite K in H; try discriminate; injection H as <- <-.
  - split; [exact S|]. split; [reflexivity|]. exists l. auto.
  - split; [exact S|]. split; [reflexivity|]. exists l. auto.
  - split; [apply (seen_used w _ fd); auto|]. split; [reflexivity|]. exists l. auto.
  - split; [apply (seen_used w _ fd); auto|]. split; [reflexivity|]. cbn. rewrite upd_same. eexists. split; [reflexivity|]. split; [reflexivity|]. cbn. discriminate.
  - split; [apply (seen_used w _ fd); auto|]. split; [reflexivity|]. cbn. rewrite upd_same. eexists. split; [reflexivity|]. split; [reflexivity|]. cbn.
    intros k Y. injection Y as <-. right. exists fd, p. auto.
Qed.
Lemma shake_rec : forall w s b a l r w', ssls w s = Some l -> ctxs w (l_ctx l) <> None -> (forall f, l_fd l = Some f -> fds w f <> None) -> seen w ->
  ssl_shake w s b a = Back r w' -> seen w' /\ fds w' = fds w /\ exists l', ssls w' s = Some l' /\ l_fd l' = l_fd l /\
    forall k, l_shake l' = Complete k -> l_shake l = Complete k \/ exists f p, l_fd l = Some f /\ fds w f = Some (Some (k, p)).
Proof.
  intros w s b a l r w' E C O S H. unfold ssl_shake in H. rewrite E in H. destruct (l_shake l) eqn:L; try (rewrite <- L; apply (handshake_rec w s a l r); assumption).
  destruct (handshake_rec (ssl_shaken w s l (Begun b)) s a {| l_ctx := l_ctx l; l_mode := l_mode l; l_fd := l_fd l; l_shake := Begun b |} r w') as (A & B & l' & X1 & X2 & X3); auto.
  - cbn. apply upd_same.
  - split; [exact A|]. split; [exact B|]. exists l'. split; [exact X1|]. split; [exact X2|]. intros k K. destruct (X3 k K) as [Y|Y]; [discriminate|right; exact Y].
Qed.

(** each call *)
Lemma own_start : rec start. Proof. split; [intros i c s l; discriminate|]. split; [constructor|]. exists []. cbn. repeat split; try constructor; tauto. Qed.
Lemma own_add : forall w w' c i, own w -> objs w' = upd (objs w) i (Some (Client c)) -> (forall s, ssls w' s = ssls w s \/ c_ssl c = Some s /\ forall j o, objs w j = Some o -> ssl_of o = Some s -> j = i) -> kept w w' ->
  (forall s l, c_ssl c = Some s -> ssls w' s = Some l -> okl w' c l) -> own w'.
Proof.
  intros w w' c i H O S K A j d s l J. rewrite O in J. destruct (Nat.eq_dec j i) as [->|N].
  - rewrite upd_same in J. injection J as <-. apply A.
  - rewrite upd_other in J by exact N. intros T L. destruct (S s) as [E|(_ & E)]; [|destruct (N (E j (Client d) J T))]. rewrite E in L. exact (okl_kept w w' d l K (H j d s l J T L)).
Qed.
Lemma new_client_rec : forall w LX LS log verify m x s w', inv w LX LS -> rec w -> came (new_client w log verify m x s) = Some w' -> rec w'.
Proof.
  intros w LX LS log verify m x s w' (M & D & V) (H & R) E. unfold new_client in E. destruct m; cbn [negb] in E; [|injection E as <-; split; assumption].
  destruct x; cbn [negb] in E; [|injection E as <-; split; assumption]. destruct s; cbn [negb] in E; [|injection E as <-; split; [exact H|exact R]].
  unfold ssl_new in E. cbn [ctx_new ctxs nctxs] in E. rewrite upd_same in E. cbn in E. injection E as <-. split; [|exact R].
  destruct (mem_fresh w LX LS M) as (_ & _ & _ & F & _).
  eapply (own_add w); [exact H|reflexivity| |apply kept_eq; reflexivity|].
  - intro s. cbn. destruct (Nat.eq_dec s (nssls w)) as [->|N]; [|left; apply upd_other; exact N]. right. split; [reflexivity|]. intros j o J T.
    destruct (m_own _ _ _ M j o _ J T) as (A & _). contradiction.
  - cbn. intros s l T. injection T as <-. rewrite upd_same. intro T. injection T as <-. split; cbn; discriminate.
Qed.
Lemma new_server_rec : forall w LX LS log verify len m x c k w', inv w LX LS -> rec w -> came (new_server w log verify len m x c k) = Some w' -> rec w'.
Proof.
  intros w LX LS log verify len m x c k w' (M & D & V) (H & R) E. unfold new_server in E.
  destruct (max_password <=? len); [injection E as <-; split; assumption|]. destruct m; cbn [negb] in E; [|injection E as <-; split; assumption].
  destruct x; cbn [negb] in E; [|injection E as <-; split; assumption]. destruct c; cbn [negb] in E; [|injection E as <-; split; assumption]. destruct k; cbn [negb came] in E; injection E as <-; [|split; assumption].
  split; [|exact R]. intros j d s l J. cbn in J. destruct (Nat.eq_dec j (nobjs w)) as [->|N]; [rewrite upd_same in J; discriminate|]. rewrite upd_other in J by exact N. exact (H j d s l J).
Qed.
Lemma move_client_rec : forall w LX LS i c w', inv w LX LS -> rec w -> objs w i = Some (Client c) -> came (move_client w i c) = Some w' -> rec w'.
Proof.
  intros w LX LS i c w' (M & D & V) (H & R) O E. cbn in E. injection E as <-. split; [|exact R]. intros j d s l J. cbn in J.
  destruct (Nat.eq_dec j (nobjs w)) as [->|N]; [rewrite upd_same in J; injection J as <-; intros S L; exact (H i c s l O S L)|]. rewrite upd_other in J by exact N.
  destruct (Nat.eq_dec j i) as [->|N']; [rewrite upd_same in J; injection J as <-; discriminate|]. rewrite upd_other in J by exact N'. exact (H j d s l J).
Qed.
Lemma move_server_rec : forall w i v w', rec w -> came (move_server w i v) = Some w' -> rec w'.
Proof.
  intros w i c w' (H & R) E. cbn in E. injection E as <-. split; [|exact R]. intros j d s l J. cbn in J.
  destruct (Nat.eq_dec j (nobjs w)) as [->|N]; [rewrite upd_same in J; discriminate|]. rewrite upd_other in J by exact N.
  destruct (Nat.eq_dec j i) as [->|N']; [rewrite upd_same in J; discriminate|]. rewrite upd_other in J by exact N'. exact (H j d s l J).
Qed.
(** closing a descriptor that no client has *)
Lemma own_close : forall w w' fd, own w -> objs w' = objs w -> (forall j d s, objs w j = Some (Client d) -> c_ssl d = Some s -> ssls w' s = ssls w s) -> (forall f, f <> fd -> fds w' f = fds w f) ->
  (fd <> -1 -> forall j c, objs w j = Some (Client c) -> c_fd c <> fd) -> own w'.
Proof.
  intros w w' fd H O S F N i c s l A B C. rewrite O in A. rewrite (S i c s A B) in C. destruct (H i c s l A B C) as (X & Y). split; [exact X|].
  intros k K. destruct (Y k K) as (f & p & Y1 & Y2). exists f, p. split; [exact Y1|]. destruct (X f Y1) as (X1 & X2). rewrite F; [exact Y2|]. intros ->. exact (N X2 i c A X1).
Qed.
Lemma free_seen : forall w w1 w' c, seen w -> fds w = fds w1 -> (forall s l, c_ssl c = Some s -> ssls w1 s = Some l -> okl w c l) ->
  (trace w' = trace w \/ exists s l fd k, c_ssl c = Some s /\ ssls w1 s = Some l /\ l_shake l = Complete k /\ l_fd l = Some fd /\ trace w' = trace w ++ [Used fd; Record_on fd (on w1 fd) k]) ->
  fds w' = fds w -> seen w'.
Proof.
  intros w w1 w' c R F A [T|(s & l & fd & k & X1 & X2 & X3 & X4 & T)] G; [exact (seen_ext w w' R T G)|].
  destruct (A s l X1 X2) as (_ & B). destruct (B k X3) as (f & p & B1 & B2). assert (f = fd) by congruence. subst f.
  apply (seen_note w w' [Used fd; Record_on fd (on w1 fd) k] R); auto. unfold on. rewrite <- F, B2.
  constructor; [right; congruence|]. constructor; [cbn; split; congruence|constructor].
Qed.
Lemma destroy_client_rec : forall w LX LS i c w', inv w LX LS -> rec w -> objs w i = Some (Client c) -> came (destroy_client w i c) = Some w' -> rec w'.
Proof.
  intros w LX LS i c w' (M & D & V) (H & R) O E. unfold destroy_client in E.
  assert (M1 := mem_release w LX LS i (Client c) None M O I). cbn [ctx_of ssl_of] in M1.
  assert (LSf : forall s, c_ssl c = Some s -> LS s = false) by (intros s S; exact (proj2 (m_own _ _ _ M i (Client c) s O S))).
  destruct (client_free_mem _ LX LS c M1 LSf) as (w1 & E1 & M2 & H1 & H2 & H3 & H4 & H5 & H6 & H7). rewrite E1 in E. cbn in E. injection E as <-.
  assert (H0 : own (set_obj w i None)).
  { intros j d s l J. cbn in J. destruct (Nat.eq_dec j i) as [->|N]; [rewrite upd_same in J; discriminate|]. rewrite upd_other in J by exact N. exact (H j d s l J). }
  split.
  - apply (own_close (set_obj w i None) _ (c_fd c) H0).
    + unfold close_fd. destruct (is_open (c_fd c)); exact H1.
    + intros j d s J S. transitivity (ssls w1 s); [unfold close_fd; destruct (is_open (c_fd c)); reflexivity|]. apply H5. intro K. cbn in J. destruct (Nat.eq_dec j i) as [->|N]; [rewrite upd_same in J; discriminate|].
      rewrite upd_other in J by exact N. exact (N (m_one _ _ _ M j i (Client d) (Client c) s J O S K)).
    + intros f N. unfold close_fd. destruct (is_open (c_fd c)); cbn; rewrite ?updz_other by exact N; rewrite H3; reflexivity.
    + intros N j d J K. cbn in J. destruct (Nat.eq_dec j i) as [->|N']; [rewrite upd_same in J; discriminate|]. rewrite upd_other in J by exact N'.
      apply N'. apply (d_one _ _ D j i (Client d) (Client c) J O); cbn; congruence.
  - apply seen_close_fd.
    + apply (free_seen w (set_obj w i None) w1 c R eq_refl); auto. intros s l S L. exact (H i c s l O S L).
    + destruct (Z.eq_dec (c_fd c) (-1)) as [K|K]; [left; exact K|right]. rewrite H3. exact (proj1 (d_own _ _ D i (Client c) O K)).
Qed.
Lemma destroy_server_rec : forall w LX LS i v w', inv w LX LS -> rec w -> objs w i = Some (Server v) -> came (destroy_server w i v) = Some w' -> rec w'.
Proof.
  intros w LX LS i v w' (M & D & V) (H & R) O E. unfold destroy_server in E.
  assert (M1 := mem_release w LX LS i (Server v) None M O I). cbn [ctx_of ssl_of gives] in M1.
  assert (H0 : own (set_obj w i None)).
  { intros j d s l J. cbn in J. destruct (Nat.eq_dec j i) as [->|N]; [rewrite upd_same in J; discriminate|]. rewrite upd_other in J by exact N. exact (H j d s l J). }
  assert (G : exists w1, (match v_ctx v with Some x => ctx_free (set_obj w i None) x | None => Some (set_obj w i None) end) = Some w1 /\ objs w1 = objs (set_obj w i None) /\ ssls w1 = ssls w /\ fds w1 = fds w /\ trace w1 = trace w).
  { destruct (v_ctx v) as [x|]; [|eexists; split; [reflexivity|auto]]. unfold ctx_free in *. destruct (mem_ctx_free _ _ LS x (LX x) M1) as (w2 & K & _); [cbn; unfold bump; rewrite Nat.eqb_refl; reflexivity|].
    unfold ctx_free in K. destruct (ctxs (set_obj w i None) x); [|discriminate]. eexists. split; [reflexivity|]. cbn. auto. }
  destruct G as (w1 & G & G1 & G2 & G3 & G4). rewrite G in E. cbn in E. injection E as <-. split.
  - apply (own_close (set_obj w i None) _ (v_fd v) H0).
    + unfold close_fd. destruct (is_open (v_fd v)); exact G1.
    + intros j d s J S. unfold close_fd. destruct (is_open (v_fd v)); cbn; rewrite G2; reflexivity.
    + intros f N. unfold close_fd. destruct (is_open (v_fd v)); cbn; rewrite ?updz_other by exact N; rewrite G3; reflexivity.
    + intros N j d J K. cbn in J. destruct (Nat.eq_dec j i) as [->|N']; [rewrite upd_same in J; discriminate|]. rewrite upd_other in J by exact N'.
      apply N'. apply (d_one _ _ D j i (Client d) (Server v) J O); cbn; congruence.
  - apply seen_close_fd; [apply (seen_ext w); auto|].
    destruct (Z.eq_dec (v_fd v) (-1)) as [K|K]; [left; exact K|right]. rewrite G3. exact (proj1 (d_own _ _ D i (Server v) O K)).
Qed.
Lemma own_server : forall w w' i v v', own w -> objs w i = Some (Server v) -> objs w' = upd (objs w) i (Some (Server v')) -> ssls w' = ssls w -> kept w w' -> own w'.
Proof.
  intros w w' i v v' H O E S K j d s l J. rewrite E in J. destruct (Nat.eq_dec j i) as [->|N]; [rewrite upd_same in J; discriminate|]. rewrite upd_other in J by exact N.
  rewrite S. intros A B. exact (okl_kept w w' d l K (H j d s l J A B)).
Qed.
Lemma fresh_fd : forall w LX LS fd, inv w LX LS -> fds w fd = None -> fd <> -1 -> forall j o, objs w j = Some o -> fd_of o <> fd.
Proof. intros w LX LS fd (_ & D & _) F N j o J K. destruct (d_own _ _ D j o J) as (A & _); congruence. Qed.
Lemma bind_rec : forall w LX LS i v got ok w', inv w LX LS -> rec w -> objs w i = Some (Server v) -> came (bind w i v got ok) = Some w' -> rec w'.
Proof.
  intros w LX LS i v got ok w' IV (H & R) O E. unfold bind in E. destruct (is_open (v_fd v)); [injection E as <-; split; assumption|].
  destruct got as [fd|]; [|injection E as <-; split; assumption]. destruct (os_open w fd None) as [w1|] eqn:W; [|discriminate].
  destruct (os_open_facts _ _ _ _ W) as (Q1 & Q2 & Q3 & Q4 & Q5 & Q6 & Q7 & Q8 & Q9 & Q10 & Q11 & Q12). assert (R1 := seen_open w fd None w1 R W).
  assert (R2 : seen (note w1 [Used fd])) by (apply (seen_used w1 _ fd); auto; right; rewrite Q8; discriminate).
  destruct ok; cbn in E; injection E as <-; split.
  - apply (own_server w _ i v (server_with_fd v fd)); auto; [cbn; rewrite Q1; reflexivity|]. exact (kept_open w fd None w1 W).
  - exact R2.
  - assert (FF := fresh_fd w LX LS fd IV Q9). apply (own_close w _ fd H); auto; [cbn; rewrite Q5; reflexivity| |].
    + intros f N. cbn. rewrite updz_other by exact N. exact (Q11 f N).
    + intros N j d J. exact (FF N j (Client d) J).
  - apply seen_close; [exact R2|]. cbn. rewrite Q8. discriminate.
Qed.
Lemma listen_rec : forall w LX LS i v ok w', inv w LX LS -> rec w -> objs w i = Some (Server v) -> came (listen w v ok) = Some w' -> rec w'.
Proof.
  intros w LX LS i v ok w' (_ & D & _) (H & R) O E. assert (w' = note w [Used (v_fd v)]) as ->.
  { unfold listen in E. destruct ok; cbn in E; [destruct (is_open (v_fd v)); [injection E as <-; reflexivity|discriminate]|injection E as <-; reflexivity]. }
  split; [exact H|]. apply (seen_used w _ (v_fd v)); auto. destruct (Z.eq_dec (v_fd v) (-1)) as [K|K]; [left; exact K|right; exact (proj1 (d_own _ _ D i (Server v) O K))].
Qed.
(** an SSL of a client shakes hands *)
Lemma own_shaken : forall w w' LX LS i c s l l', mem w LX LS -> own w -> objs w i = Some (Client c) -> c_ssl c = Some s -> same_but_ssl w w' s ->
  ssls w s = Some l -> ssls w' s = Some l' -> l_fd l' = l_fd l -> okl w c l ->
  (forall k, l_shake l' = Complete k -> l_shake l = Complete k \/ exists f p, l_fd l = Some f /\ fds w f = Some (Some (k, p))) -> own w'.
Proof.
  intros w w' LX LS i c s l l' M H O S (A1 & A2 & A3 & A4 & A5 & A6 & A7 & A8) L L' F (B1 & B2) K.
  assert (OK : okl w' c l').
  { split; [rewrite F; exact B1|]. intros k Y. rewrite F, A6. destruct (K k Y) as [Z|Z]; [exact (B2 k Z)|exact Z]. }
  intros j d t m J T X. rewrite A1 in J. destruct (Nat.eq_dec t s) as [->|N].
  - assert (j = i) by exact (m_one _ _ _ M j i (Client d) (Client c) s J O T S). subst j. rewrite O in J. injection J as <-. rewrite L' in X. injection X as <-. exact OK.
  - rewrite (A8 t N) in X. apply (okl_kept w); [apply kept_eq; exact A6|]. exact (H j d t m J T X).
Qed.
Lemma own_fd : forall w LX LS i c s l, inv w LX LS -> own w -> objs w i = Some (Client c) -> c_ssl c = Some s -> ssls w s = Some l -> forall f, l_fd l = Some f -> fds w f <> None.
Proof.
  intros w LX LS i c s l (_ & D & _) H O S L f F. destruct (H i c s l O S L) as (A & _). destruct (A f F) as (A1 & A2). rewrite <- A1. apply (d_own _ _ D i (Client c) O). cbn. congruence.
Qed.
Lemma transfer_rec : forall w LX LS i c size a n w', inv w LX LS -> rec w -> objs w i = Some (Client c) -> came (transfer w c size a n) = Some w' -> rec w'.
Proof.
  intros w LX LS i c size a n w' IV (H & R) O E. unfold transfer in E. destruct (negb (is_open (c_fd c))); [injection E as <-; split; assumption|].
  destruct (c_ssl c) as [s|] eqn:S; [|injection E as <-; split; assumption]. assert (M := proj1 IV).
  destruct (m_own _ _ _ M i (Client c) s O S) as (N & _). destruct (ssls w s) as [l|] eqn:L; [|contradiction].
  destruct (handshake_mem w LX LS s a M) as (_ & _ & HT & B); [congruence|]. assert (C := mem_ctx_alive _ _ _ _ _ M L). assert (OK := H i c s l O S L). assert (FO := own_fd w LX LS i c s l IV H O S L).
  unfold ssl_transfer in E. destruct (handshake w s a) as [r w1|w1| | | |] eqn:HS; try discriminate; [|destruct (HT w1 eq_refl)].
  destruct (B r w1 eq_refl) as (_ & _ & SB). destruct (handshake_rec w s a l r w1 L C FO R HS) as (R1 & F1 & l' & L' & LF & LK).
  assert (H1 : own w1) by (apply (own_shaken w w1 LX LS i c s l l'); auto).
  assert (Z1 : rec w1) by (split; assumption).
  destruct r as [|[q|q|]|q]; try (cbn in E; injection E as <-; exact Z1). rewrite L' in E. destruct (l_shake l') as [| |k|] eqn:K; try discriminate.
  destruct (l_fd l') as [fd|] eqn:F; [|discriminate].
  assert (ON : exists p, fds w1 fd = Some (Some (k, p))).
  { rewrite F1. destruct (LK k eq_refl) as [Y|(f & p & Y1 & Y2)]; [|exists p; congruence]. destruct OK as (_ & OK). destruct (OK k Y) as (f & p & Y1 & Y2). exists p. congruence. }
  destruct ON as (p & ON).
  destruct (to_int size <=? 0); [cbn in E; injection E as <-; exact Z1|]. destruct ((0 <? n) && (n <=? to_int size)).
  - cbn in E. injection E as <-. split; [exact H1|]. apply (seen_note w1 _ [Used fd; Record_on fd (on w1 fd) k]); auto. unfold on. rewrite ON. constructor; [right; congruence|]. constructor; [cbn; split; congruence|constructor].
  - destruct (n =? 0); [|discriminate]. cbn in E. injection E as <-. split; [exact H1|]. apply (seen_used w1 _ fd); auto. right. congruence.
Qed.
Lemma connect_handshake_rec : forall w LX LS i c ok_fd a w', inv w LX LS -> rec w -> objs w i = Some (Client c) -> came (connect_handshake w c ok_fd a) = Some w' -> rec w'.
Proof.
  intros w LX LS i c ok_fd a w' IV (H & R) O E. unfold connect_handshake in E. destruct (is_open (c_fd c)) eqn:P; cbn [negb] in E; [|injection E as <-; split; assumption].
  destruct (c_ssl c) as [s|] eqn:S; [|injection E as <-; split; assumption]. assert (M := proj1 IV).
  destruct (m_own _ _ _ M i (Client c) s O S) as (N & _). destruct (ssls w s) as [l|] eqn:L; [|contradiction].
  destruct ok_fd; cbn [negb] in E; [|injection E as <-; split; assumption]. destruct (c_log c); cbn [negb] in E; [|discriminate].
  unfold is_open, invalid in P. apply negb_true_iff, Z.eqb_neq in P.
  set (w1 := ssl_set_fd w s l (c_fd c)) in *. set (l1 := {| l_ctx := l_ctx l; l_mode := l_mode l; l_fd := Some (c_fd c); l_shake := l_shake l |}).
  assert (L1 : ssls w1 s = Some l1) by (subst w1; cbn; apply upd_same). assert (M1 : mem w1 LX LS) by (apply mem_set_fd; assumption).
  assert (OK := H i c s l O S L).
  assert (OK1 : okl w1 c l1).
  { destruct OK as (A & B). split; cbn; [intros f F; injection F as <-; auto|]. intros k K. destruct (B k K) as (f & p & B1 & B2). exists f, p. destruct (A f B1). split; [congruence|exact B2]. }
  assert (H1 : own w1).
  { intros j d t m J T X. destruct (Nat.eq_dec t s) as [->|Nt].
    - assert (j = i) by exact (m_one _ _ _ M j i (Client d) (Client c) s J O T S). subst j. change (objs w1) with (objs w) in J. rewrite O in J. injection J as <-. rewrite L1 in X. injection X as <-. exact OK1.
    - subst w1. cbn in X. rewrite upd_other in X by exact Nt. exact (H j d t m J T X). }
  assert (R1 : seen w1) by exact R. assert (C1 := mem_ctx_alive _ _ _ _ _ M1 L1).
  assert (FO : forall f, l_fd l1 = Some f -> fds w1 f <> None). { cbn. intros f F. injection F as <-. exact (proj1 (d_own _ _ (proj1 (proj2 IV)) i (Client c) O P)). }
  destruct (shake_mem w1 LX LS s true a M1) as (_ & _ & HT & B); [congruence|].
  destruct (ssl_shake w1 s true a) as [r w2|w2| | | |] eqn:HS; try discriminate; [|destruct (HT w2 eq_refl)].
  destruct (B r w2 eq_refl) as (_ & _ & SB). destruct (shake_rec w1 s true a l1 r w2 L1 C1 FO R1 HS) as (R2 & F2 & l' & L' & LF & LK).
  assert (w' = w2) as -> by (destruct (r =? 1); injection E as <-; reflexivity). split; [|exact R2]. apply (own_shaken w1 w2 LX LS i c s l1 l'); auto.
Qed.
Lemma connect_rec : forall w LX LS i c got reached ok_fd a w', inv w LX LS -> rec w -> objs w i = Some (Client c) -> came (connect w i c got reached ok_fd a) = Some w' -> rec w'.
Proof.
  intros w LX LS i c got reached ok_fd a w' IV (H & R) O. unfold connect.
  assert (K : forall w1 c1, inv w1 LX LS -> rec w1 -> objs w1 i = Some (Client c1) ->
    came (match reached with None => Threw (note w1 [Used (c_fd c1)]) | Some p => match fds (note w1 [Used (c_fd c1)]) (c_fd c1) with Some None => connect_handshake (os_connected (note w1 [Used (c_fd c1)]) (c_fd c1) p) c1 ok_fd a | _ => Never end end) = Some w' -> rec w').
  { intros w1 c1 H1 (X1 & X2) O1. assert (H2 := inv_used w1 LX LS (c_fd c1) H1).
    assert (R1 : seen (note w1 [Used (c_fd c1)])).
    { apply (seen_used w1 _ (c_fd c1)); auto. destruct (Z.eq_dec (c_fd c1) (-1)) as [J|J]; [left; exact J|right; exact (proj1 (d_own _ _ (proj1 (proj2 H1)) i (Client c1) O1 J))]. }
    destruct reached as [p|]; [|cbn; intro E; injection E as <-; split; [exact X1|exact R1]]. cbn.
    destruct (fds w1 (c_fd c1)) as [[q|]|] eqn:F; try discriminate.
    apply (connect_handshake_rec _ LX LS i c1); [| |exact O1].
    - destruct H2 as (M2 & D2 & V2). split; [apply (mem_ext (note w1 [Used (c_fd c1)])); auto|].
      split; [apply (dsc_connected (note w1 [Used (c_fd c1)])); [exact D2|cbn; congruence]|]. apply (ver_ext (note w1 [Used (c_fd c1)])); auto. apply ctx_sub_refl. reflexivity.
    - split; [|apply seen_connected; [exact R1|cbn; congruence]]. apply (own_kept w1); auto. intros f k Y. cbn. rewrite updz_other; [exact Y|]. intros ->. congruence. }
  destruct (is_open (c_fd c)) eqn:P; [apply (K w c); auto; split; assumption|].
  destruct got as [fd|]; [|cbn; intro E; injection E as <-; split; assumption].
  destruct (os_open w fd None) as [w1|] eqn:W; [|discriminate].
  unfold is_open, invalid in P. apply negb_false_iff, Z.eqb_eq in P.
  destruct (os_open_facts _ _ _ _ W) as (Q1 & Q2 & Q3 & Q4 & Q5 & Q6 & Q7 & Q8 & Q9 & Q10 & Q11 & Q12).
  apply (K (set_obj w1 i (Some (Client (with_fd c fd)))) (with_fd c fd)).
  - destruct IV as (M & D & V). apply (inv_opened w LX LS i (Client c) _ fd None w1); auto; [exact (conj M (conj D V))|exact (ver_obj_ok w i (Client c) V O)].
  - split; [|exact (seen_open w fd None w1 R W)]. apply (own_add w _ (with_fd c fd) i H); [cbn; rewrite Q1; reflexivity|left; cbn; rewrite Q5; reflexivity|exact (kept_open w fd None w1 W)|].
    cbn. rewrite Q5. intros s l S L. destruct (H i c s l O S L) as (A & B). split; [intros f F; destruct (A f F); congruence|]. intros k Y. destruct (B k Y) as (f & p & B1 & _). destruct (A f B1). congruence.
  - cbn. apply upd_same.
Qed.
Lemma accept_rec : forall w LX LS i v got ok_ssl ok_fd a w', inv w LX LS -> rec w -> objs w i = Some (Server v) -> came (accept w v got ok_ssl ok_fd a) = Some w' -> rec w'.
Proof.
  intros w LX LS i v got ok_ssl ok_fd a w' IV (H & R) O. unfold accept. assert (I0 := inv_used w LX LS (v_fd v) IV). set (w0 := note w [Used (v_fd v)]) in *.
  assert (R0 : seen w0).
  { apply (seen_used w _ (v_fd v)); auto. destruct (Z.eq_dec (v_fd v) (-1)) as [J|J]; [left; exact J|right; exact (proj1 (d_own _ _ (proj1 (proj2 IV)) i (Server v) O J))]. }
  assert (H0 : own w0) by exact H.
  destruct got as [(fd, p)|]; [|cbn; intro E; injection E as <-; split; assumption]. destruct (negb (is_open (v_fd v))); [discriminate|].
  destruct (os_open w0 fd (Some p)) as [w1|] eqn:W; [|discriminate].
  destruct (os_open_facts _ _ _ _ W) as (Q1 & Q2 & Q3 & Q4 & Q5 & Q6 & Q7 & Q8 & Q9 & Q10 & Q11 & Q12). destruct I0 as (M0 & D0 & V0).
  assert (R1 := seen_open w0 fd (Some p) w1 R0 W). assert (FF := fresh_fd w0 LX LS fd (conj M0 (conj D0 V0)) Q9).
  assert (M1 : mem w1 LX LS) by (apply (mem_ext w0); auto).
  assert (O1 : objs w1 i = Some (Server v)) by (rewrite Q1; exact O).
  (* the accepted descriptor is closed again *)
  assert (ZC : forall w2, seen w2 -> fds w2 = fds w1 -> objs w2 = objs w1 -> (forall j d s, objs w0 j = Some (Client d) -> c_ssl d = Some s -> ssls w2 s = ssls w0 s) -> rec (close_fd w2 fd)).
  { intros w2 S2 F2 O2 L2. split; [|apply seen_close_fd; [exact S2|right; rewrite F2, Q8; discriminate]].
    apply (own_close w0 _ fd H0).
    - unfold close_fd. destruct (is_open fd); cbn; rewrite O2; exact Q1.
    - intros j d s J S. rewrite <- (L2 j d s J S). unfold close_fd. destruct (is_open fd); reflexivity.
    - intros f N. unfold close_fd. destruct (is_open fd); cbn; rewrite ?updz_other by exact N; rewrite F2; exact (Q11 f N).
    - intros N j d J. exact (FF N j (Client d) J). }
  assert (Z1 : rec (close_fd w1 fd)) by (apply ZC; auto; intros; rewrite Q5; reflexivity).
  destruct (v_ctx v) as [x|] eqn:X; [|cbn; intro E; injection E as <-; exact Z1].
  destruct ok_ssl; cbn [negb]; [|cbn; intro E; injection E as <-; exact Z1].
  assert (XA := mem_ctx_held w1 LX LS i (Server v) x M1 O1 X).
  destruct (mem_ssl_new w1 LX LS x M1 XA) as (w2 & d & C & E & M2 & H1 & H2 & H3 & H4 & H5 & H6 & H7 & H8 & H9).
  rewrite E. set (s := nssls w1) in *. destruct (mem_fresh w1 LX LS M1) as (_ & F2 & _ & F4 & F5). fold s in F2, F4.
  assert (R2 : seen w2) by (apply (seen_ext w1); auto).
  assert (US : forall j b t, objs w0 j = Some (Client b) -> c_ssl b = Some t -> t <> s).
  { intros j b t J T ->. rewrite <- Q1 in J. destruct (m_own _ _ _ M1 j (Client b) s J T) as (A & _). contradiction. }
  destruct ok_fd; cbn [negb]; [|cbn; intro Y; injection Y as <-; apply ZC; auto; intros j b t J T; rewrite H4, upd_other by exact (US j b t J T); rewrite Q5; reflexivity].
  assert (E4 : ssls w2 s = Some {| l_ctx := x; l_mode := x_mode d; l_fd := None; l_shake := Fresh |}) by (rewrite H4; apply upd_same).
  rewrite E4. set (l := {| l_ctx := x; l_mode := x_mode d; l_fd := None; l_shake := Fresh |}) in *.
  set (w3 := ssl_set_fd w2 s l fd). assert (M3 : mem w3 LX (mark LS s true)) by (apply mem_set_fd; assumption).
  set (l3 := {| l_ctx := x; l_mode := x_mode d; l_fd := Some fd; l_shake := Fresh |}).
  assert (E3 : ssls w3 s = Some l3) by (subst w3; cbn; apply upd_same). assert (C3 := mem_ctx_alive _ _ _ _ _ M3 E3).
  assert (R3 : seen w3) by (apply (seen_ext w2); auto).
  destruct (shake_mem w3 LX (mark LS s true) s false a M3) as (_ & _ & HT & B); [congruence|].
  destruct (ssl_shake w3 s false a) as [r w4|w4| | | |] eqn:HS; try discriminate; [|destruct (HT w4 eq_refl)].
  destruct (B r w4 eq_refl) as (B1 & B2 & (E1' & E2' & E3' & E4' & E5' & E6' & E7' & E8')).
  assert (FO : forall f, l_fd l3 = Some f -> fds w3 f <> None). { cbn. intros f F. injection F as <-. rewrite H5, Q8. discriminate. }
  destruct (shake_rec w3 s false a l3 r w4 E3 C3 FO R3 HS) as (R4 & G4 & l' & L' & LF & LK).
  set (c := {| c_fd := fd; c_log := v_log v; c_verify := false; c_ctx := None; c_ssl := Some s |}).
  assert (OK : okl w4 c l').
  { split; [rewrite LF; cbn; intros f F; injection F as <-; split; [reflexivity|lia]|]. intros k K. rewrite LF, G4. destruct (LK k K) as [Y|Y]; [discriminate|exact Y]. }
  assert (O4 : objs w4 = objs w0) by (rewrite E1'; subst w3; cbn; rewrite H1; exact Q1).
  assert (F4' : fds w4 = fds w1) by (rewrite G4; subst w3; cbn; exact H5).
  assert (S4 : forall j b t, objs w0 j = Some (Client b) -> c_ssl b = Some t -> ssls w4 t = ssls w0 t).
  { intros j b t J T. rewrite E8' by exact (US j b t J T). subst w3. cbn. rewrite upd_other by exact (US j b t J T). rewrite H4, upd_other by exact (US j b t J T). rewrite Q5. reflexivity. }
  destruct (r <=? 0).
  - destruct (client_free_mem w4 LX LS c B1) as (w5 & G0 & G1 & G2 & G3 & G5 & G6 & G7 & G8 & G9); [cbn; intros t T; injection T as <-; exact F2|].
    rewrite G0. cbn. intro Y. injection Y as <-. apply ZC.
    + apply (free_seen w4 w4 w5 c R4 eq_refl); auto. cbn. intros t m T. injection T as <-. rewrite L'. intro T. injection T as <-. exact OK.
    + rewrite G5. exact F4'.
    + rewrite G2, O4. symmetry. exact Q1.
    + intros j b t J T. rewrite G7; [exact (S4 j b t J T)|]. cbn. intro K. injection K as K. exact (US j b t J T (eq_sym K)).
  - cbn. intro Y. injection Y as <-. split; [|exact R4].
    intros j b t m J T L. cbn in J. destruct (Nat.eq_dec j (nobjs w4)) as [->|N].
    + rewrite upd_same in J. injection J as <-. cbn in T. injection T as <-. cbn in L. rewrite L' in L. injection L as <-. exact OK.
    + rewrite upd_other in J by exact N. rewrite O4 in J. cbn in L. rewrite (S4 j b t J T) in L. apply (okl_kept w0); [|exact (H0 j b t m J T L)].
      intros f k Y. cbn. rewrite F4'. exact (kept_open w0 fd (Some p) w1 W f k Y).
Qed.
Lemma step_rec : forall w LX LS c w', inv w LX LS -> rec w -> (forall i, c <> Close i) -> came (step w c) = Some w' -> rec w'.
Proof.
  intros w LX LS c w' H R N E.
  destruct c as [log v m x s|log v len m x c k|i got reached f a|i size a n|i got ok|i ok|i got s f a|i|i|i]; cbn [step] in E;
    try (destruct (objs w i) as [[c|v]|] eqn:O); try discriminate.
  - exact (new_client_rec w LX LS log v m x s w' H R E).
  - exact (new_server_rec w LX LS log v len m x c k w' H R E).
  - exact (connect_rec w LX LS i c got reached f a w' H R O E).
  - exact (transfer_rec w LX LS i c size a n w' H R O E).
  - exact (bind_rec w LX LS i v got ok w' H R O E).
  - exact (listen_rec w LX LS i v ok w' H R O E).
  - exact (accept_rec w LX LS i v got s f a w' H R O E).
  - destruct (N i eq_refl).
  - destruct (N i eq_refl).
  - exact (move_client_rec w LX LS i c w' H R O E).
  - exact (move_server_rec w i v w' R E).
  - exact (destroy_client_rec w LX LS i c w' H R O E).
  - exact (destroy_server_rec w LX LS i v w' H R O E).
Qed.
Lemma steps_rec : forall l w LX LS w', inv w LX LS -> rec w -> never_closed l -> steps w l = Some w' -> rec w'.
Proof.
  induction l as [|c l IH]; intros w LX LS w' H R N S; cbn in S; [injection S as <-; exact R|].
  destruct (step_fine w LX LS c H) as (_ & F). assert (G : exists w1, came (step w c) = Some w1 /\ steps w1 l = Some w') by (destruct (step w c) as [r w1|w1| | | |]; try discriminate; exists w1; auto).
  destruct G as (w1 & G & G'). destruct (F w1 G) as (LX1 & LS1 & H1 & _). apply (IH w1 LX1 LS1 w' H1); [|intros i K; exact (N i (or_intror K))|exact G'].
  apply (step_rec w LX LS c w1 H R); [|exact G]. intros i ->. exact (N i (or_introl eq_refl)).
Qed.
(** connect() returns only if the other end has completed a handshake *)
Lemma connect_completes : forall w LX LS i c got reached ok_fd a r w', inv w LX LS -> own w -> objs w i = Some (Client c) ->
  connect w i c got reached ok_fd a = Back r w' -> a = Completes.
Proof.
  intros w LX LS i c got reached ok_fd a r w' IV H O. unfold connect.
  assert (K : forall w1 c1, (forall s l, c_ssl c1 = Some s -> ssls w1 s = Some l -> ctxs w1 (l_ctx l) <> None /\ forall k, l_shake l <> Complete k) ->
    connect_handshake w1 c1 ok_fd a = Back r w' -> a = Completes).
  { intros w1 c1 A E. unfold connect_handshake in E. destruct (negb (is_open (c_fd c1))); [discriminate|]. destruct (c_ssl c1) as [s|] eqn:S; [|discriminate].
    destruct (ssls w1 s) as [l|] eqn:L; [|discriminate]. destruct (A s l eq_refl L) as (A1 & A2). destruct (negb ok_fd); [discriminate|]. destruct (negb (c_log c1)); [discriminate|].
    set (w2 := ssl_set_fd w1 s l (c_fd c1)) in *. unfold ssl_shake in E. replace (ssls w2 s) with (Some {| l_ctx := l_ctx l; l_mode := l_mode l; l_fd := Some (c_fd c1); l_shake := l_shake l |}) in E by (subst w2; cbn; rewrite upd_same; reflexivity).
    cbn [l_shake] in E. set (w3 := match l_shake l with Fresh => _ | _ => _ end) in E.
    assert (B : exists l3, ssls w3 s = Some l3 /\ l_ctx l3 = l_ctx l /\ forall k, l_shake l3 <> Complete k).
    { subst w3. destruct (l_shake l) eqn:LS'; (eexists; split; [cbn; rewrite ?upd_same; reflexivity|]); (split; [reflexivity|cbn; try rewrite LS'; try discriminate; intros k; apply A2]). }
    destruct B as (l3 & B1 & B2 & B3). assert (B4 : ctxs w3 (l_ctx l3) <> None) by (rewrite B2; subst w3; destruct (l_shake l); exact A1).
    destruct (handshake_cases w3 s a l3 B1 B4) as [Q|[Q|[(k & Q1 & Q)|[(_ & Q)|(f & b & _ & _ & [Q|[Q|(k & q & y & Q1 & _)]])]]]]; try (rewrite Q in E; discriminate); [destruct (B3 k Q1)|exact Q1]. }
  assert (M := proj1 IV).
  destruct (is_open (c_fd c)) eqn:P.
  - destruct reached as [p|]; [|discriminate]. cbn. destruct (fds w (c_fd c)) as [[q|]|] eqn:F; try discriminate. apply K. cbn. intros s l S L. split; [exact (mem_ctx_alive _ _ _ _ _ M L)|].
    intros k E. destruct (H i c s l O S L) as (A & B). destruct (B k E) as (f & pp & B1 & B2). destruct (A f B1) as (A1 & _). congruence.
  - destruct got as [fd|]; [|discriminate]. destruct (os_open w fd None) as [w1|] eqn:W; [|discriminate]. destruct (os_open_facts _ _ _ _ W) as (Q1 & Q2 & Q3 & Q4 & Q5 & Q6 & _).
    cbn. destruct reached as [p|]; [|discriminate]. destruct (fds w1 fd) as [[q|]|]; try discriminate. apply K. cbn. rewrite Q3, Q5. intros s l S L. split; [exact (mem_ctx_alive _ _ _ _ _ M L)|].
    intros k E. destruct (H i c s l O S L) as (A & B). destruct (B k E) as (f & pp & B1 & B2). destruct (A f B1) as (A1 & A2). unfold is_open, invalid in P. apply negb_false_iff, Z.eqb_eq in P. congruence.
Qed.
