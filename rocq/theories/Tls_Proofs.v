(** Proofs for C83 to C88. *)

From Coq Require Import ZArith List Bool Lia Arith.
From Verif Require Import Tls_Model Tls_Spec.
Import ListNotations.
Open Scope Z_scope.

(** ** Counting *)
Definition b2n (b : bool) : nat := if b then 1%nat else 0%nat.
Fixpoint cnt (f : nat -> bool) (n : nat) : nat := match n with O => O | S n => (cnt f n + b2n (f n))%nat end.
Lemma cnt_ext : forall f g n, (forall i, (i < n)%nat -> f i = g i) -> cnt f n = cnt g n.
Proof. induction n as [|n IH]; intro H; [reflexivity|]. cbn. rewrite IH by (intros; apply H; lia). rewrite H by lia. reflexivity. Qed.
Lemma cnt_change : forall f g i n, (i < n)%nat -> (forall j, j <> i -> f j = g j) -> (cnt f n + b2n (g i) = cnt g n + b2n (f i))%nat.
Proof.
  induction n as [|n IH]; intros L H; [lia|]. cbn. destruct (Nat.eq_dec i n) as [->|N].
  - rewrite (cnt_ext f g n) by (intros; apply H; lia). lia.
  - rewrite (H n) by lia. assert (L' : (i < n)%nat) by lia. specialize (IH L' H). lia.
Qed.
Lemma cnt_pos : forall f n i, (i < n)%nat -> f i = true -> (0 < cnt f n)%nat.
Proof. induction n as [|n IH]; intros i L H; [lia|]. cbn. destruct (Nat.eq_dec i n) as [->|N]; [rewrite H; cbn; lia|]. assert (0 < cnt f n)%nat by (apply (IH i); [lia|exact H]). lia. Qed.
Lemma cnt_zero : forall f n, (forall i, (i < n)%nat -> f i = false) -> cnt f n = 0%nat.
Proof. induction n as [|n IH]; intro H; [reflexivity|]. cbn. rewrite IH by (intros; apply H; lia). rewrite H by lia. reflexivity. Qed.

(** ** Memory of OpenSSL *)
Definition ssl_of (o : obj) : option nat := match o with Client c => c_ssl c | Server _ => None end.
Definition ctx_of (o : obj) : option nat := match o with Client c => c_ctx c | Server v => v_ctx v end.
Definition fd_of (o : obj) : Z := match o with Client c => c_fd c | Server v => v_fd v end.
Definition is_some_eq (o : option nat) (x : nat) : bool := match o with Some y => Nat.eqb y x | None => false end.
Definition obj_holds (w : world) (x : nat) (i : nat) : bool := match objs w i with Some o => is_some_eq (ctx_of o) x | None => false end.
Definition ssl_holds (w : world) (x : nat) (s : nat) : bool := match ssls w s with Some l => Nat.eqb (l_ctx l) x | None => false end.
Definition refs (w : world) (x : nat) : nat := match ctxs w x with Some c => x_refs c | None => 0%nat end.

(** LX x: references to context x held by no object (by the running function, or leaked); LS: the same for SSLs *)
Record mem (w : world) (LX : nat -> nat) (LS : nat -> bool) : Prop := {
  m_ob : forall i, objs w i <> None -> (i < nobjs w)%nat;
  m_xb : forall x, ctxs w x <> None -> (x < nctxs w)%nat;
  m_sb : forall s, ssls w s <> None -> (s < nssls w)%nat;
  m_own : forall i o s, objs w i = Some o -> ssl_of o = Some s -> ssls w s <> None /\ LS s = false;
  m_one : forall i j o p s, objs w i = Some o -> objs w j = Some p -> ssl_of o = Some s -> ssl_of p = Some s -> i = j;
  m_all : forall s, ssls w s <> None -> LS s = true \/ exists i o, objs w i = Some o /\ ssl_of o = Some s;
  m_LS : forall s, LS s = true -> ssls w s <> None;
  m_refs : forall x, refs w x = (cnt (obj_holds w x) (nobjs w) + cnt (ssl_holds w x) (nssls w) + LX x)%nat;
  m_pos : forall x c, ctxs w x = Some c -> x_refs c <> 0%nat }.

Definition bump (f : nat -> nat) (x n : nat) : nat -> nat := fun y => if Nat.eqb y x then n else f y.
Definition mark (f : nat -> bool) (x : nat) (b : bool) : nat -> bool := fun y => if Nat.eqb y x then b else f y.

Lemma upd_same : forall A (f : nat -> option A) i x, upd f i x i = x. Proof. intros. unfold upd. rewrite Nat.eqb_refl. reflexivity. Qed.
Lemma upd_other : forall A (f : nat -> option A) i j x, j <> i -> upd f i x j = f j.
Proof. intros. unfold upd. destruct (Nat.eqb_spec j i); [contradiction|reflexivity]. Qed.
Ltac updc i j := destruct (Nat.eq_dec i j) as [?E|?E]; [subst; rewrite ?upd_same in *|rewrite ?(upd_other _ _ j i) in * by assumption].

(** what mem depends on *)
Lemma mem_ext : forall w w' LX LS, mem w LX LS -> objs w' = objs w -> nobjs w' = nobjs w -> ctxs w' = ctxs w -> nctxs w' = nctxs w ->
  ssls w' = ssls w -> nssls w' = nssls w -> mem w' LX LS.
Proof.
  intros w w' LX LS [A B C D E F G H I] e1 e2 e3 e4 e5 e6. constructor; try (rewrite ?e1, ?e2, ?e3, ?e4, ?e5, ?e6; assumption).
  intro x. unfold refs, obj_holds, ssl_holds in *. rewrite e1, e2, e3, e5, e6. apply H.
Qed.
Lemma mem_start : mem start (fun _ => 0%nat) (fun _ => false).
Proof. constructor; cbn; try congruence; try tauto. Qed.

Lemma mem_ctx_new : forall w LX LS m, mem w LX LS -> LX (nctxs w) = 0%nat -> mem (ctx_new w m) (bump LX (nctxs w) 1) LS.
Proof.
  intros w LX LS m M Z0. assert (N : ctxs w (nctxs w) = None).
  { destruct (ctxs w (nctxs w)) eqn:E; [|reflexivity]. assert (K := m_xb _ _ _ M (nctxs w)). rewrite E in K. assert (nctxs w < nctxs w)%nat by (apply K; discriminate). lia. }
  constructor; cbn; try apply M.
  - intro x. updc x (nctxs w); [lia|]. intro K. apply (m_xb _ _ _ M) in K. lia.
  - intro x. assert (R := m_refs _ _ _ M x). unfold refs, obj_holds, ssl_holds, bump in *. cbn in *. updc x (nctxs w).
    + rewrite Nat.eqb_refl. rewrite N in R. cbn. lia.
    + destruct (Nat.eqb_spec x (nctxs w)); [contradiction|]. exact R.
  - intros x c. updc x (nctxs w); [intro K; injection K as <-; cbn; lia|apply (m_pos _ _ _ M)].
Qed.
Lemma mem_ctx_free : forall w LX LS x n, mem w LX LS -> LX x = S n -> exists w', ctx_free w x = Some w' /\ mem w' (bump LX x n) LS /\
  objs w' = objs w /\ nobjs w' = nobjs w /\ ssls w' = ssls w /\ nssls w' = nssls w /\ fds w' = fds w /\ nconns w' = nconns w /\ trace w' = trace w /\ nctxs w' = nctxs w /\
  (forall y c, ctxs w' y = Some c -> exists d, ctxs w y = Some d /\ x_mode d = x_mode c /\ x_roots d = x_roots c).
Proof.
  intros w LX LS x n M L. assert (R := m_refs _ _ _ M x). unfold ctx_free. unfold refs in R. destruct (ctxs w x) as [c|] eqn:E; [|lia].
  eexists. split; [reflexivity|]. split; [|cbn; repeat split; auto].
  - constructor; cbn; try apply M.
    + intro y. updc y x; [intros _; apply (m_xb _ _ _ M); rewrite E; discriminate|apply (m_xb _ _ _ M)].
    + intro y. assert (Q := m_refs _ _ _ M y). unfold refs, obj_holds, ssl_holds, bump in *. cbn in *. updc y x.
      * rewrite Nat.eqb_refl. rewrite E in Q. destruct (x_refs c) as [|[|k]] eqn:X; cbn; lia.
      * destruct (Nat.eqb_spec y x); [contradiction|]. exact Q.
    + intros y d. updc y x; [|apply (m_pos _ _ _ M)]. destruct (x_refs c) as [|[|k]] eqn:X; intro K; [discriminate|discriminate|injection K as <-; cbn; lia].
  - intros y d. updc y x; [|eauto]. rewrite E. destruct (x_refs c) as [|[|k]]; intro K; [discriminate|discriminate|injection K as <-; eauto].
Qed.
Lemma mem_ssl_new : forall w LX LS x, mem w LX LS -> ctxs w x <> None -> exists w' c, ctxs w x = Some c /\ ssl_new w x = Some w' /\ mem w' LX (mark LS (nssls w) true) /\
  objs w' = objs w /\ nobjs w' = nobjs w /\ nssls w' = S (nssls w) /\ ssls w' = upd (ssls w) (nssls w) (Some {| l_ctx := x; l_mode := x_mode c; l_fd := None; l_shake := Fresh |}) /\
  fds w' = fds w /\ nconns w' = nconns w /\ trace w' = trace w /\ nctxs w' = nctxs w /\
  (forall y c, ctxs w' y = Some c -> exists d, ctxs w y = Some d /\ x_mode d = x_mode c /\ x_roots d = x_roots c).
Proof.
  intros w LX LS x M N. unfold ssl_new. destruct (ctxs w x) as [c|] eqn:E; [|contradiction].
  assert (NS : ssls w (nssls w) = None).
  { destruct (ssls w (nssls w)) eqn:K; [|reflexivity]. assert (Q := m_sb _ _ _ M (nssls w)). rewrite K in Q. assert (nssls w < nssls w)%nat by (apply Q; discriminate). lia. }
  eexists _, c. split; [reflexivity|]. split; [reflexivity|]. split; [|cbn; repeat split; auto].
  - constructor; cbn; try apply M.
    + intro y. updc y x; [intros _; apply (m_xb _ _ _ M); rewrite E; discriminate|apply (m_xb _ _ _ M)].
    + intro s. updc s (nssls w); [lia|]. intro K. apply (m_sb _ _ _ M) in K. lia.
    + intros i o s O S. destruct (m_own _ _ _ M i o s O S) as (A & B). unfold mark. updc s (nssls w); [congruence|].
      destruct (Nat.eqb_spec s (nssls w)); [contradiction|]. auto.
    + intros s. unfold mark. updc s (nssls w); [rewrite Nat.eqb_refl; auto|]. intro K. apply (m_all _ _ _ M) in K.
      destruct (Nat.eqb_spec s (nssls w)); [contradiction|]. exact K.
    + intros s. unfold mark. updc s (nssls w); [discriminate|]. destruct (Nat.eqb_spec s (nssls w)); [contradiction|]. apply (m_LS _ _ _ M).
    + intro y. assert (Q := m_refs _ _ _ M y). unfold refs, obj_holds, ssl_holds in *. cbn in *.
      rewrite (cnt_ext (fun s => match upd (ssls w) (nssls w) (Some {| l_ctx := x; l_mode := x_mode c; l_fd := None; l_shake := Fresh |}) s with Some l => Nat.eqb (l_ctx l) y | None => false end)
        (fun s => match ssls w s with Some l => Nat.eqb (l_ctx l) y | None => false end) (nssls w)).
      2: { intros i L. updc i (nssls w); [lia|reflexivity]. }
      rewrite upd_same. cbn. updc y x.
      * rewrite Nat.eqb_refl. rewrite E in Q. cbn. lia.
      * destruct (Nat.eqb_spec x y); [congruence|]. cbn. lia.
    + intros y d. updc y x; [intro K; injection K as <-; cbn; lia|apply (m_pos _ _ _ M)].
  - intros y d. updc y x; [|eauto]. intro K. injection K as <-. rewrite E. eauto.
Qed.
Lemma mem_set_ssl : forall w LX LS s l l', mem w LX LS -> ssls w s = Some l -> l_ctx l' = l_ctx l -> mem (set_ssl w s (Some l')) LX LS.
Proof.
  intros w LX LS s l l' M E C. constructor; cbn; try apply M.
  - intros t. updc t s; [intros _; apply (m_sb _ _ _ M); rewrite E; discriminate|apply (m_sb _ _ _ M)].
  - intros i o t O S. destruct (m_own _ _ _ M i o t O S) as (A & B). split; [|exact B]. updc t s; [discriminate|exact A].
  - intros t. updc t s; [intros _; apply (m_all _ _ _ M); rewrite E; discriminate|apply (m_all _ _ _ M)].
  - intros t. updc t s; [discriminate|apply (m_LS _ _ _ M)].
  - intro y. assert (Q := m_refs _ _ _ M y). unfold refs, obj_holds, ssl_holds in *. cbn in *. rewrite Q. f_equal. f_equal. apply cnt_ext.
    intros i L. updc i s; [rewrite E, C; reflexivity|reflexivity].
Qed.
Lemma mem_ssl_free : forall w LX LS s, mem w LX LS -> LS s = true -> exists w' , ssl_free w s = Some w' /\ mem w' LX (mark LS s false) /\
  objs w' = objs w /\ nobjs w' = nobjs w /\ ssls w' = upd (ssls w) s None /\ nssls w' = nssls w /\ fds w' = fds w /\ nconns w' = nconns w /\ trace w' = trace w /\ nctxs w' = nctxs w /\
  (forall y c, ctxs w' y = Some c -> exists d, ctxs w y = Some d /\ x_mode d = x_mode c /\ x_roots d = x_roots c).
Proof.
  intros w LX LS s M L. assert (N := m_LS _ _ _ M s L). unfold ssl_free. destruct (ssls w s) as [l|] eqn:E; [|contradiction].
  assert (B := m_sb _ _ _ M s). rewrite E in B. assert (B' : (s < nssls w)%nat) by (apply B; discriminate).
  assert (M2 : mem (set_ssl w s None) (bump LX (l_ctx l) (S (LX (l_ctx l)))) (mark LS s false)).
  { constructor; cbn; try apply M.
    - intros t. updc t s; [congruence|apply (m_sb _ _ _ M)].
    - intros i o t O S. destruct (m_own _ _ _ M i o t O S) as (A & Bq). unfold mark. updc t s; [congruence|].
      destruct (Nat.eqb_spec t s); [contradiction|auto].
    - intros t. unfold mark. updc t s; [congruence|]. destruct (Nat.eqb_spec t s); [contradiction|]. apply (m_all _ _ _ M).
    - intros t. unfold mark. updc t s; [rewrite Nat.eqb_refl; discriminate|]. destruct (Nat.eqb_spec t s); [contradiction|]. apply (m_LS _ _ _ M).
    - intro y. assert (Q := m_refs _ _ _ M y).
      assert (K := cnt_change (ssl_holds w y) (ssl_holds (set_ssl w s None) y) s (nssls w) B').
      assert (K' : (cnt (ssl_holds w y) (nssls w) + b2n (ssl_holds (set_ssl w s None) y s) = cnt (ssl_holds (set_ssl w s None) y) (nssls w) + b2n (ssl_holds w y s))%nat).
      { apply K. intros j J. unfold ssl_holds. cbn. updc j s; [contradiction|reflexivity]. }
      assert (K1 : ssl_holds (set_ssl w s None) y s = false) by (unfold ssl_holds; cbn; rewrite upd_same; reflexivity).
      assert (K2 : ssl_holds w y s = Nat.eqb (l_ctx l) y) by (unfold ssl_holds; rewrite E; reflexivity).
      rewrite K1, K2 in K'. cbn [b2n] in K'. change (refs (set_ssl w s None) y) with (refs w y).
      change (obj_holds (set_ssl w s None) y) with (obj_holds w y). unfold bump.
      destruct (Nat.eqb_spec (l_ctx l) y) as [->|Ny]; [rewrite Nat.eqb_refl|destruct (Nat.eqb_spec y (l_ctx l)); [congruence|]]; cbn [b2n] in K'; lia. }
  destruct (mem_ctx_free _ _ _ (l_ctx l) (LX (l_ctx l)) M2) as (w' & H1 & H2 & H3 & H4 & H5 & H6 & H7 & H8 & H9 & H10 & H11); [unfold bump; rewrite Nat.eqb_refl; reflexivity|].
  exists w'. split; [exact H1|]. split; [|cbn in *; auto 12].
  destruct H2 as [A0 B0 C0 D0 E0 F0 G0 H0 I0]. constructor; auto. intro y. rewrite H0. unfold bump. destruct (Nat.eqb_spec y (l_ctx l)) as [->|]; lia.
Qed.
Definition give (o : option nat) (LX : nat -> nat) : nat -> nat := match o with Some x => bump LX x (S (LX x)) | None => LX end.
Definition gives (o : option nat) (LS : nat -> bool) (b : bool) : nat -> bool := match o with Some s => mark LS s b | None => LS end.
(** an object of the given holdings starts to exist *)
Lemma mem_add : forall w LX LS o, mem w (give (ctx_of o) LX) LS -> (forall s, ssl_of o = Some s -> LS s = true) -> mem (add_obj w o) LX (gives (ssl_of o) LS false).
Proof.
  intros w LX LS o M S.
  assert (NO : objs w (nobjs w) = None).
  { destruct (objs w (nobjs w)) eqn:K; [|reflexivity]. assert (Q := m_ob _ _ _ M (nobjs w)). rewrite K in Q. assert (nobjs w < nobjs w)%nat by (apply Q; discriminate). lia. }
  assert (NS : forall i p s, objs w i = Some p -> ssl_of p = Some s -> LS s = false) by (intros i p s P Q; exact (proj2 (m_own _ _ _ M i p s P Q))).
  constructor; cbn; try apply M.
  - intro i. updc i (nobjs w); [lia|]. intro K. apply (m_ob _ _ _ M) in K. lia.
  - intros i p s. updc i (nobjs w).
    + intros K T. injection K as <-. rewrite T. unfold gives, mark. rewrite Nat.eqb_refl. split; [apply (m_LS _ _ _ M), S, T|reflexivity].
    + intros O T. destruct (m_own _ _ _ M i p s O T) as (A & B). split; [exact A|]. unfold gives, mark. destruct (ssl_of o); [destruct (Nat.eqb s n); auto|exact B].
  - intros i j p q s. updc i (nobjs w); updc j (nobjs w); intros P Q T U; auto.
    + injection P as <-. apply S in T. assert (LS s = false) by (eapply NS; eassumption). congruence.
    + injection Q as <-. apply S in U. assert (LS s = false) by (eapply NS; eassumption). congruence.
    + exact (m_one _ _ _ M i j p q s P Q T U).
  - intros s K. apply (m_all _ _ _ M) in K. unfold gives, mark. destruct K as [K|(i & p & P & T)].
    + destruct (ssl_of o) as [t|] eqn:To; [|auto]. destruct (Nat.eqb_spec s t) as [->|]; [|auto]. right. exists (nobjs w), o. rewrite upd_same. auto.
    + right. exists i, p. rewrite upd_other by (intros ->; congruence). auto.
  - intros s. unfold gives, mark. destruct (ssl_of o) as [t|]; [destruct (Nat.eqb s t); [discriminate|]|]; apply (m_LS _ _ _ M).
  - intro y. assert (Q := m_refs _ _ _ M y). unfold refs, obj_holds, ssl_holds in *. cbn in *. rewrite Q.
    rewrite (cnt_ext (fun i => match upd (objs w) (nobjs w) (Some o) i with Some o0 => is_some_eq (ctx_of o0) y | None => false end)
      (fun i => match objs w i with Some o0 => is_some_eq (ctx_of o0) y | None => false end) (nobjs w)).
    2: { intros i L. updc i (nobjs w); [lia|reflexivity]. }
    rewrite upd_same. unfold give, bump, is_some_eq. destruct (ctx_of o) as [x|]; cbn; [|lia].
    destruct (Nat.eqb_spec x y) as [->|Nx]; [rewrite Nat.eqb_refl|destruct (Nat.eqb_spec y x); [congruence|]]; cbn [b2n]; lia.
Qed.
(** the holdings of an object pass to the running function: it ends, or has been moved from *)
Definition empty (q : option obj) : Prop := match q with Some p => ssl_of p = None /\ ctx_of p = None | None => True end.
Lemma mem_release : forall w LX LS i o q, mem w LX LS -> objs w i = Some o -> empty q -> mem (set_obj w i q) (give (ctx_of o) LX) (gives (ssl_of o) LS true).
Proof.
  intros w LX LS i o q M O Q.
  assert (B : (i < nobjs w)%nat) by (apply (m_ob _ _ _ M); rewrite O; discriminate).
  constructor; cbn; try apply M.
  - intro j. updc j i; [auto|apply (m_ob _ _ _ M)].
  - intros j p s. updc j i.
    + intros -> T. destruct Q as (Q1 & Q2). congruence.
    + intros P T. destruct (m_own _ _ _ M j p s P T) as (A & B'). split; [exact A|]. unfold gives, mark. destruct (ssl_of o) as [t|] eqn:To; [|exact B'].
      destruct (Nat.eqb_spec s t) as [->|]; [|exact B']. exfalso. apply E. exact (m_one _ _ _ M j i p o t P O T To).
  - intros j k p r s. updc j i; [intros -> _ T; destruct Q; congruence|]. updc k i; [intros _ -> _ T; destruct Q; congruence|]. apply (m_one _ _ _ M).
  - intros s K. apply (m_all _ _ _ M) in K. unfold gives, mark. destruct K as [K|(j & p & P & T)].
    + left. destruct (ssl_of o) as [t|]; [destruct (Nat.eqb s t); auto|exact K].
    + destruct (Nat.eq_dec j i) as [->|N].
      * assert (p = o) by congruence. subst p. rewrite T, Nat.eqb_refl. auto.
      * right. exists j, p. rewrite upd_other by exact N. auto.
  - intros s. unfold gives, mark. destruct (ssl_of o) as [t|] eqn:To; [|apply (m_LS _ _ _ M)].
    destruct (Nat.eqb_spec s t) as [->|]; [intros _; exact (proj1 (m_own _ _ _ M i o t O To))|apply (m_LS _ _ _ M)].
  - intro y. assert (R := m_refs _ _ _ M y).
    assert (K : (cnt (obj_holds w y) (nobjs w) + b2n (obj_holds (set_obj w i q) y i) = cnt (obj_holds (set_obj w i q) y) (nobjs w) + b2n (obj_holds w y i))%nat).
    { apply cnt_change; [exact B|]. intros j J. unfold obj_holds. cbn. updc j i; [contradiction|reflexivity]. }
    assert (K1 : obj_holds (set_obj w i q) y i = false).
    { unfold obj_holds. cbn. rewrite upd_same. destruct q as [p|]; [|reflexivity]. destruct Q as (_ & ->). reflexivity. }
    assert (K2 : obj_holds w y i = is_some_eq (ctx_of o) y) by (unfold obj_holds; rewrite O; reflexivity).
    rewrite K1, K2 in K. cbn [b2n] in K. change (refs (set_obj w i q) y) with (refs w y). change (ssl_holds (set_obj w i q) y) with (ssl_holds w y).
    unfold give, bump. clear K1 K2. unfold is_some_eq in K. destruct (ctx_of o) as [z|]; cbn [b2n] in K; [|lia].
    destruct (Nat.eq_dec z y) as [<-|Nz]; [rewrite Nat.eqb_refl in *|rewrite (proj2 (Nat.eqb_neq z y) Nz) in K; rewrite (proj2 (Nat.eqb_neq y z) (not_eq_sym Nz))]; cbn [b2n] in K; lia.
Qed.
(** other members of an object change *)
Lemma mem_same : forall w LX LS i o p, mem w LX LS -> objs w i = Some o -> ssl_of p = ssl_of o -> ctx_of p = ctx_of o -> mem (set_obj w i (Some p)) LX LS.
Proof.
  intros w LX LS i o p M O S X. constructor; cbn; try apply M.
  - intro j. updc j i; [intros _; apply (m_ob _ _ _ M); rewrite O; discriminate|apply (m_ob _ _ _ M)].
  - intros j q s. updc j i; [|apply (m_own _ _ _ M)]. intros K T. injection K as <-. rewrite S in T. exact (m_own _ _ _ M i o s O T).
  - intros j k q r s. updc j i; updc k i; intros P Q T U; auto.
    + injection P as <-. rewrite S in T. exact (m_one _ _ _ M _ _ _ _ _ O Q T U).
    + injection Q as <-. rewrite S in U. exact (m_one _ _ _ M _ _ _ _ _ P O T U).
    + exact (m_one _ _ _ M _ _ _ _ _ P Q T U).
  - intros s K. apply (m_all _ _ _ M) in K. destruct K as [K|(j & q & P & T)]; [auto|]. right. destruct (Nat.eq_dec j i) as [->|N].
    + exists i, p. rewrite upd_same. split; [reflexivity|]. congruence.
    + exists j, q. rewrite upd_other by exact N. auto.
  - intro y. assert (R := m_refs _ _ _ M y). unfold refs, obj_holds, ssl_holds in *. cbn in *. rewrite R. f_equal. f_equal. apply cnt_ext.
    intros j L. updc j i; [rewrite O, X; reflexivity|reflexivity].
Qed.
Lemma mem_LX : forall w LX LX' LS LS', mem w LX LS -> (forall x, LX x = LX' x) -> (forall s, LS s = LS' s) -> mem w LX' LS'.
Proof.
  intros w LX LX' LS LS' M E F. constructor; try apply M.
  - intros i o s O S. destruct (m_own _ _ _ M i o s O S) as (A & B). rewrite <- F. auto.
  - intros s K. apply (m_all _ _ _ M) in K. rewrite <- F. exact K.
  - intros s. rewrite <- F. apply (m_LS _ _ _ M).
  - intro x. rewrite <- E. apply (m_refs _ _ _ M).
Qed.

(** ** What a handshake can do *)
Lemma handshake_cases : forall w s a l, ssls w s = Some l -> ctxs w (l_ctx l) <> None ->
  handshake w s a = Never \/ handshake w s a = Waits \/
  (exists c, l_shake l = Complete c /\ handshake w s a = Back 1 w) \/
  ((forall c, l_shake l <> Complete c) /\ handshake w s a = Back (-1) w) \/
  (exists fd b, l_fd l = Some fd /\ l_shake l = Begun b /\
     (handshake w s a = Back (-1) (note w [Used fd]) \/
      handshake w s a = Back (-1) (ssl_shaken (note w [Used fd]) s l Broken) \/
      (exists c p x, a = Completes /\ fds w fd = Some (Some (c, p)) /\ ctxs w (l_ctx l) = Some x /\ allowed b (l_mode l) (x_roots x) p = true /\
         handshake w s a = Back 1 (ssl_shaken (note w [Used fd]) s l (Complete c))))).
Proof.
  intros w s a l E C. unfold handshake. rewrite E. destruct (l_shake l) as [|b|c|] eqn:H.
  - right. right. right. left. split; [discriminate|reflexivity].
  - destruct (l_fd l) as [fd|] eqn:F.
    + destruct a as [|[|]|]; cbn.
      * destruct (fds w fd) as [[[c p]|]|] eqn:D; destruct (ctxs w (l_ctx l)) as [x|] eqn:X; try contradiction; [|auto|auto].
        destruct (allowed b (l_mode l) (x_roots x) p) eqn:A; [|auto]. do 4 right. exists fd, b. split; [reflexivity|]. split; [reflexivity|].
        right. right. exists c, p, x. rewrite D. auto.
      * do 4 right. exists fd, b. auto.
      * do 4 right. exists fd, b. auto.
      * destruct (fds w fd) as [[[c p]|]|]; auto.
    + do 3 right. left. split; [discriminate|reflexivity].
  - right. right. left. exists c. auto.
  - do 3 right. left. split; [discriminate|reflexivity].
Qed.
Lemma mem_ctx_alive : forall w LX LS s l, mem w LX LS -> ssls w s = Some l -> ctxs w (l_ctx l) <> None.
Proof.
  intros w LX LS s l M E K. assert (R := m_refs _ _ _ M (l_ctx l)). unfold refs in R. rewrite K in R.
  assert (0 < cnt (ssl_holds w (l_ctx l)) (nssls w))%nat.
  { apply (cnt_pos _ _ s); [apply (m_sb _ _ _ M); rewrite E; discriminate|]. unfold ssl_holds. rewrite E. apply Nat.eqb_refl. }
  lia.
Qed.
Lemma mem_ctx_held : forall w LX LS i o x, mem w LX LS -> objs w i = Some o -> ctx_of o = Some x -> ctxs w x <> None.
Proof.
  intros w LX LS i o x M O X K. assert (R := m_refs _ _ _ M x). unfold refs in R. rewrite K in R.
  assert (0 < cnt (obj_holds w x) (nobjs w))%nat.
  { apply (cnt_pos _ _ i); [apply (m_ob _ _ _ M); rewrite O; discriminate|]. unfold obj_holds. rewrite O, X. apply Nat.eqb_refl. }
  lia.
Qed.
Lemma mem_note : forall w LX LS e, mem w LX LS -> mem (note w e) LX LS.
Proof. intros w LX LS e M. apply (mem_ext w); auto. Qed.
Lemma mem_shaken : forall w LX LS s l h, mem w LX LS -> ssls w s = Some l -> mem (ssl_shaken w s l h) LX LS.
Proof. intros w LX LS s l h M E. apply (mem_set_ssl w LX LS s l); auto. Qed.
Lemma mem_set_fd : forall w LX LS s l fd, mem w LX LS -> ssls w s = Some l -> mem (ssl_set_fd w s l fd) LX LS.
Proof. intros w LX LS s l fd M E. apply (mem_set_ssl w LX LS s l); auto. Qed.

(** what stays the same when SSLs shake hands *)
Definition same_but_ssl (w w' : world) (s : nat) : Prop :=
  objs w' = objs w /\ nobjs w' = nobjs w /\ ctxs w' = ctxs w /\ nctxs w' = nctxs w /\ nssls w' = nssls w /\ fds w' = fds w /\ nconns w' = nconns w /\
  (forall t, t <> s -> ssls w' t = ssls w t).
Lemma handshake_mem : forall w LX LS s a, mem w LX LS -> ssls w s <> None ->
  handshake w s a <> Freed /\ handshake w s a <> Null_log /\ (forall w', handshake w s a <> Threw w') /\
  forall r w', handshake w s a = Back r w' -> mem w' LX LS /\ ssls w' s <> None /\ same_but_ssl w w' s.
Proof.
  intros w LX LS s a M N. destruct (ssls w s) as [l|] eqn:E; [|contradiction]. assert (C := mem_ctx_alive _ _ _ _ _ M E).
  assert (Z : forall r w1, mem w1 LX LS -> ssls w1 s <> None -> same_but_ssl w w1 s -> Back r w1 <> Freed /\ Back r w1 <> Null_log /\ (forall w', Back r w1 <> Threw w') /\
    forall r' w', Back r w1 = Back r' w' -> mem w' LX LS /\ ssls w' s <> None /\ same_but_ssl w w' s).
  { intros r w1 A1 A2 A3. split; [discriminate|]. split; [discriminate|]. split; [discriminate|]. intros r' w' K. injection K as <- <-. auto. }
  assert (R : same_but_ssl w w s) by (unfold same_but_ssl; repeat split).
  assert (R2 : forall fd h, same_but_ssl w (ssl_shaken (note w [Used fd]) s l h) s).
  { intros fd h. unfold same_but_ssl. cbn. repeat split. intros t T. apply upd_other. exact T. }
  destruct (handshake_cases w s a l E C) as [H|[H|[(c & _ & H)|[(_ & H)|(fd & b & F & B & [H|[H|(c & p & x & _ & _ & _ & _ & H)]])]]]]; rewrite H.
  - repeat split; discriminate.
  - repeat split; discriminate.
  - apply Z; congruence || auto.
  - apply Z; congruence || auto.
  - apply Z; [apply mem_note; exact M|cbn; congruence|unfold same_but_ssl; repeat split].
  - apply Z; [apply mem_shaken; [apply mem_note; exact M|exact E]|cbn; rewrite upd_same; discriminate|apply R2].
  - apply Z; [apply mem_shaken; [apply mem_note; exact M|exact E]|cbn; rewrite upd_same; discriminate|apply R2].
Qed.
Lemma shake_mem : forall w LX LS s b a, mem w LX LS -> ssls w s <> None ->
  ssl_shake w s b a <> Freed /\ ssl_shake w s b a <> Null_log /\ (forall w', ssl_shake w s b a <> Threw w') /\
  forall r w', ssl_shake w s b a = Back r w' -> mem w' LX LS /\ ssls w' s <> None /\ same_but_ssl w w' s.
Proof.
  intros w LX LS s b a M N. unfold ssl_shake. destruct (ssls w s) as [l|] eqn:E; [|contradiction].
  destruct (l_shake l); try (apply handshake_mem; [assumption|congruence]).
  assert (M2 := mem_shaken w LX LS s l (Begun b) M E).
  destruct (handshake_mem (ssl_shaken w s l (Begun b)) LX LS s a M2) as (A & A1 & A2 & B); [cbn; rewrite upd_same; discriminate|].
  split; [exact A|]. split; [exact A1|]. split; [exact A2|]. intros r w' H. destruct (B r w' H) as (B1 & B2 & (C1 & C2 & C3 & C4 & C5 & C6 & C7 & C8)). split; [exact B1|]. split; [exact B2|].
  repeat split; auto. intros t T. rewrite C8 by exact T. cbn. rewrite upd_other by exact T. reflexivity.
Qed.
Lemma transfer_mem : forall w LX LS s num a n, mem w LX LS -> ssls w s <> None ->
  ssl_transfer w s num a n <> Freed /\ ssl_transfer w s num a n <> Null_log /\ (forall w', ssl_transfer w s num a n <> Threw w') /\
  forall r w', ssl_transfer w s num a n = Back r w' -> mem w' LX LS /\ ssls w' s <> None /\ same_but_ssl w w' s.
Proof.
  intros w LX LS s num a n M N. destruct (handshake_mem w LX LS s a M N) as (A & A1 & A2 & B). unfold ssl_transfer.
  destruct (handshake w s a) as [r w1|w1| | | |] eqn:H; try (repeat split; congruence).
  destruct (B r w1 eq_refl) as (B1 & B2 & B3). clear A A1 A2 B.
  assert (T : forall r' w', Back r w1 = Back r' w' -> mem w' LX LS /\ ssls w' s <> None /\ same_but_ssl w w' s) by (intros r' w' K; injection K as <- <-; auto).
  assert (Z1 : forall o, (match o with Back _ w' => w' = w1 \/ (exists e, w' = note w1 e) | Never => True | _ => False end) ->
     o <> Freed /\ o <> Null_log /\ (forall w', o <> Threw w') /\ forall r w', o = Back r w' -> mem w' LX LS /\ ssls w' s <> None /\ same_but_ssl w w' s).
  { intros o Ho. destruct o as [r' w'|w'| | | |]; try contradiction; (split; [discriminate|split; [discriminate|split; [discriminate|]]]); intros r2 w2 K; [|discriminate].
    injection K as <- <-. destruct Ho as [->|(e & ->)]; [auto|]. split; [apply mem_note; exact B1|]. split; [exact B2|exact B3]. }
  destruct (ssls w1 s) as [l|] eqn:E; [|contradiction].
  destruct r as [|[q|q|]|q]; try (apply Z1; cbn; auto; fail).
  destruct (l_shake l); try (apply Z1; exact I). destruct (l_fd l) as [fd|]; [|apply Z1; exact I].
  destruct (num <=? 0); [apply Z1; cbn; auto|]. destruct ((0 <? n) && (n <=? num)); [apply Z1; cbn; eauto|]. destruct (n =? 0); apply Z1; cbn; eauto.
Qed.

(** the destructor *)
Lemma client_free_mem : forall w LX LS c, mem w (give (c_ctx c) LX) (gives (c_ssl c) LS true) -> (forall s, c_ssl c = Some s -> LS s = false) ->
  exists w', client_free w c = Some w' /\ mem w' LX LS /\ objs w' = objs w /\ nobjs w' = nobjs w /\ fds w' = fds w /\ nconns w' = nconns w /\
    (forall t, c_ssl c <> Some t -> ssls w' t = ssls w t) /\
    (forall y d, ctxs w' y = Some d -> exists d', ctxs w y = Some d' /\ x_mode d' = x_mode d /\ x_roots d' = x_roots d) /\
    (trace w' = trace w \/ exists s l fd k, c_ssl c = Some s /\ ssls w s = Some l /\ l_shake l = Complete k /\ l_fd l = Some fd /\ trace w' = trace w ++ [Used fd; Record_on fd (on w fd) k]).
Proof.
  intros w LX LS c M L. unfold client_free.
  assert (X : exists w1, (match c_ssl c with None => Some w | Some s => match ssl_shutdown w s with None => None | Some w => ssl_free w s end end) = Some w1 /\
     mem w1 (give (c_ctx c) LX) LS /\ objs w1 = objs w /\ nobjs w1 = nobjs w /\ fds w1 = fds w /\ nconns w1 = nconns w /\
     (forall t, c_ssl c <> Some t -> ssls w1 t = ssls w t) /\
     (forall y d, ctxs w1 y = Some d -> exists d', ctxs w y = Some d' /\ x_mode d' = x_mode d /\ x_roots d' = x_roots d) /\
     (trace w1 = trace w \/ exists s l fd k, c_ssl c = Some s /\ ssls w s = Some l /\ l_shake l = Complete k /\ l_fd l = Some fd /\ trace w1 = trace w ++ [Used fd; Record_on fd (on w fd) k])).
  { destruct (c_ssl c) as [s|] eqn:S; [|exists w; cbn in M; eauto 15].
    cbn [gives] in M. assert (N := m_LS _ _ _ M s). unfold mark in N. rewrite Nat.eqb_refl in N. specialize (N eq_refl).
    unfold ssl_shutdown. destruct (ssls w s) as [l|] eqn:E; [|contradiction].
    set (w0 := match l_shake l with Complete c0 => match l_fd l with Some fd => note w [Used fd; Record_on fd (on w fd) c0] | None => w end | _ => w end).
    assert (W0 : (w0 = w \/ exists fd k, l_shake l = Complete k /\ l_fd l = Some fd /\ w0 = note w [Used fd; Record_on fd (on w fd) k])).
    { subst w0. destruct (l_shake l); auto. destruct (l_fd l); auto. right. eauto. }
    assert (M0 : mem w0 (give (c_ctx c) LX) (mark LS s true)) by (destruct W0 as [->|(fd & k & _ & _ & ->)]; [exact M|apply mem_note; exact M]).
    destruct (mem_ssl_free w0 _ _ s M0) as (w1 & H1 & H2 & H3 & H4 & H5 & H6 & H7 & H8 & H9 & H10 & H11); [unfold mark; rewrite Nat.eqb_refl; reflexivity|].
    exists w1. split; [exact H1|]. split.
    { apply (mem_LX _ _ (give (c_ctx c) LX) _ LS H2); [reflexivity|]. intro t. unfold mark. destruct (Nat.eqb_spec t s) as [->|]; [rewrite (L s eq_refl)|]; reflexivity. }
    destruct W0 as [W0|(fd & k & K1 & K2 & W0)]; rewrite W0 in *; cbn in H3, H4, H5, H7, H8, H9, H11; (do 4 (split; [assumption|])); (split; [intros t T; rewrite H5; apply upd_other; congruence|]); (split; [exact H11|]).
    - left. exact H9.
    - right. exists s, l, fd, k. auto. }
  destruct X as (w1 & -> & M1 & O1 & O2 & O3 & O4 & O5 & O6 & O7).
  destruct (c_ctx c) as [x|] eqn:X; [|exists w1; auto 10].
  cbn [give] in M1. destruct (mem_ctx_free w1 _ LS x (LX x) M1) as (w2 & H1 & H2 & H3 & H4 & H5 & H6 & H7 & H8 & H9 & H10 & H11); [unfold bump; rewrite Nat.eqb_refl; reflexivity|].
  exists w2. split; [exact H1|]. split.
  { apply (mem_LX _ _ LX _ LS H2); [|reflexivity]. intro y. unfold bump. destruct (Nat.eqb_spec y x) as [->|]; reflexivity. }
  rewrite H3, H4, H7, H8, H9. do 4 (split; [assumption|]). split; [intros t T; rewrite H5; auto|]. split; [|exact O7].
  intros y d Y. destruct (H11 y d Y) as (d' & A & B & C). destruct (O6 y d' A) as (d2 & A2 & B2 & C2). exists d2. repeat split; congruence.
Qed.

(** ** Descriptors *)
Record dsc (w : world) (LF : Z -> bool) : Prop := {
  d_own : forall i o, objs w i = Some o -> fd_of o <> -1 -> fds w (fd_of o) <> None /\ LF (fd_of o) = false;
  d_one : forall i j o p, objs w i = Some o -> objs w j = Some p -> fd_of o <> -1 -> fd_of o = fd_of p -> i = j;
  d_all : forall f, fds w f <> None -> LF f = true \/ exists i o, objs w i = Some o /\ fd_of o = f;
  d_LF : forall f, LF f = true -> fds w f <> None;
  d_pos : forall f, fds w f <> None -> 0 <= f;
  d_trace : exists open, proper false [] (trace w) = Some open /\ NoDup open /\ forall f, In f open <-> fds w f <> None }.
Definition markz (f : Z -> bool) (x : Z) (b : bool) : Z -> bool := fun y => if y =? x then b else f y.
Definition ofd (q : option obj) : Z := match q with Some o => fd_of o | None => -1 end.

Lemma updz_same : forall A (f : Z -> option A) i x, updz f i x i = x. Proof. intros. unfold updz. rewrite Z.eqb_refl. reflexivity. Qed.
Lemma updz_other : forall A (f : Z -> option A) i j x, j <> i -> updz f i x j = f j.
Proof. intros. unfold updz. destruct (Z.eqb_spec j i); [contradiction|reflexivity]. Qed.
Ltac updzc i j := destruct (Z.eq_dec i j) as [?E|?E]; [subst; rewrite ?updz_same in *|rewrite ?(updz_other _ _ j i) in * by assumption].
Lemma existsb_In : forall fd l, existsb (Z.eqb fd) l = true <-> In fd l.
Proof.
  intros fd l. rewrite existsb_exists. split; [intros (x & I & E); apply Z.eqb_eq in E; subst; exact I|intro I; exists fd; split; [exact I|apply Z.eqb_refl]].
Qed.
Lemma proper_app : forall b s t o, proper b o (s ++ t) = match proper b o s with Some o' => proper b o' t | None => None end.
Proof.
  induction s as [|[fd|fd|fd|fd k c] s IH]; intros t o; cbn; [reflexivity| | | |].
  - destruct (existsb (Z.eqb fd) o); [reflexivity|apply IH].
  - destruct (existsb (Z.eqb fd) o); [apply IH|reflexivity].
  - destruct (negb b || (fd =? -1) || existsb (Z.eqb fd) o); [apply IH|reflexivity].
  - destruct (negb b || (fd =? -1) || existsb (Z.eqb fd) o); [apply IH|reflexivity].
Qed.
Lemma NoDup_remove_Z : forall fd l, NoDup l -> NoDup (remove Z.eq_dec fd l).
Proof.
  induction l as [|x l IH]; intro N; cbn; [constructor|]. inversion N as [|y z Ni Nl]; subst. destruct (Z.eq_dec fd x); [apply IH; exact Nl|].
  constructor; [|apply IH; exact Nl]. intro I. apply in_remove in I. apply Ni, I.
Qed.
Lemma in_remove_Z : forall fd l x, In x (remove Z.eq_dec fd l) <-> In x l /\ x <> fd.
Proof. intros. split; [apply in_remove|intros (A & B); apply in_in_remove; auto]. Qed.

(** the open descriptors and a trace of opening and closing them *)
Definition tracks (b : bool) (w : world) : Prop := exists open, proper b [] (trace w) = Some open /\ NoDup open /\ forall f, In f open <-> fds w f <> None.
Lemma tracks_open : forall b w fd p w', tracks b w -> os_open w fd p = Some w' -> tracks b w'.
Proof.
  intros b w fd p w' (open & P & N & E) H. unfold os_open in H. destruct (fd <? 0); [discriminate|]. destruct (fds w fd) eqn:F; [discriminate|]. injection H as <-.
  assert (Ni : ~ In fd open) by (intro I; apply E in I; congruence).
  exists (fd :: open). cbn. split; [|split; [constructor; assumption|]].
  - rewrite proper_app, P. cbn. destruct (existsb (Z.eqb fd) open) eqn:X; [apply existsb_In in X; contradiction|reflexivity].
  - intro f. updzc f fd; [split; [discriminate|intros _; left; reflexivity]|]. rewrite E. split; [intros [A|A]; [congruence|exact A]|auto].
Qed.
Lemma tracks_connected : forall b w fd p, tracks b w -> fds w fd <> None -> tracks b (os_connected w fd p).
Proof.
  intros b w fd p (open & P & N & E) H. exists open. cbn. split; [exact P|]. split; [exact N|]. intro f. rewrite E. updzc f fd; [split; [discriminate|auto]|reflexivity].
Qed.
Lemma tracks_close : forall b w fd, tracks b w -> fds w fd <> None -> tracks b (os_close w fd).
Proof.
  intros b w fd (open & P & N & E) H. exists (remove Z.eq_dec fd open). cbn. assert (I : existsb (Z.eqb fd) open = true) by (apply existsb_In, E, H).
  split; [rewrite proper_app, P; cbn; rewrite I, orb_true_r; reflexivity|]. split; [apply NoDup_remove_Z; exact N|].
  intro f. rewrite in_remove_Z, E. updzc f fd; [tauto|tauto].
Qed.
Definition uses (e : event) : Prop := match e with Used _ | Record_on _ _ _ => True | _ => False end.
Lemma proper_uses : forall e o, Forall uses e -> proper false o e = Some o.
Proof. induction e as [|[fd|fd|fd|fd k c] e IH]; intros o H; inversion H as [|x y U V]; subst; cbn in *; try contradiction; [reflexivity|apply IH, V|apply IH, V]. Qed.
Lemma tracks_note : forall w e w', tracks false w -> Forall uses e -> trace w' = trace w ++ e -> fds w' = fds w -> tracks false w'.
Proof. intros w e w' (open & P & N & E) U T F. exists open. rewrite T, F, proper_app, P, (proper_uses e open U). auto. Qed.

Lemma dsc_start : dsc start (fun _ => false).
Proof. constructor; cbn; try congruence; try tauto. exists []. cbn. repeat split; try constructor; tauto. Qed.
Lemma dsc_LF : forall w LF LF', dsc w LF -> (forall f, LF f = LF' f) -> dsc w LF'.
Proof.
  intros w LF LF' [A B C D E F] X. constructor; auto.
  - intros i o O N. rewrite <- X. exact (A i o O N).
  - intros f N. rewrite <- X. auto.
  - intros f. rewrite <- X. auto.
Qed.
(** what dsc depends on *)
Lemma dsc_note : forall w w' LF e, dsc w LF -> Forall uses e -> objs w' = objs w -> fds w' = fds w -> trace w' = trace w ++ e -> dsc w' LF.
Proof.
  intros w w' LF e [A B C D E F] U O G T. constructor; rewrite ?O, ?G; auto. rewrite <- G. exact (tracks_note w e w' F U T G).
Qed.
Lemma dsc_ext : forall w w' LF, dsc w LF -> objs w' = objs w -> fds w' = fds w -> trace w' = trace w -> dsc w' LF.
Proof. intros w w' LF H O G T. apply (dsc_note w w' LF []); auto. rewrite app_nil_r. exact T. Qed.
Lemma dsc_open : forall w LF fd p w', dsc w LF -> os_open w fd p = Some w' -> dsc w' (markz LF fd true).
Proof.
  intros w LF fd p w' H O. assert (T := tracks_open false w fd p w' (d_trace _ _ H) O). unfold os_open in O.
  destruct (fd <? 0) eqn:L; [discriminate|]. destruct (fds w fd) eqn:F; [discriminate|]. injection O as <-. apply Z.ltb_ge in L.
  constructor; cbn; try apply H; [| | | |exact T]; unfold markz.
  - intros i o X N. destruct (d_own _ _ H i o X N) as (A & B). updzc (fd_of o) fd; [congruence|]. destruct (Z.eqb_spec (fd_of o) fd); [contradiction|auto].
  - intros f. updzc f fd; [rewrite Z.eqb_refl; auto|]. destruct (Z.eqb_spec f fd); [contradiction|]. apply (d_all _ _ H).
  - intros f. updzc f fd; [discriminate|]. destruct (Z.eqb_spec f fd); [contradiction|]. apply (d_LF _ _ H).
  - intros f. updzc f fd; [auto|apply (d_pos _ _ H)].
Qed.
Lemma dsc_connected : forall w LF fd p, dsc w LF -> fds w fd <> None -> dsc (os_connected w fd p) LF.
Proof.
  intros w LF fd p H N. assert (T := tracks_connected false w fd p (d_trace _ _ H) N).
  assert (Q : forall f, updz (fds w) fd (Some (Some (nconns w, p))) f <> None <-> fds w f <> None) by (intro f; updzc f fd; [split; [auto|discriminate]|reflexivity]).
  constructor; cbn; try apply H; [| | | |exact T].
  - intros i o X F. rewrite Q. apply (d_own _ _ H i); assumption.
  - intros f. rewrite Q. apply (d_all _ _ H).
  - intros f K. apply Q, (d_LF _ _ H), K.
  - intros f. rewrite Q. apply (d_pos _ _ H).
Qed.
Lemma dsc_close : forall w LF fd, dsc w LF -> LF fd = true -> dsc (os_close w fd) (markz LF fd false).
Proof.
  intros w LF fd H L. assert (N := d_LF _ _ H fd L). assert (T := tracks_close false w fd (d_trace _ _ H) N).
  constructor; cbn; try apply H; [| | | |exact T]; unfold markz.
  - intros i o X F. destruct (d_own _ _ H i o X F) as (A & B). updzc (fd_of o) fd; [congruence|]. destruct (Z.eqb_spec (fd_of o) fd); [contradiction|auto].
  - intros f. updzc f fd; [congruence|]. destruct (Z.eqb_spec f fd); [contradiction|]. apply (d_all _ _ H).
  - intros f. updzc f fd; [rewrite Z.eqb_refl; discriminate|]. destruct (Z.eqb_spec f fd); [contradiction|]. apply (d_LF _ _ H).
  - intros f. updzc f fd; [congruence|apply (d_pos _ _ H)].
Qed.
Lemma dsc_not_invalid : forall w LF, dsc w LF -> fds w (-1) = None /\ LF (-1) = false.
Proof.
  intros w LF H. assert (A : fds w (-1) = None).
  { destruct (fds w (-1)) eqn:E; [|reflexivity]. assert (0 <= -1) by (apply (d_pos _ _ H); rewrite E; discriminate). lia. }
  split; [exact A|]. destruct (LF (-1)) eqn:E; [|reflexivity]. apply (d_LF _ _ H) in E. contradiction.
Qed.
(** an object changes, starts or ends *)
Definition shift (LF : Z -> bool) (old new : Z) : Z -> bool :=
  fun f => if (f =? -1) then false else if f =? new then false else if f =? old then true else LF f.
Lemma dsc_put : forall w w' LF i q, dsc w LF -> objs w' = upd (objs w) i q -> fds w' = fds w -> trace w' = trace w ->
  (ofd q = -1 \/ ofd q = ofd (objs w i) \/ LF (ofd q) = true) -> dsc w' (shift LF (ofd (objs w i)) (ofd q)).
Proof.
  intros w w' LF i q H O F T K. destruct (dsc_not_invalid w LF H) as (I1 & I2).
  assert (R : forall j o, j <> i -> objs w j = Some o -> fd_of o <> -1 -> fd_of o <> ofd q /\ fd_of o <> ofd (objs w i)).
  { intros j o J X N. destruct (d_own _ _ H j o X N) as (A & B).
    assert (Z1 : fd_of o <> ofd (objs w i)).
    { intro C. apply J. destruct (objs w i) as [p|] eqn:P; [|cbn in C; contradiction]. cbn in C. exact (d_one _ _ H j i o p X P N C). }
    split; [|exact Z1]. intro C. destruct K as [K|[K|K]]; congruence. }
  constructor; rewrite ?O, ?F, ?T; try apply H; unfold shift.
  - intros j o. updc j i.
    + intros -> N. cbn [ofd] in *. rewrite Z.eqb_refl. assert (fds w (fd_of o) <> None).
      { destruct K as [K|[K|K]]; [contradiction| |apply (d_LF _ _ H), K]. destruct (objs w i) as [p|] eqn:P; cbn in K; [|contradiction]. rewrite K. apply (d_own _ _ H i p P). congruence. }
      destruct (fd_of o =? -1); auto.
    + intros X N. destruct (R j o E X N) as (R1 & R2). destruct (d_own _ _ H j o X N) as (A & B). split; [exact A|].
      destruct (Z.eqb_spec (fd_of o) (-1)); [contradiction|]. destruct (Z.eqb_spec (fd_of o) (ofd q)); [contradiction|].
      destruct (Z.eqb_spec (fd_of o) (ofd (objs w i))); [contradiction|exact B].
  - intros j k o p. updc j i; updc k i; auto.
    + intros -> X N C. cbn in *. destruct (R k p E X) as (R1 & R2); [congruence|]. cbn in R1. congruence.
    + intros X -> N C. cbn in *. destruct (R j o E X N) as (R1 & R2). cbn in R1. congruence.
    + apply (d_one _ _ H).
  - intros f N. destruct (Z.eqb_spec f (-1)) as [->|Nf]; [congruence|].
    destruct (Z.eqb_spec f (ofd q)) as [->|Nq].
    + right. destruct q as [o|]; [|cbn in Nf; congruence]. exists i, o. rewrite upd_same. auto.
    + destruct (Z.eqb_spec f (ofd (objs w i))) as [->|No]; [auto|]. destruct (d_all _ _ H f N) as [L|(j & o & X & C)]; [auto|]. right. exists j, o.
      rewrite upd_other; [auto|]. intros ->. apply No. rewrite X. cbn. congruence.
  - intros f. destruct (Z.eqb_spec f (-1)); [discriminate|]. destruct (Z.eqb_spec f (ofd q)); [discriminate|].
    destruct (Z.eqb_spec f (ofd (objs w i))) as [->|]; [|apply (d_LF _ _ H)]. intros _. destruct (objs w i) as [o|] eqn:X; [|cbn in *; contradiction]. cbn in *. apply (d_own _ _ H i o X). assumption.
Qed.

(** ** Verification *)
Record ver (w : world) : Prop := {
  v_roots : forall x c, ctxs w x = Some c -> x_roots c = [];
  v_srv : forall i v x c, objs w i = Some (Server v) -> v_ctx v = Some x -> ctxs w x = Some c -> x_mode c = server_mode (v_verify v);
  v_cli : forall i c x, objs w i = Some (Client c) -> c_ctx c = Some x ->
    exists s l, c_ssl c = Some s /\ ssls w s = Some l /\ l_mode l = client_mode (c_verify c) /\ l_shake l <> Begun false /\ (c_verify c = true -> forall k, l_shake l <> Complete k) }.
Definition ctx_sub (w w' : world) : Prop := forall y c, ctxs w' y = Some c -> exists d, ctxs w y = Some d /\ x_mode d = x_mode c /\ x_roots d = x_roots c.
Lemma ctx_sub_refl : forall w w', ctxs w' = ctxs w -> ctx_sub w w'. Proof. intros w w' E y c. rewrite E. eauto. Qed.
Lemma ver_start : ver start. Proof. constructor; cbn; discriminate. Qed.
Lemma ver_ext : forall w w', ver w -> objs w' = objs w -> ctx_sub w w' ->
  (forall i c s, objs w i = Some (Client c) -> c_ctx c <> None -> c_ssl c = Some s -> ssls w' s = ssls w s) -> ver w'.
Proof.
  intros w w' V O C S. constructor.
  - intros x c H. destruct (C x c H) as (d & D & _ & R). rewrite <- R. exact (v_roots _ V x d D).
  - intros i v x c I X H. rewrite O in I. destruct (C x c H) as (d & D & M & _). rewrite <- M. exact (v_srv _ V i v x d I X D).
  - intros i c x I X. rewrite O in I. destruct (v_cli _ V i c x I X) as (s & l & A & B & D). exists s, l. split; [exact A|]. split; [|exact D].
    rewrite (S i c s I); [exact B|congruence|exact A].
Qed.
Definition obj_ok (w : world) (o : obj) : Prop :=
  match o with
  | Server v => forall x c, v_ctx v = Some x -> ctxs w x = Some c -> x_mode c = server_mode (v_verify v)
  | Client c => forall x, c_ctx c = Some x -> exists s l, c_ssl c = Some s /\ ssls w s = Some l /\ l_mode l = client_mode (c_verify c) /\ l_shake l <> Begun false /\ (c_verify c = true -> forall k, l_shake l <> Complete k)
  end.
Lemma ver_put : forall w w' i q, ver w -> objs w' = upd (objs w) i q -> ctxs w' = ctxs w -> ssls w' = ssls w ->
  (forall o, q = Some o -> obj_ok w o) -> ver w'.
Proof.
  intros w w' i q V O C S K. constructor.
  - intros x c. rewrite C. apply (v_roots _ V).
  - intros j v x c. rewrite O, C. updc j i; [intros H; exact (K _ H x c)|apply (v_srv _ V)].
  - intros j c x. rewrite O, S. updc j i; [intros H; exact (K _ H x)|apply (v_cli _ V)].
Qed.
Lemma ver_obj_ok : forall w i o, ver w -> objs w i = Some o -> obj_ok w o.
Proof. intros w i [c|v] V O; cbn; [intros x X; exact (v_cli _ V i c x O X)|intros x c X C; exact (v_srv _ V i v x c O X C)]. Qed.
(** an SSL of a client changes *)
Lemma ver_shaken : forall w i c s l h f, ver w ->
  (forall j o, objs w j = Some o -> ssl_of o = Some s -> j = i) -> objs w i = Some (Client c) -> c_ssl c = Some s -> ssls w s = Some l ->
  (c_ctx c <> None -> h <> Begun false /\ (c_verify c = true -> forall k, h <> Complete k)) ->
  ver (set_ssl w s (Some {| l_ctx := l_ctx l; l_mode := l_mode l; l_fd := f; l_shake := h |})).
Proof.
  intros w i c s l h f V U O S L K. constructor; cbn; try apply V.
  intros j d x D X. destruct (v_cli _ V j d x D X) as (t & m & A & B & C1 & C2 & C3). destruct (Nat.eq_dec t s) as [->|N].
  - assert (j = i) by (apply (U j (Client d)); [exact D|exact A]). subst j. assert (d = c) by congruence. subst d. assert (m = l) by congruence. subst m.
    eexists s, _. split; [exact A|]. rewrite upd_same. split; [reflexivity|]. cbn. destruct K as (K1 & K2); [congruence|]. auto.
  - exists t, m. rewrite upd_other by exact N. auto.
Qed.

(** ** One call *)
Definition nof : Z -> bool := fun _ => false.
Definition inv (w : world) (LX : nat -> nat) (LS : nat -> bool) : Prop := mem w LX LS /\ dsc w nof /\ ver w.
Definition came (o : outcome) : option world := match o with Back _ w | Threw w => Some w | _ => None end.
(** nothing freed is used; the invariant holds again, and nothing more is leaked if [kept] *)
Definition fine (LX : nat -> nat) (LS : nat -> bool) (kept : Prop) (o : outcome) : Prop :=
  o <> Freed /\ forall w', came o = Some w' -> exists LX' LS', inv w' LX' LS' /\ (kept -> (forall x, LX' x = LX x) /\ forall s, LS' s = LS s).
Lemma fine_back : forall LX LS K r w, inv w LX LS -> fine LX LS K (Back r w).
Proof. intros LX LS K r w I. split; [discriminate|]. intros w' H. injection H as <-. exists LX, LS. auto. Qed.
Lemma fine_threw : forall LX LS K w, inv w LX LS -> fine LX LS K (Threw w).
Proof. intros LX LS K w I. split; [discriminate|]. intros w' H. injection H as <-. exists LX, LS. auto. Qed.
Lemma fine_leak : forall LX LS LX' LS' (K : Prop) w, inv w LX' LS' -> ~ K -> fine LX LS K (Threw w).
Proof. intros LX LS LX' LS' K w I N. split; [discriminate|]. intros w' H. injection H as <-. exists LX', LS'. split; [exact I|]. intro C. contradiction. Qed.
Lemma fine_none : forall LX LS K o, o <> Freed -> came o = None -> fine LX LS K o.
Proof. intros LX LS K o N C. split; [exact N|]. intros w' H. congruence. Qed.

Lemma mem_fresh : forall w LX LS, mem w LX LS -> LX (nctxs w) = 0%nat /\ LS (nssls w) = false /\ ctxs w (nctxs w) = None /\ ssls w (nssls w) = None /\ objs w (nobjs w) = None.
Proof.
  intros w LX LS M.
  assert (C : ctxs w (nctxs w) = None).
  { destruct (ctxs w (nctxs w)) eqn:E; [|reflexivity]. assert (nctxs w < nctxs w)%nat by (apply (m_xb _ _ _ M); rewrite E; discriminate). lia. }
  assert (S : ssls w (nssls w) = None).
  { destruct (ssls w (nssls w)) eqn:E; [|reflexivity]. assert (nssls w < nssls w)%nat by (apply (m_sb _ _ _ M); rewrite E; discriminate). lia. }
  assert (O : objs w (nobjs w) = None).
  { destruct (objs w (nobjs w)) eqn:E; [|reflexivity]. assert (nobjs w < nobjs w)%nat by (apply (m_ob _ _ _ M); rewrite E; discriminate). lia. }
  assert (R := m_refs _ _ _ M (nctxs w)). unfold refs in R. rewrite C in R.
  repeat split; auto; [lia|]. destruct (LS (nssls w)) eqn:E; [|reflexivity]. apply (m_LS _ _ _ M) in E. contradiction.
Qed.
Lemma ver_ctx_new : forall w LX LS m, mem w LX LS -> ver w -> ver (ctx_new w m).
Proof.
  intros w LX LS m M V. destruct (mem_fresh w LX LS M) as (_ & _ & C & _). constructor; cbn; try apply V.
  - intros x c. updc x (nctxs w); [intro K; injection K as <-; reflexivity|apply (v_roots _ V)].
  - intros i v x c O X. updc x (nctxs w); [|apply (v_srv _ V i); assumption]. exfalso. apply (mem_ctx_held _ _ _ i (Server v) (nctxs w) M O X). exact C.
Qed.
Lemma shift_none : forall f, shift nof (-1) (-1) f = nof f.
Proof. intro f. unfold shift, nof. destruct (f =? -1); reflexivity. Qed.

Lemma new_client_fine : forall w LX LS log verify m x s, inv w LX LS -> fine LX LS (s = true) (new_client w log verify m x s).
Proof.
  intros w LX LS log verify m x s (M & D & V). destruct (mem_fresh w LX LS M) as (F1 & F2 & F3 & F4 & F5). unfold new_client.
  destruct m; cbn [negb]; [|apply fine_threw; exact (conj M (conj D V))]. destruct x; cbn [negb]; [|apply fine_threw; exact (conj M (conj D V))].
  assert (M1 := mem_ctx_new w LX LS (client_mode verify) M F1). assert (V1 := ver_ctx_new w LX LS (client_mode verify) M V).
  assert (D1 : dsc (ctx_new w (client_mode verify)) nof) by (apply (dsc_ext w); auto).
  set (w1 := ctx_new w (client_mode verify)) in *. destruct s; cbn [negb]; [|apply (fine_leak LX LS (bump LX (nctxs w) 1) LS); [exact (conj M1 (conj D1 V1))|discriminate]].
  destruct (mem_ssl_new w1 _ LS (nctxs w) M1) as (w2 & c & C & E & M2 & H1 & H2 & H3 & H4 & H5 & H6 & H7 & H8 & H9); [subst w1; cbn; rewrite upd_same; discriminate|].
  rewrite E. apply fine_back.
  assert (S1 : nssls w1 = nssls w) by reflexivity. rewrite S1 in *.
  assert (MD : x_mode c = client_mode verify) by (subst w1; cbn in C; rewrite upd_same in C; injection C as <-; reflexivity).
  set (o := Client {| c_fd := invalid; c_log := log; c_verify := verify; c_ctx := Some (nctxs w); c_ssl := Some (nssls w) |}).
  split; [|split].
  - assert (M3 : mem (add_obj w2 o) LX (gives (ssl_of o) (mark LS (nssls w) true) false)).
    { apply mem_add.
      - apply (mem_LX _ _ (give (ctx_of o) LX) _ (mark LS (nssls w) true) M2); [|reflexivity]. intro y. cbn. unfold bump. destruct (Nat.eqb y (nctxs w)); [congruence|reflexivity].
      - cbn. intros t T. injection T as <-. unfold mark. rewrite Nat.eqb_refl. reflexivity. }
    apply (mem_LX _ _ LX _ LS M3); [reflexivity|]. intro t. cbn. unfold mark. destruct (Nat.eqb_spec t (nssls w)) as [->|]; congruence.
  - assert (D2 : dsc w2 nof) by (apply (dsc_ext w1); auto).
    assert (N : objs w2 (nobjs w2) = None) by (rewrite H1, H2; exact F5).
    apply (dsc_LF _ (shift nof (ofd (objs w2 (nobjs w2))) (ofd (Some o)))); [|rewrite N; exact shift_none].
    apply (dsc_put w2); auto.
  - assert (V2 : ver w2).
    { apply (ver_ext w1); auto. intros i d t I X T. rewrite H4. apply upd_other. intros ->.
      destruct (m_own _ _ _ M i (Client d) (nssls w) I T) as (A & _). congruence. }
    apply (ver_put w2 (add_obj w2 o) (nobjs w2) (Some o)); auto. intros p P. injection P as <-. cbn. intros x X.
    exists (nssls w). eexists. split; [reflexivity|]. rewrite H4, upd_same. split; [reflexivity|]. cbn. split; [exact MD|]. split; [discriminate|]. intros _ k. discriminate.
Qed.
Lemma new_server_fine : forall w LX LS log verify len m x c k, inv w LX LS -> fine LX LS (c = true /\ k = true) (new_server w log verify len m x c k).
Proof.
  intros w LX LS log verify len m x c k (M & D & V). destruct (mem_fresh w LX LS M) as (F1 & F2 & F3 & F4 & F5). unfold new_server.
  destruct (max_password <=? len); [apply fine_threw; exact (conj M (conj D V))|].
  destruct m; cbn [negb]; [|apply fine_threw; exact (conj M (conj D V))]. destruct x; cbn [negb]; [|apply fine_threw; exact (conj M (conj D V))].
  assert (M1 := mem_ctx_new w LX LS (server_mode verify) M F1). assert (V1 := ver_ctx_new w LX LS (server_mode verify) M V).
  assert (D1 : dsc (ctx_new w (server_mode verify)) nof) by (apply (dsc_ext w); auto).
  assert (L : forall P, ~ P -> fine LX LS P (Threw (ctx_new w (server_mode verify)))) by (intros P NP; apply (fine_leak LX LS (bump LX (nctxs w) 1) LS); [exact (conj M1 (conj D1 V1))|exact NP]).
  destruct c; cbn [negb]; [|apply L; intros (? & ?); discriminate]. destruct k; cbn [negb]; [|apply L; intros (? & ?); discriminate].
  set (w1 := ctx_new w (server_mode verify)) in *. apply fine_back.
  set (o := Server {| v_fd := invalid; v_log := log; v_verify := verify; v_ctx := Some (nctxs w) |}). split; [|split].
  - apply (mem_add w1 LX LS o); [|discriminate]. apply (mem_LX _ _ (give (ctx_of o) LX) _ LS M1); [|reflexivity]. intro y. cbn. unfold bump. destruct (Nat.eqb y (nctxs w)); [congruence|reflexivity].
  - apply (dsc_LF _ (shift nof (ofd (objs w1 (nobjs w1))) (ofd (Some o)))); [apply (dsc_put w1); auto|]. change (objs w1 (nobjs w1)) with (objs w (nobjs w)). rewrite F5. exact shift_none.
  - apply (ver_put w1 (add_obj w1 o) (nobjs w1) (Some o)); auto. intros p P. injection P as <-. cbn. intros x d X C. injection X as <-. rewrite upd_same in C. injection C as <-. reflexivity.
Qed.

Lemma move_client_fine : forall w LX LS i c, inv w LX LS -> objs w i = Some (Client c) -> fine LX LS True (move_client w i c).
Proof.
  intros w LX LS i c (M & D & V) O. unfold move_client. apply fine_back. set (e := Client {| c_fd := invalid; c_log := c_log c; c_verify := true; c_ctx := None; c_ssl := None |}).
  destruct (mem_fresh w LX LS M) as (_ & _ & _ & _ & F5).
  assert (B : i <> nobjs w) by congruence.
  assert (M1 := mem_release w LX LS i (Client c) (Some e) M O (conj eq_refl eq_refl)). cbn [ctx_of ssl_of] in M1.
  assert (LSf : forall s, c_ssl c = Some s -> LS s = false) by (intros s S; exact (proj2 (m_own _ _ _ M i (Client c) s O S))).
  split; [|split].
  - assert (M2 : mem (add_obj (set_obj w i (Some e)) (Client c)) LX (gives (ssl_of (Client c)) (gives (c_ssl c) LS true) false)).
    { apply mem_add; [exact M1|]. cbn. intros s S. rewrite S. cbn. unfold mark. rewrite Nat.eqb_refl. reflexivity. }
    apply (mem_LX _ _ LX _ LS M2); [reflexivity|]. intro t. cbn. destruct (c_ssl c) as [s|] eqn:S; [|reflexivity]. cbn. unfold mark.
    destruct (Nat.eqb_spec t s) as [->|]; [rewrite (LSf s eq_refl)|]; reflexivity.
  - assert (D1 : dsc (set_obj w i (Some e)) (shift nof (ofd (objs w i)) (-1))) by (apply (dsc_put w (set_obj w i (Some e)) nof i (Some e)); auto).
    set (w1 := set_obj w i (Some e)) in *.
    assert (N1 : objs w1 (nobjs w1) = None) by (subst w1; cbn; rewrite upd_other by congruence; exact F5).
    assert (D2 : dsc (add_obj w1 (Client c)) (shift (shift nof (ofd (objs w i)) (-1)) (ofd (objs w1 (nobjs w1))) (ofd (Some (Client c))))).
    { apply (dsc_put w1); auto. rewrite O. cbn. unfold shift. destruct (Z.eqb_spec (c_fd c) (-1)); [auto|]. right. right. rewrite Z.eqb_refl. reflexivity. }
    apply (dsc_LF _ _ _ D2). intro f. rewrite N1, O. cbn. unfold shift, nof. destruct (f =? -1); [reflexivity|]. destruct (f =? c_fd c); reflexivity.
  - assert (V1 : ver (set_obj w i (Some e))) by (apply (ver_put w _ i (Some e)); auto; intros p P; injection P as <-; cbn; discriminate).
    apply (ver_put (set_obj w i (Some e)) _ (nobjs w) (Some (Client c))); auto. intros p P. injection P as <-. exact (ver_obj_ok w i (Client c) V O).
Qed.
Lemma move_server_fine : forall w LX LS i v, inv w LX LS -> objs w i = Some (Server v) -> fine LX LS True (move_server w i v).
Proof.
  intros w LX LS i v (M & D & V) O. unfold move_server. apply fine_back. set (e := Server {| v_fd := invalid; v_log := v_log v; v_verify := false; v_ctx := None |}).
  destruct (mem_fresh w LX LS M) as (_ & _ & _ & _ & F5).
  assert (B : i <> nobjs w) by congruence.
  assert (M1 := mem_release w LX LS i (Server v) (Some e) M O (conj eq_refl eq_refl)). cbn [ctx_of ssl_of gives] in M1.
  split; [|split].
  - apply (mem_add _ LX LS (Server v)); [exact M1|discriminate].
  - assert (D1 : dsc (set_obj w i (Some e)) (shift nof (ofd (objs w i)) (-1))) by (apply (dsc_put w (set_obj w i (Some e)) nof i (Some e)); auto).
    set (w1 := set_obj w i (Some e)) in *.
    assert (N1 : objs w1 (nobjs w1) = None) by (subst w1; cbn; rewrite upd_other by congruence; exact F5).
    assert (D2 : dsc (add_obj w1 (Server v)) (shift (shift nof (ofd (objs w i)) (-1)) (ofd (objs w1 (nobjs w1))) (ofd (Some (Server v))))).
    { apply (dsc_put w1); auto. rewrite O. cbn. unfold shift. destruct (Z.eqb_spec (v_fd v) (-1)); [auto|]. right. right. rewrite Z.eqb_refl. reflexivity. }
    apply (dsc_LF _ _ _ D2). intro f. rewrite N1, O. cbn. unfold shift, nof. destruct (f =? -1); [reflexivity|]. destruct (f =? v_fd v); reflexivity.
  - assert (V1 : ver (set_obj w i (Some e))) by (apply (ver_put w _ i (Some e)); auto; intros p P; injection P as <-; cbn; discriminate).
    apply (ver_put (set_obj w i (Some e)) _ (nobjs w) (Some (Server v))); auto. intros p P. injection P as <-. exact (ver_obj_ok w i (Server v) V O).
Qed.
(** closing a descriptor that was taken from its object *)
Lemma inv_close_fd : forall w LX LS fd, mem w LX LS -> dsc w (shift nof fd (-1)) -> ver w -> inv (close_fd w fd) LX LS.
Proof.
  intros w LX LS fd M D V. unfold close_fd, is_open, invalid. destruct (Z.eqb_spec fd (-1)) as [->|N]; cbn [negb].
  - split; [exact M|]. split; [|exact V]. apply (dsc_LF _ _ _ D). exact shift_none.
  - split; [apply (mem_ext w); auto|]. split.
    + apply (dsc_LF _ (markz (shift nof fd (-1)) fd false)).
      * apply dsc_close; [exact D|]. unfold shift. destruct (Z.eqb_spec fd (-1)); [contradiction|]. rewrite Z.eqb_refl. reflexivity.
      * intro f. unfold markz, shift, nof. destruct (f =? fd) eqn:E; [reflexivity|]. destruct (f =? -1); reflexivity.
    + apply (ver_ext w); auto. apply ctx_sub_refl. reflexivity.
Qed.
Lemma close_client_fine : forall w LX LS i c, inv w LX LS -> objs w i = Some (Client c) -> fine LX LS True (close_client w i c).
Proof.
  intros w LX LS i c (M & D & V) O. unfold close_client. destruct (is_open (c_fd c)) eqn:P; [|apply fine_back; exact (conj M (conj D V))]. apply fine_back.
  set (e := Client (with_fd c invalid)).
  assert (D1 : dsc (set_obj w i (Some e)) (shift nof (ofd (objs w i)) (-1))) by (apply (dsc_put w (set_obj w i (Some e)) nof i (Some e)); auto).
  rewrite O in D1. cbn [ofd fd_of] in D1.
  assert (K : inv (close_fd (set_obj w i (Some e)) (c_fd c)) LX LS).
  { apply inv_close_fd; [apply (mem_same w LX LS i (Client c)); auto|exact D1|].
    apply (ver_put w _ i (Some e)); auto. intros p Q. injection Q as <-. exact (ver_obj_ok w i (Client c) V O). }
  unfold close_fd in K. rewrite P in K. exact K.
Qed.
Lemma close_server_fine : forall w LX LS i v, inv w LX LS -> objs w i = Some (Server v) -> fine LX LS True (close_server w i v).
Proof.
  intros w LX LS i v (M & D & V) O. unfold close_server. destruct (is_open (v_fd v)) eqn:P; [|apply fine_back; exact (conj M (conj D V))]. apply fine_back.
  set (e := Server (server_with_fd v invalid)).
  assert (D1 : dsc (set_obj w i (Some e)) (shift nof (ofd (objs w i)) (-1))) by (apply (dsc_put w (set_obj w i (Some e)) nof i (Some e)); auto).
  rewrite O in D1. cbn [ofd fd_of] in D1.
  assert (K : inv (close_fd (set_obj w i (Some e)) (v_fd v)) LX LS).
  { apply inv_close_fd; [apply (mem_same w LX LS i (Server v)); auto|exact D1|].
    apply (ver_put w _ i (Some e)); auto. intros p Q. injection Q as <-. exact (ver_obj_ok w i (Server v) V O). }
  unfold close_fd in K. rewrite P in K. exact K.
Qed.
Lemma free_uses : forall w w' c, (trace w' = trace w \/ exists s l fd k, c_ssl c = Some s /\ ssls w s = Some l /\ l_shake l = Complete k /\ l_fd l = Some fd /\ trace w' = trace w ++ [Used fd; Record_on fd (on w fd) k]) ->
  exists e, Forall uses e /\ trace w' = trace w ++ e.
Proof.
  intros w w' c [T|(s & l & fd & k & _ & _ & _ & _ & T)]; [exists []|exists [Used fd; Record_on fd (on w fd) k]]; (split; [|rewrite ?app_nil_r; exact T]); repeat constructor.
Qed.
Lemma destroy_client_fine : forall w LX LS i c, inv w LX LS -> objs w i = Some (Client c) -> fine LX LS True (destroy_client w i c).
Proof.
  intros w LX LS i c (M & D & V) O. unfold destroy_client.
  assert (M1 := mem_release w LX LS i (Client c) None M O I). cbn [ctx_of ssl_of] in M1.
  assert (LSf : forall s, c_ssl c = Some s -> LS s = false) by (intros s S; exact (proj2 (m_own _ _ _ M i (Client c) s O S))).
  destruct (client_free_mem _ LX LS c M1 LSf) as (w' & E & M2 & H1 & H2 & H3 & H4 & H5 & H6 & H7). rewrite E. apply fine_back.
  destruct (free_uses _ _ _ H7) as (e & U & T).
  assert (D1 : dsc (set_obj w i None) (shift nof (ofd (objs w i)) (-1))) by (apply (dsc_put w (set_obj w i None) nof i None); auto).
  rewrite O in D1. cbn [ofd fd_of] in D1.
  apply inv_close_fd; [exact M2| |].
  - apply (dsc_note (set_obj w i None) w' _ e D1 U H1 H3 T).
  - assert (V1 : ver (set_obj w i None)) by (apply (ver_put w _ i None); auto; discriminate).
    apply (ver_ext _ _ V1 H1 H6). intros j d s J X S. apply H5. intro C. cbn in J. updc j i; [discriminate|].
    apply E0. exact (m_one _ _ _ M j i (Client d) (Client c) s J O S C).
Qed.
Lemma destroy_server_fine : forall w LX LS i v, inv w LX LS -> objs w i = Some (Server v) -> fine LX LS True (destroy_server w i v).
Proof.
  intros w LX LS i v (M & D & V) O. unfold destroy_server.
  assert (M1 := mem_release w LX LS i (Server v) None M O I). cbn [ctx_of ssl_of gives] in M1.
  assert (D1 : dsc (set_obj w i None) (shift nof (ofd (objs w i)) (-1))) by (apply (dsc_put w (set_obj w i None) nof i None); auto).
  rewrite O in D1. cbn [ofd fd_of] in D1.
  assert (V1 : ver (set_obj w i None)) by (apply (ver_put w _ i None); auto; discriminate).
  destruct (v_ctx v) as [x|] eqn:X; [|apply fine_back, inv_close_fd; assumption].
  cbn [give] in M1. destruct (mem_ctx_free _ _ LS x (LX x) M1) as (w2 & H1 & H2 & H3 & H4 & H5 & H6 & H7 & H8 & H9 & H10 & H11); [unfold bump; rewrite Nat.eqb_refl; reflexivity|].
  rewrite H1. apply fine_back, inv_close_fd.
  - apply (mem_LX _ _ LX _ LS H2); [|reflexivity]. intro y. unfold bump. destruct (Nat.eqb_spec y x) as [->|]; reflexivity.
  - apply (dsc_ext (set_obj w i None)); auto.
  - apply (ver_ext _ _ V1 H3 H11). intros j d s _ _ _. rewrite H5. reflexivity.
Qed.
Lemma inv_note : forall w LX LS e, inv w LX LS -> Forall uses e -> inv (note w e) LX LS.
Proof.
  intros w LX LS e (M & D & V) U. split; [apply mem_note; exact M|]. split; [apply (dsc_note w _ nof e); auto|]. apply (ver_ext w); auto. apply ctx_sub_refl. reflexivity.
Qed.
Lemma inv_used : forall w LX LS fd, inv w LX LS -> inv (note w [Used fd]) LX LS.
Proof. intros. apply inv_note; [assumption|repeat constructor]. Qed.
Lemma inv_opened : forall w LX LS i o p fd q w1, inv w LX LS -> objs w i = Some o -> fd_of o = -1 -> os_open w fd q = Some w1 -> fd_of p = fd ->
  ssl_of p = ssl_of o -> ctx_of p = ctx_of o -> obj_ok w p -> inv (set_obj w1 i (Some p)) LX LS.
Proof.
  intros w LX LS i o p fd q w1 (M & D & V) O F W P S X K.
  assert (D1 := dsc_open w nof fd q w1 D W).
  assert (Q : objs w1 = objs w /\ nobjs w1 = nobjs w /\ ctxs w1 = ctxs w /\ nctxs w1 = nctxs w /\ ssls w1 = ssls w /\ nssls w1 = nssls w /\ 0 <= fd).
  { unfold os_open in W. destruct (fd <? 0) eqn:L; [discriminate|]. destruct (fds w fd); [discriminate|]. injection W as <-. cbn. apply Z.ltb_ge in L. auto 10. }
  destruct Q as (Q1 & Q2 & Q3 & Q4 & Q5 & Q6 & Q7).
  split; [|split].
  - apply (mem_same w1 LX LS i o); auto; [apply (mem_ext w); auto|rewrite Q1; exact O].
  - apply (dsc_LF _ (shift (markz nof fd true) (ofd (objs w1 i)) (ofd (Some p)))).
    + apply (dsc_put w1); auto. cbn. right. right. rewrite P. unfold markz. rewrite Z.eqb_refl. reflexivity.
    + intro f. rewrite Q1, O. cbn. rewrite F, P. unfold shift, markz, nof. destruct (f =? -1); [reflexivity|]. destruct (f =? fd); reflexivity.
  - assert (V1 : ver w1) by (apply (ver_ext w); auto; [apply ctx_sub_refl; auto|intros; rewrite Q5; reflexivity]).
    apply (ver_put w1 _ i (Some p)); auto. intros r R. injection R as <-. destruct p as [c|v]; cbn in *; rewrite ?Q3, ?Q5; exact K.
Qed.
Lemma bind_fine : forall w LX LS i v got ok, inv w LX LS -> objs w i = Some (Server v) -> fine LX LS True (bind w i v got ok).
Proof.
  intros w LX LS i v got ok (M & D & V) O. unfold bind. destruct (is_open (v_fd v)) eqn:P; [apply fine_threw; exact (conj M (conj D V))|].
  destruct got as [fd|]; [|apply fine_threw; exact (conj M (conj D V))]. destruct (os_open w fd None) as [w1|] eqn:W; [|apply fine_none; [discriminate|reflexivity]].
  unfold is_open, invalid in P. apply negb_false_iff, Z.eqb_eq in P. destruct ok.
  - apply fine_back. change (set_obj (note w1 [Used fd]) i (Some (Server (server_with_fd v fd)))) with (note (set_obj w1 i (Some (Server (server_with_fd v fd)))) [Used fd]).
    apply inv_used. apply (inv_opened w LX LS i (Server v) _ fd None w1); auto; [exact (conj M (conj D V))|exact (ver_obj_ok w i (Server v) V O)].
  - apply fine_threw. assert (D1 := dsc_open w nof fd None w1 D W).
    assert (Q : objs w1 = objs w /\ nobjs w1 = nobjs w /\ ctxs w1 = ctxs w /\ nctxs w1 = nctxs w /\ ssls w1 = ssls w /\ nssls w1 = nssls w /\ 0 <= fd).
    { unfold os_open in W. destruct (fd <? 0) eqn:L; [discriminate|]. destruct (fds w fd); [discriminate|]. injection W as <-. cbn. apply Z.ltb_ge in L. auto 10. }
    destruct Q as (Q1 & Q2 & Q3 & Q4 & Q5 & Q6 & Q7).
    assert (K : inv (close_fd (note w1 [Used fd]) fd) LX LS).
    { apply inv_close_fd.
      - apply (mem_ext w); auto.
      - apply (dsc_LF _ (markz nof fd true)); [apply (dsc_note w1 _ _ [Used fd]); auto; repeat constructor|].
        intro f. unfold markz, shift, nof. destruct (Z.eqb_spec f (-1)); [|reflexivity]. destruct (Z.eqb_spec f fd); [lia|reflexivity].
      - apply (ver_ext w); auto; [apply ctx_sub_refl; auto|]. intros. cbn. rewrite Q5. reflexivity. }
    unfold close_fd, is_open, invalid in K. destruct (Z.eqb_spec fd (-1)); [lia|exact K].
Qed.
Lemma listen_fine : forall w LX LS v ok, inv w LX LS -> fine LX LS True (listen w v ok).
Proof.
  intros w LX LS v ok H. unfold listen. destruct ok; cbn [negb]; [|apply fine_threw, inv_used, H]. destruct (is_open (v_fd v)); [apply fine_back, inv_used, H|apply fine_none; [discriminate|reflexivity]].
Qed.
Lemma handshake_trace : forall w s a r w', handshake w s a = Back r w' -> exists e, Forall uses e /\ trace w' = trace w ++ e.
Proof.
  intros w s a r w' H. unfold handshake in H. destruct (ssls w s) as [l|]; [|discriminate].
  assert (N : exists e, Forall uses e /\ trace w = trace w ++ e) by (exists []; rewrite app_nil_r; auto).
  destruct (l_shake l); try (injection H as <- <-; exact N). destruct (l_fd l) as [fd|]; [|injection H as <- <-; exact N].
  assert (U : Forall uses [Used fd]) by (repeat constructor).
  destruct a as [|[|]|].
  - destruct (fds (note w [Used fd]) fd) as [[[c p]|]|]; destruct (ctxs (note w [Used fd]) (l_ctx l)); try discriminate.
    destruct (allowed as_client (l_mode l) (x_roots c0) p); [|discriminate]. injection H as <- <-. exists [Used fd]. auto.
  - injection H as <- <-. exists [Used fd]. auto.
  - injection H as <- <-. exists [Used fd]. auto.
  - destruct (fds (note w [Used fd]) fd) as [[[c p]|]|]; discriminate.
Qed.
Lemma shake_trace : forall w s b a r w', ssl_shake w s b a = Back r w' -> exists e, Forall uses e /\ trace w' = trace w ++ e.
Proof.
  intros w s b a r w' H. unfold ssl_shake in H. destruct (ssls w s) as [l|]; [|discriminate]. apply handshake_trace in H. destruct (l_shake l); exact H.
Qed.
Lemma transfer_trace : forall w s num a n r w', ssl_transfer w s num a n = Back r w' -> exists e, Forall uses e /\ trace w' = trace w ++ e.
Proof.
  intros w s num a n r w' H. unfold ssl_transfer in H. destruct (handshake w s a) as [r1 w1|w1| | | |] eqn:E; try discriminate.
  apply handshake_trace in E. destruct E as (e & U & T).
  assert (N : forall f, Forall uses f -> exists e, Forall uses e /\ trace (note w1 f) = trace w ++ e).
  { intros f F. exists (e ++ f). split; [apply Forall_app; auto|]. cbn. rewrite T, app_assoc. reflexivity. }
  assert (N0 : exists e, Forall uses e /\ trace w1 = trace w ++ e) by eauto.
  destruct r1 as [|[q|q|]|q]; try (injection H as <- <-; exact N0). destruct (ssls w1 s) as [l|]; [|discriminate].
  destruct (l_shake l); try discriminate. destruct (l_fd l) as [fd|]; [|discriminate].
  destruct (num <=? 0); [injection H as <- <-; exact N0|]. destruct ((0 <? n) && (n <=? num)); [injection H as <- <-; apply N; repeat constructor|].
  destruct (n =? 0); [injection H as <- <-; apply N; repeat constructor|discriminate].
Qed.
Lemma only_holder : forall w LX LS i c s, mem w LX LS -> objs w i = Some (Client c) -> c_ssl c = Some s -> forall j o, objs w j = Some o -> ssl_of o = Some s -> j = i.
Proof. intros w LX LS i c s M O S j o J T. exact (m_one _ _ _ M j i o (Client c) s J O T S). Qed.
Lemma client_never_verifies : forall p, allowed true (client_mode true) [] p = false.
Proof. intro p. unfold allowed. cbn. destruct (p_cert p); [apply andb_false_r|reflexivity]. Qed.
Lemma handshake_ver : forall w LX LS i c s a, mem w LX LS -> ver w -> objs w i = Some (Client c) -> c_ssl c = Some s ->
  forall r w', handshake w s a = Back r w' -> ver w' /\ (c_ctx c <> None -> c_verify c = true -> r <> 1).
Proof.
  intros w LX LS i c s a M V O S r w' H. destruct (m_own _ _ _ M i (Client c) s O S) as (N & _). destruct (ssls w s) as [l|] eqn:E; [|contradiction].
  assert (C := mem_ctx_alive _ _ _ _ _ M E). assert (U := only_holder w LX LS i c s M O S).
  assert (K : c_ctx c <> None -> l_mode l = client_mode (c_verify c) /\ l_shake l <> Begun false /\ (c_verify c = true -> forall k, l_shake l <> Complete k)).
  { intro X. destruct (c_ctx c) as [x|] eqn:Y; [|contradiction]. destruct (v_cli _ V i c x O Y) as (t & m & A1 & A2 & A3). assert (t = s) by congruence. subst t. assert (m = l) by congruence. subst m. exact A3. }
  assert (VN : forall e, ver (note w e)) by (intro e; apply (ver_ext w); auto; apply ctx_sub_refl; reflexivity).
  destruct (handshake_cases w s a l E C) as [X|[X|[(k & X1 & X)|[(_ & X)|(fd & b & F & B & [X|[X|(k & p & x & _ & X2 & X3 & X4 & X)]])]]]]; rewrite X in H; try discriminate; injection H as <- <-.
  - split; [exact V|]. intros Y Z. destruct (K Y) as (_ & _ & K3). exfalso. exact (K3 Z k X1).
  - split; [exact V|]. intros; discriminate.
  - split; [apply VN|]. intros; discriminate.
  - split; [|intros; discriminate]. apply (ver_shaken (note w [Used fd]) i c); auto. intros _. split; [discriminate|]. intros; discriminate.
  - assert (Q : c_ctx c <> None -> c_verify c = true -> False).
    { intros Y Z. destruct (K Y) as (K1 & K2 & K3). rewrite K1, Z, (v_roots _ V _ _ X3) in X4. destruct b; [rewrite client_never_verifies in X4; discriminate|congruence]. }
    split; [|intros Y Z; destruct (Q Y Z)]. apply (ver_shaken (note w [Used fd]) i c); auto. intros Y. split; [discriminate|]. intro Z. destruct (Q Y Z).
Qed.
Lemma shake_ver : forall w LX LS i c s a, mem w LX LS -> ver w -> objs w i = Some (Client c) -> c_ssl c = Some s ->
  forall r w', ssl_shake w s true a = Back r w' -> ver w' /\ (c_ctx c <> None -> c_verify c = true -> r <> 1).
Proof.
  intros w LX LS i c s a M V O S r w' H. unfold ssl_shake in H. destruct (ssls w s) as [l|] eqn:E; [|discriminate].
  destruct (l_shake l) eqn:L; try exact (handshake_ver w LX LS i c s a M V O S r w' H).
  apply (handshake_ver (ssl_shaken w s l (Begun true)) LX LS i c s a); auto; [apply mem_shaken; assumption|].
  apply (ver_shaken w i c); auto; [exact (only_holder w LX LS i c s M O S)|]. intros _. split; discriminate.
Qed.
Lemma inv_shaken : forall w LX LS i c s r w', inv w LX LS -> objs w i = Some (Client c) -> c_ssl c = Some s -> mem w' LX LS -> ver w' -> same_but_ssl w w' s ->
  (exists e, Forall uses e /\ trace w' = trace w ++ e) -> fine LX LS True (Back r w') /\ inv w' LX LS.
Proof.
  intros w LX LS i c s r w' (M & D & V) O S M' V' (E1 & E2 & E3 & E4 & E5 & E6 & E7 & E8) (e & U & T).
  assert (K : inv w' LX LS) by (split; [exact M'|split; [exact (dsc_note w w' nof e D U E1 E6 T)|exact V']]). split; [apply fine_back; exact K|exact K].
Qed.
Lemma handshake_fine : forall w LX LS i c ok_fd a, inv w LX LS -> objs w i = Some (Client c) -> fine LX LS True (connect_handshake w c ok_fd a) /\
  (c_ctx c <> None -> c_verify c = true -> forall r w', connect_handshake w c ok_fd a <> Back r w').
Proof.
  intros w LX LS i c ok_fd a (M & D & V) O. unfold connect_handshake.
  destruct (negb (is_open (c_fd c))); [split; [apply fine_threw; exact (conj M (conj D V))|discriminate]|].
  destruct (c_ssl c) as [s|] eqn:S; [|split; [apply fine_threw; exact (conj M (conj D V))|discriminate]].
  destruct (m_own _ _ _ M i (Client c) s O S) as (N & _). destruct (ssls w s) as [l|] eqn:E; [|contradiction].
  destruct ok_fd; cbn [negb]; [|split; [apply fine_threw; exact (conj M (conj D V))|discriminate]].
  destruct (c_log c); cbn [negb]; [|split; [apply fine_none; [discriminate|reflexivity]|discriminate]].
  set (w1 := ssl_set_fd w s l (c_fd c)).
  assert (M1 : mem w1 LX LS) by (apply mem_set_fd; assumption).
  assert (V1 : ver w1).
  { apply (ver_shaken w i c); auto; [exact (only_holder w LX LS i c s M O S)|]. intro X. destruct (c_ctx c) as [x|] eqn:Y; [|contradiction].
    destruct (v_cli _ V i c x O Y) as (t & m & A1 & A2 & _ & A3). assert (t = s) by congruence. subst t. assert (m = l) by congruence. subst m. exact A3. }
  assert (D1 : dsc w1 nof) by (apply (dsc_ext w); auto).
  destruct (shake_mem w1 LX LS s true a M1) as (A & A1 & A2 & B); [cbn; rewrite upd_same; discriminate|].
  assert (SV := shake_ver w1 LX LS i c s a M1 V1 O S). assert (ST := shake_trace w1 s true a).
  destruct (ssl_shake w1 s true a) as [r w2|w2| | | |] eqn:H; try (split; [apply fine_none; [congruence|reflexivity]|discriminate]); [|destruct (A2 w2 eq_refl)].
  destruct (B r w2 eq_refl) as (B1 & B2 & B3). destruct (SV r w2 eq_refl) as (C1 & C2). specialize (ST r w2 eq_refl).
  destruct (inv_shaken w1 LX LS i c s r w2 (conj M1 (conj D1 V1)) O S B1 C1 B3 ST) as (_ & K).
  destruct (Z.eqb_spec r 1) as [->|]; [|split; [apply fine_threw; exact K|discriminate]].
  split; [apply fine_back; exact K|]. intros X Y. destruct (C2 X Y eq_refl).
Qed.
Lemma connect_fine : forall w LX LS i c got reached ok_fd a, inv w LX LS -> objs w i = Some (Client c) -> fine LX LS True (connect w i c got reached ok_fd a) /\
  (c_ctx c <> None -> c_verify c = true -> forall r w', connect w i c got reached ok_fd a <> Back r w').
Proof.
  intros w LX LS i c got reached ok_fd a H O. unfold connect.
  assert (K : forall w1 c1, inv w1 LX LS -> objs w1 i = Some (Client c1) -> c_ctx c1 = c_ctx c -> c_verify c1 = c_verify c ->
    let o := (match reached with None => Threw (note w1 [Used (c_fd c1)]) | Some p => match fds (note w1 [Used (c_fd c1)]) (c_fd c1) with Some None => connect_handshake (os_connected (note w1 [Used (c_fd c1)]) (c_fd c1) p) c1 ok_fd a | _ => Never end end) in
    fine LX LS True o /\ (c_ctx c <> None -> c_verify c = true -> forall r w', o <> Back r w')).
  { intros w1 c1 H1 O1 X Y. assert (H2 := inv_used w1 LX LS (c_fd c1) H1). destruct reached as [p|]; [|split; [apply fine_threw; exact H2|discriminate]]. cbn.
    destruct (fds w1 (c_fd c1)) as [[q|]|] eqn:F; try (split; [apply fine_none; [discriminate|reflexivity]|discriminate]).
    rewrite <- X, <- Y. apply (handshake_fine _ LX LS i c1); [|exact O1]. destruct H2 as (M2 & D2 & V2). split; [apply (mem_ext (note w1 [Used (c_fd c1)])); auto|].
    split; [apply (dsc_connected (note w1 [Used (c_fd c1)])); [exact D2|cbn; congruence]|]. apply (ver_ext (note w1 [Used (c_fd c1)])); auto. apply ctx_sub_refl. reflexivity. }
  destruct (is_open (c_fd c)) eqn:P; [apply (K w c); auto|].
  destruct got as [fd|]; [|split; [apply fine_threw; exact H|discriminate]].
  destruct (os_open w fd None) as [w1|] eqn:W; [|split; [apply fine_none; [discriminate|reflexivity]|discriminate]].
  unfold is_open, invalid in P. apply negb_false_iff, Z.eqb_eq in P.
  apply (K (set_obj w1 i (Some (Client (with_fd c fd)))) (with_fd c fd)); auto.
  - destruct H as (M & D & V). apply (inv_opened w LX LS i (Client c) _ fd None w1); auto; [exact (conj M (conj D V))|exact (ver_obj_ok w i (Client c) V O)].
  - cbn. apply upd_same.
Qed.
Lemma transfer_fine : forall w LX LS i c size a n, inv w LX LS -> objs w i = Some (Client c) -> fine LX LS True (transfer w c size a n).
Proof.
  intros w LX LS i c size a n (M & D & V) O. unfold transfer. destruct (negb (is_open (c_fd c))); [apply fine_threw; exact (conj M (conj D V))|].
  destruct (c_ssl c) as [s|] eqn:S; [|apply fine_threw; exact (conj M (conj D V))].
  destruct (m_own _ _ _ M i (Client c) s O S) as (N & _). destruct (transfer_mem w LX LS s (to_int size) a n M N) as (A & A1 & A2 & B).
  assert (TT := transfer_trace w s (to_int size) a n).
  assert (VV : forall r w', ssl_transfer w s (to_int size) a n = Back r w' -> ver w').
  { intros r w' H. unfold ssl_transfer in H. assert (HV := handshake_ver w LX LS i c s a M V O S). destruct (handshake w s a) as [r1 w1|w1| | | |] eqn:E; try discriminate.
    destruct (HV r1 w1 eq_refl) as (V1 & _). assert (VN : forall e, ver (note w1 e)) by (intro e; apply (ver_ext w1); auto; apply ctx_sub_refl; reflexivity).
    destruct r1 as [|[q|q|]|q]; try (injection H as <- <-; exact V1). destruct (ssls w1 s) as [l|]; [|discriminate].
    destruct (l_shake l); try discriminate. destruct (l_fd l) as [fd|]; [|discriminate].
    destruct (to_int size <=? 0); [injection H as <- <-; exact V1|]. destruct ((0 <? n) && (n <=? to_int size)); [injection H as <- <-; apply VN|].
    destruct (n =? 0); [injection H as <- <-; apply VN|discriminate]. }
  destruct (ssl_transfer w s (to_int size) a n) as [r w2|w2| | | |] eqn:H; try (apply fine_none; [congruence|reflexivity]); [|destruct (A2 w2 eq_refl)].
  destruct (B r w2 eq_refl) as (B1 & B2 & B3). exact (proj1 (inv_shaken w LX LS i c s _ w2 (conj M (conj D V)) O S B1 (VV r w2 eq_refl) B3 (TT r w2 eq_refl))).
Qed.
Lemma server_never_verifies : forall p, allowed false (server_mode true) [] p = true -> p_cert p = None.
Proof. intros p H. unfold allowed in H. cbn in H. destruct (p_cert p) as [k|]; [|reflexivity]. unfold verified in H. cbn in H. rewrite andb_false_r in H. discriminate. Qed.
Lemma os_open_facts : forall w fd q w1, os_open w fd q = Some w1 ->
  objs w1 = objs w /\ nobjs w1 = nobjs w /\ ctxs w1 = ctxs w /\ nctxs w1 = nctxs w /\ ssls w1 = ssls w /\ nssls w1 = nssls w /\ 0 <= fd /\
  fds w1 fd = Some (match q with Some p => Some (nconns w, p) | None => None end) /\ fds w fd = None /\ trace w1 = trace w ++ [Opened fd] /\
  (forall f, f <> fd -> fds w1 f = fds w f) /\ nconns w1 = S (nconns w).
Proof.
  intros w fd q w1 W. unfold os_open in W. destruct (fd <? 0) eqn:L; [discriminate|]. destruct (fds w fd) eqn:F; [discriminate|]. injection W as <-. cbn. apply Z.ltb_ge in L.
  rewrite updz_same. repeat (split; [solve [auto]|]). split; [|reflexivity]. intros f N. apply updz_other. exact N.
Qed.
Lemma close_fd_leave : forall w LX LS fd, mem w LX LS -> dsc w (markz nof fd true) -> 0 <= fd -> ver w -> inv (close_fd w fd) LX LS.
Proof.
  intros w LX LS fd M D P V. apply inv_close_fd; [exact M| |exact V]. apply (dsc_LF _ _ _ D). intro f. unfold markz, shift, nof.
  destruct (Z.eqb_spec f (-1)); [|reflexivity]. destruct (Z.eqb_spec f fd); [lia|reflexivity].
Qed.
Lemma accept_fine : forall w LX LS i v got ok_ssl ok_fd a, inv w LX LS -> objs w i = Some (Server v) -> fine LX LS (ok_fd = true) (accept w v got ok_ssl ok_fd a) /\
  (v_verify v = true -> forall r w' fd p, accept w v got ok_ssl ok_fd a = Back r w' -> got = Some (fd, p) -> p_cert p = None).
Proof.
  intros w LX LS i v got ok_ssl ok_fd a H O. unfold accept. assert (H0 := inv_used w LX LS (v_fd v) H). set (w0 := note w [Used (v_fd v)]) in *.
  assert (NB : forall o, (forall r w', o <> Back r w') -> v_verify v = true -> forall r w' fd p, o = Back r w' -> got = Some (fd, p) -> p_cert p = None) by (intros o No _ r w' fd p E _; destruct (No r w' E)).
  destruct got as [(fd, p)|]; [|split; [apply fine_threw; exact H0|apply NB; discriminate]].
  destruct (negb (is_open (v_fd v))); [split; [apply fine_none; [discriminate|reflexivity]|apply NB; discriminate]|].
  destruct (os_open w0 fd (Some p)) as [w1|] eqn:W; [|split; [apply fine_none; [discriminate|reflexivity]|apply NB; discriminate]].
  destruct (os_open_facts _ _ _ _ W) as (Q1 & Q2 & Q3 & Q4 & Q5 & Q6 & Q7 & Q8 & Q9 & Q10 & Q11 & Q12). destruct H0 as (M0 & D0 & V0).
  assert (D1 := dsc_open w0 nof fd (Some p) w1 D0 W). assert (M1 : mem w1 LX LS) by (apply (mem_ext w0); auto).
  assert (V1 : ver w1) by (apply (ver_ext w0); auto; [apply ctx_sub_refl; auto|intros; rewrite Q5; reflexivity]).
  assert (O1 : objs w1 i = Some (Server v)) by (rewrite Q1; exact O).
  assert (Z1 : fine LX LS (ok_fd = true) (Threw (close_fd w1 fd))) by (apply fine_threw, close_fd_leave; auto).
  destruct (v_ctx v) as [x|] eqn:X; [|split; [exact Z1|apply NB; discriminate]].
  destruct ok_ssl; cbn [negb]; [|split; [exact Z1|apply NB; discriminate]].
  assert (XA := mem_ctx_held w1 LX LS i (Server v) x M1 O1 X).
  destruct (mem_ssl_new w1 LX LS x M1 XA) as (w2 & d & C & E & M2 & H1 & H2 & H3 & H4 & H5 & H6 & H7 & H8 & H9).
  rewrite E. set (s := nssls w1) in *. destruct (mem_fresh w1 LX LS M1) as (_ & F2 & _ & F4 & F5). fold s in F2, F4.
  assert (V2 : ver w2).
  { apply (ver_ext w1); auto. intros j b t J _ T. rewrite H4. apply upd_other. intros ->. destruct (m_own _ _ _ M1 j (Client b) s J T) as (A & _). contradiction. }
  assert (D2 : dsc w2 (markz nof fd true)) by (apply (dsc_ext w1); auto).
  destruct ok_fd; cbn [negb].
  2: { split; [|apply NB; discriminate]. apply (fine_leak LX LS LX (mark LS s true)); [|discriminate]. apply close_fd_leave; auto. }
  assert (E4 : ssls w2 s = Some {| l_ctx := x; l_mode := x_mode d; l_fd := None; l_shake := Fresh |}) by (rewrite H4; apply upd_same).
  rewrite E4. set (l := {| l_ctx := x; l_mode := x_mode d; l_fd := None; l_shake := Fresh |}) in *.
  assert (U2 : forall j o, objs w2 j = Some o -> ssl_of o = Some s -> False).
  { intros j o J T. rewrite H1 in J. destruct (m_own _ _ _ M1 j o s J T) as (A & _). contradiction. }
  set (w3 := ssl_set_fd w2 s l fd). assert (M3 : mem w3 LX (mark LS s true)) by (apply mem_set_fd; assumption).
  assert (U3 : forall j o, objs w3 j = Some o -> ssl_of o = Some s -> False) by exact U2.
  assert (V3 : ver w3).
  { apply (ver_ext w2); auto; [apply ctx_sub_refl; reflexivity|]. intros j b t J _ T. subst w3. cbn. apply upd_other. intros ->. exact (U2 j (Client b) J T). }
  assert (D3 : dsc w3 (markz nof fd true)) by (apply (dsc_ext w2); auto).
  destruct (shake_mem w3 LX (mark LS s true) s false a M3) as (A & A1 & A2 & B); [subst w3; cbn; rewrite upd_same; discriminate|].
  assert (ST := shake_trace w3 s false a).
  assert (SV : v_verify v = true -> forall w', ssl_shake w3 s false a = Back 1 w' -> p_cert p = None).
  { intros Y w' S. unfold ssl_shake in S. set (l3 := {| l_ctx := x; l_mode := x_mode d; l_fd := Some fd; l_shake := Fresh |}).
    assert (E3 : ssls w3 s = Some l3) by (subst w3; cbn; apply upd_same). rewrite E3 in S. cbn [l_shake l3] in S.
    set (w4 := ssl_shaken w3 s l3 (Begun false)) in *. set (l4 := {| l_ctx := x; l_mode := x_mode d; l_fd := Some fd; l_shake := Begun false |}).
    assert (E5 : ssls w4 s = Some l4) by (subst w4; cbn; apply upd_same).
    assert (CA : ctxs w4 (l_ctx l4) <> None). { assert (K := mem_ctx_alive _ _ _ s l4 (mem_shaken w3 LX (mark LS s true) s l3 (Begun false) M3 E3) E5). exact K. }
    destruct (handshake_cases w4 s a l4 E5 CA) as [K|[K|[(c & K1 & K)|[(_ & K)|(f & b & K1 & K2 & [K|[K|(c & q & y & _ & K3 & K4 & K5 & K)]])]]]]; rewrite K in S; try discriminate.
    cbn in K1, K2, K3, K4, K5. injection K1 as <-. injection K2 as <-. rewrite H5, Q8 in K3. injection K3 as <- <-.
    destruct (H9 x y K4) as (y' & Y1 & Y2 & Y3). rewrite Q3 in Y1. assert (MD : x_mode d = server_mode true).
    { rewrite <- Y. apply (v_srv _ V1 i v x d O1 X C). }
    rewrite MD in K5. rewrite (v_roots _ V2 x y K4) in K5. exact (server_never_verifies p K5). }
  destruct (ssl_shake w3 s false a) as [r w4|w4| | | |] eqn:S; try (split; [apply fine_none; [congruence|reflexivity]|apply NB; discriminate]); [|destruct (A2 w4 eq_refl)].
  destruct (B r w4 eq_refl) as (B1 & B2 & (E1' & E2' & E3' & E4' & E5' & E6' & E7' & E8')). destruct (ST r w4 eq_refl) as (e & Ue & Te).
  assert (V4 : ver w4).
  { apply (ver_ext w3); auto; [apply ctx_sub_refl; auto|]. intros j b t J _ T. apply E8'. intros ->. exact (U3 j (Client b) J T). }
  assert (D4 : dsc w4 (markz nof fd true)) by (apply (dsc_note w3 w4 _ e); auto).
  set (c := {| c_fd := fd; c_log := v_log v; c_verify := false; c_ctx := None; c_ssl := Some s |}).
  assert (ME : forall w' : world, mem w' LX (mark (mark LS s true) s false) -> mem w' LX LS).
  { intros w' K. apply (mem_LX _ _ LX _ LS K); [reflexivity|]. intro t. unfold mark. destruct (Nat.eqb_spec t s) as [->|]; congruence. }
  destruct (Z.leb_spec r 0) as [R|R].
  - destruct (client_free_mem w4 LX LS c B1) as (w5 & G0 & G1 & G2 & G3 & G4 & G5 & G6 & G7 & G8); [cbn; intros t T; injection T as <-; exact F2|].
    rewrite G0. split; [|apply NB; discriminate]. apply fine_threw. destruct (free_uses _ _ _ G8) as (e' & U' & T').
    apply close_fd_leave; auto; [apply (dsc_note w4 w5 _ e'); auto|].
    apply (ver_ext w4); auto. intros j b t J _ T. apply G6. cbn. intro K. injection K as <-. rewrite E1' in J. exact (U3 j (Client b) J T).
  - assert (RB : r = 1).
    { unfold ssl_shake in S. destruct (ssls w3 s) as [m|]; [|discriminate].
      destruct (ssls (match l_shake m with Fresh => ssl_shaken w3 s m (Begun false) | _ => w3 end) s) as [m2|] eqn:E2; unfold handshake in S; rewrite E2 in S; [|discriminate].
      destruct (l_shake m2); try (injection S as <- <-; lia). destruct (l_fd m2) as [f2|]; [|injection S as <- <-; lia].
      destruct a as [|[|]|]; try (injection S as <- <-; lia).
      - destruct (fds (note (match l_shake m with Fresh => ssl_shaken w3 s m (Begun false) | _ => w3 end) [Used f2]) f2) as [[[? ?]|]|];
        destruct (ctxs (note (match l_shake m with Fresh => ssl_shaken w3 s m (Begun false) | _ => w3 end) [Used f2]) (l_ctx m2)); try discriminate.
        destruct (allowed as_client (l_mode m2) (x_roots c0) p0); [injection S as <- <-; reflexivity|discriminate].
      - destruct (fds (note (match l_shake m with Fresh => ssl_shaken w3 s m (Begun false) | _ => w3 end) [Used f2]) f2) as [[[? ?]|]|]; discriminate. }
    subst r. split.
    + apply fine_back. assert (NO : objs w4 (nobjs w4) = None) by (rewrite E1', E2'; subst w3; cbn; rewrite H1, H2; exact F5). split; [|split].
      * apply ME. apply (mem_add w4 LX (mark LS s true) (Client c)); [exact B1|]. cbn. intros t T. injection T as <-. unfold mark. rewrite Nat.eqb_refl. reflexivity.
      * apply (dsc_LF _ (shift (markz nof fd true) (ofd (objs w4 (nobjs w4))) (ofd (Some (Client c))))).
        { apply (dsc_put w4); auto. cbn. right. right. unfold markz. rewrite Z.eqb_refl. reflexivity. }
        intro f. rewrite NO. cbn. unfold shift, markz, nof. destruct (f =? -1); [reflexivity|]. destruct (f =? fd); reflexivity.
      * apply (ver_put w4 _ (nobjs w4) (Some (Client c))); auto. intros b Bq. injection Bq as <-. cbn. discriminate.
    + intros Y r w' fd' p' _ G. injection G as <- <-. exact (SV Y w4 eq_refl).
Qed.
Lemma step_fine : forall w LX LS c, inv w LX LS -> fine LX LS (constructs c) (step w c).
Proof.
  intros w LX LS c H.
  assert (T : forall (K : Prop) o, fine LX LS True o -> fine LX LS K o).
  { intros K o (A & B). split; [exact A|]. intros w' E. destruct (B w' E) as (LX' & LS' & P & Q). exists LX', LS'. auto. }
  destruct c as [log v m x s|log v len m x c k|i got reached f a|i size a n|i got ok|i ok|i got s f a|i|i|i]; cbn [step constructs];
    try (destruct (objs w i) as [[c|v]|] eqn:O); try (apply fine_none; [discriminate|reflexivity]).
  - apply new_client_fine; exact H.
  - apply new_server_fine; exact H.
  - exact (proj1 (connect_fine w LX LS i c got reached f a H O)).
  - exact (transfer_fine w LX LS i c size a n H O).
  - exact (bind_fine w LX LS i v got ok H O).
  - exact (listen_fine w LX LS v ok H).
  - exact (proj1 (accept_fine w LX LS i v got s f a H O)).
  - exact (close_client_fine w LX LS i c H O).
  - exact (close_server_fine w LX LS i v H O).
  - exact (move_client_fine w LX LS i c H O).
  - exact (move_server_fine w LX LS i v H O).
  - exact (destroy_client_fine w LX LS i c H O).
  - exact (destroy_server_fine w LX LS i v H O).
Qed.
Lemma steps_inv : forall l w LX LS w', inv w LX LS -> steps w l = Some w' -> exists LX' LS', inv w' LX' LS' /\ (Forall constructs l -> (forall x, LX' x = LX x) /\ forall s, LS' s = LS s).
Proof.
  induction l as [|c l IH]; intros w LX LS w' H S; cbn in S; [injection S as <-; exists LX, LS; auto|].
  destruct (step_fine w LX LS c H) as (_ & F). assert (G : exists w1, came (step w c) = Some w1 /\ steps w1 l = Some w') by (destruct (step w c) as [r w1|w1| | | |]; try discriminate; exists w1; auto).
  destruct G as (w1 & G & G'). destruct (F w1 G) as (LX1 & LS1 & H1 & E1). destruct (IH w1 LX1 LS1 w' H1 G') as (LX2 & LS2 & H2 & E2). exists LX2, LS2. split; [exact H2|].
  intro K. inversion K as [|? ? K1 K2]; subst. destruct (E1 K1) as (A1 & A2). destruct (E2 K2) as (A3 & A4). split; intro z; [rewrite A3; apply A1|rewrite A4; apply A2].
Qed.
Lemma inv_start : inv start (fun _ => 0%nat) (fun _ => false).
Proof. split; [exact mem_start|]. split; [exact dsc_start|exact ver_start]. Qed.
Lemma reachable_inv : forall w, reachable w -> exists LX LS, inv w LX LS.
Proof. intros w (l & S). destruct (steps_inv l start _ _ w inv_start S) as (LX & LS & H & _). eauto. Qed.
