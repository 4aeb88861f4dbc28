From Coq Require Import ZArith List Bool Lia ZifyBool.
From Verif Require Import Base Streambuf_Model Streambuf_Spec.
Import ListNotations.
Open Scope Z_scope.

Lemma bytes_at_ext : forall n m m' a, (forall x, a <= x < a + Z.of_nat n -> m x = m' x) -> bytes_at m a n = bytes_at m' a n.
Proof.
  induction n; intros; cbn; [reflexivity|]. f_equal; [apply H; lia|]. apply IHn. intros; apply H; lia.
Qed.
Lemma bytes_at_snoc : forall n m a, bytes_at m a (S n) = bytes_at m a n ++ [m (a + Z.of_nat n)].
Proof.
  induction n; intros; [cbn; rewrite Z.add_0_r; reflexivity|].
  change (bytes_at m a (S (S n))) with (m a :: bytes_at m (a + 1) (S n)). rewrite IHn. cbn [bytes_at app].
  do 3 f_equal. f_equal. lia.
Qed.
Lemma bytes_at_len : forall n m a, length (bytes_at m a n) = n.
Proof. induction n; intros; cbn; auto. Qed.

Definition inv (m0 : mem) (g0 g1 p0 p1 : Z) (s : sbuf) (t : tapes) : Prop :=
  eback s = g0 /\ egptr s = g1 /\ epptr s = p1 /\ get_begin s = g0 /\ get_end s = g1 /\ put_begin s = p0 /\ put_end s = p1
  /\ g0 <= gptr s <= g1 /\ p0 <= pptr s <= p1
  /\ (forall x, ~ (p0 <= x < pptr s) -> sb_mem s x = m0 x)
  /\ rev (before t) = bytes_at m0 g0 (Z.to_nat (gptr s - g0))
  /\ after t = bytes_at m0 (gptr s) (Z.to_nat (g1 - gptr s))
  /\ written t = bytes_at (sb_mem s) p0 (Z.to_nat (pptr s - p0))
  /\ room t = Z.to_nat (p1 - pptr s).

Section Inv.
Variables (m0 : mem) (g0 g1 p0 p1 : Z).
Hypothesis Hd : forall x, g0 <= x < g1 -> ~ (p0 <= x < p1).

Lemma inv_bump : forall s t, inv m0 g0 g1 p0 p1 s t ->
  let '(s', r) := sb_step s Bump in let '(t', r') := t_step t Bump in r = r' /\ inv m0 g0 g1 p0 p1 s' t'.
Proof.
  intros s t I. pose proof I as (A1 & A2 & A3 & A4 & A5 & A6 & A7 & B1 & B2 & M & T1 & T2 & T3 & T4).
  cbn. unfold sbumpc. rewrite A2.
  destruct (gptr s <? g1) eqn:E.
  - assert (gptr s < g1) by lia.
    replace (Z.to_nat (g1 - gptr s)) with (S (Z.to_nat (g1 - (gptr s + 1)))) in T2 by lia. cbn [bytes_at] in T2.
    rewrite T2. rewrite M by (specialize (Hd (gptr s)); lia).
    split; [reflexivity|]. unfold inv; cbn [eback egptr epptr gptr pptr sb_mem with_g before after written room get_begin get_end put_begin put_end].
    repeat split; auto; try lia.
    cbn [rev]. rewrite T1. replace (Z.to_nat (gptr s + 1 - g0)) with (S (Z.to_nat (gptr s - g0))) by lia.
    rewrite bytes_at_snoc. do 3 f_equal. lia.
  - replace (Z.to_nat (g1 - gptr s)) with O in T2 by lia. cbn in T2. rewrite T2. auto.
Qed.

Lemma inv_unget : forall s t, inv m0 g0 g1 p0 p1 s t ->
  let '(s', r) := sb_step s Unget in let '(t', r') := t_step t Unget in r = r' /\ inv m0 g0 g1 p0 p1 s' t'.
Proof.
  intros s t I. pose proof I as (A1 & A2 & A3 & A4 & A5 & A6 & A7 & B1 & B2 & M & T1 & T2 & T3 & T4).
  cbn. unfold sungetc. rewrite A1.
  destruct (g0 <? gptr s) eqn:E.
  - replace (Z.to_nat (gptr s - g0)) with (S (Z.to_nat (gptr s - 1 - g0))) in T1 by lia.
    rewrite bytes_at_snoc in T1. replace (g0 + Z.of_nat (Z.to_nat (gptr s - 1 - g0))) with (gptr s - 1) in T1 by lia.
    destruct (before t) as [|c l]; [apply (f_equal (@length Z)) in T1; rewrite app_length in T1; cbn in T1; lia|].
    cbn [rev] in T1. apply app_inj_tail in T1. destruct T1 as [T1 ->].
    rewrite M by (specialize (Hd (gptr s - 1)); lia).
    split; [reflexivity|]. unfold inv; cbn [eback egptr epptr gptr pptr sb_mem with_g before after written room get_begin get_end put_begin put_end].
    repeat split; auto; try lia.
    replace (Z.to_nat (g1 - (gptr s - 1))) with (S (Z.to_nat (g1 - gptr s))) by lia. cbn [bytes_at].
    rewrite T2. do 2 f_equal. lia.
  - replace (Z.to_nat (gptr s - g0)) with O in T1 by lia. cbn in T1.
    destruct (before t); [auto|]. apply (f_equal (@length Z)) in T1. cbn in T1. rewrite app_length in T1; cbn in T1; lia.
Qed.

Lemma inv_put : forall c s t, inv m0 g0 g1 p0 p1 s t ->
  let '(s', r) := sb_step s (Put c) in let '(t', r') := t_step t (Put c) in r = r' /\ inv m0 g0 g1 p0 p1 s' t'.
Proof.
  intros c s t I. pose proof I as (A1 & A2 & A3 & A4 & A5 & A6 & A7 & B1 & B2 & M & T1 & T2 & T3 & T4).
  cbn. unfold sputc. rewrite A3.
  destruct (pptr s <? p1) eqn:E.
  - replace (Z.to_nat (p1 - pptr s)) with (S (Z.to_nat (p1 - (pptr s + 1)))) in T4 by lia. rewrite T4.
    split; [reflexivity|]. unfold inv; cbn [eback egptr epptr gptr pptr sb_mem with_p before after written room get_begin get_end put_begin put_end].
    repeat split; auto; try lia.
    + intros x Hx. unfold mset. replace (x =? pptr s) with false by lia. apply M. lia.
    + replace (Z.to_nat (pptr s + 1 - p0)) with (S (Z.to_nat (pptr s - p0))) by lia.
      rewrite bytes_at_snoc. rewrite T3. f_equal.
      * apply bytes_at_ext. intros. unfold mset. replace (x =? pptr s) with false by lia. reflexivity.
      * unfold mset. replace (p0 + Z.of_nat (Z.to_nat (pptr s - p0))) with (pptr s) by lia. rewrite Z.eqb_refl. reflexivity.
  - replace (Z.to_nat (p1 - pptr s)) with O in T4 by lia. rewrite T4. auto.
Qed.

Lemma tapes_eta : forall t, {| before := before t; after := after t; written := written t; room := room t |} = t.
Proof. destruct t; reflexivity. Qed.

Lemma inv_getn : forall n s t, inv m0 g0 g1 p0 p1 s t ->
  let '(s', r) := sb_step s (Getn n) in let '(t', r') := t_step t (Getn n) in r = r' /\ inv m0 g0 g1 p0 p1 s' t'.
Proof.
  induction n; intros s t I.
  - cbn. rewrite tapes_eta. auto.
  - pose proof (inv_bump s t I) as H. cbn [sb_step sgetn] in *. destruct (sbumpc s) as [s1 [c|]] eqn:E.
    + cbn [t_step] in H. destruct (after t) as [|c' l] eqn:Et; [destruct H as [H _]; discriminate|].
      destruct H as [H I1]. injection H as ->.
      specialize (IHn _ _ I1). destruct (sgetn s1 n) as [s2 l2]. cbn [t_step after before written room] in IHn |- *.
      rewrite Et. destruct IHn as [R I2]. injection R as ->. cbn [firstn skipn rev].
      split; [reflexivity|]. rewrite <- app_assoc. exact I2.
    + cbn [t_step] in H |- *. destruct (after t) as [|c' l] eqn:Et; [|destruct H as [H _]; discriminate].
      cbn. destruct H as [_ H]. split; [reflexivity|].
      destruct t as [tb ta tw tr]. cbn in *. subst ta. exact H.
Qed.

Lemma inv_putn : forall w s t, inv m0 g0 g1 p0 p1 s t ->
  let '(s', r) := sb_step s (Putn w) in let '(t', r') := t_step t (Putn w) in r = r' /\ inv m0 g0 g1 p0 p1 s' t'.
Proof.
  induction w as [|c w IH]; intros s t I.
  - cbn. rewrite firstn_nil. cbn. rewrite app_nil_r, Nat.sub_0_r, tapes_eta. auto.
  - pose proof (inv_put c s t I) as H. cbn [sb_step sputn] in *. destruct (sputc s c) as [s1 [c1|]] eqn:E.
    + cbn [t_step] in H |- *. destruct (room t) as [|r]; [destruct H as [H _]; discriminate|].
      destruct H as [_ I1]. specialize (IH _ _ I1). destruct (sputn s1 w) as [s2 k].
      cbn [t_step after before written room] in IH. destruct IH as [R I2]. injection R as ->.
      cbn [firstn length]. split; [f_equal; unfold zlen; cbn [length]; lia|].
      rewrite <- app_assoc in I2. exact I2.
    + cbn [t_step] in H |- *. destruct (room t) as [|r] eqn:Er; [|destruct H as [H _]; discriminate].
      cbn. destruct H as [_ H]. split; [reflexivity|]. rewrite app_nil_r, <- Er, tapes_eta. exact H.
Qed.

Lemma inv_step : forall o s t, inv m0 g0 g1 p0 p1 s t ->
  let '(s', r) := sb_step s o in let '(t', r') := t_step t o in r = r' /\ inv m0 g0 g1 p0 p1 s' t'.
Proof.
  intros o s t I. destruct o; [| apply inv_bump; auto | apply inv_unget; auto | apply inv_getn; auto | apply inv_put; auto | apply inv_putn; auto].
  pose proof I as (A1 & A2 & A3 & A4 & A5 & A6 & A7 & B1 & B2 & M & T1 & T2 & T3 & T4).
  cbn. split; [|assumption]. unfold sgetc. rewrite A2, T2.
  destruct (gptr s <? g1) eqn:E.
  - replace (Z.to_nat (g1 - gptr s)) with (S (Z.to_nat (g1 - (gptr s + 1)))) by lia. cbn.
    rewrite M by (specialize (Hd (gptr s)); lia). reflexivity.
  - replace (Z.to_nat (g1 - gptr s)) with O by lia. reflexivity.
Qed.

Lemma inv_run : forall ops s t, inv m0 g0 g1 p0 p1 s t ->
  let '(s', r) := sb_run s ops in let '(t', r') := t_run t ops in r = r' /\ inv m0 g0 g1 p0 p1 s' t'.
Proof.
  induction ops as [|o ops IH]; intros s t I; cbn; [auto|].
  pose proof (inv_step o s t I) as H.
  destruct (sb_step s o) as [s1 r1]. destruct (t_step t o) as [t1 r1']. destruct H as [-> I1].
  specialize (IH _ _ I1). destruct (sb_run s1 ops) as [s2 rs]. destruct (t_run t1 ops) as [t2 rs'].
  destruct IH as [-> I2]. auto.
Qed.
End Inv.

Lemma streambuf_refines : forall m g0 g1 p0 p1 ops, g0 <= g1 -> p0 <= p1 ->
  (forall x, g0 <= x < g1 -> ~ (p0 <= x < p1)) ->
  let '(s, rs) := sb_run (sb_reset m g0 g1 p0 p1) ops in
  let '(t, rs') := t_run {| before := []; after := bytes_at m g0 (Z.to_nat (g1 - g0)); written := []; room := Z.to_nat (p1 - p0) |} ops in
  rs = rs'
  /\ (zlen (written t) <= p1 - p0)
  /\ bytes_at (sb_mem s) p0 (length (written t)) = written t
  /\ forall x, ~ (p0 <= x < p0 + zlen (written t)) -> sb_mem s x = m x.
Proof.
  intros m g0 g1 p0 p1 ops Hg Hp Hd.
  pose proof (inv_run m g0 g1 p0 p1 Hd ops (sb_reset m g0 g1 p0 p1)
    {| before := []; after := bytes_at m g0 (Z.to_nat (g1 - g0)); written := []; room := Z.to_nat (p1 - p0) |}) as H.
  destruct (sb_run _ ops) as [s rs]. destruct (t_run _ ops) as [t rs'].
  destruct H as [-> I].
  - unfold inv; cbn. repeat split; auto; try lia; rewrite Z.sub_diag; reflexivity.
  - destruct I as (A1 & A2 & A3 & A4 & A5 & A6 & A7 & B1 & B2 & M & T1 & T2 & T3 & T4).
    assert (zlen (written t) = pptr s - p0) as L by (rewrite T3; unfold zlen; rewrite bytes_at_len; lia).
    split; [reflexivity|]. split; [lia|]. split.
    + rewrite T3 at 2. f_equal. unfold zlen in L. lia.
    + intros x Hx. apply M. lia.
Qed.

(** Writes stay in the put range even if the two ranges overlap. *)
Lemma put_bounds : forall ops s p0 p1, pptr s >= p0 -> epptr s = p1 ->
  let s' := fst (sb_run s ops) in
  pptr s' >= p0 /\ epptr s' = p1 /\ forall x, ~ (p0 <= x < p1) -> sb_mem s' x = sb_mem s x.
Proof.
  assert (forall c s p0 p1, pptr s >= p0 -> epptr s = p1 ->
    let s' := fst (sputc s c) in pptr s' >= p0 /\ epptr s' = p1 /\ forall x, ~ (p0 <= x < p1) -> sb_mem s' x = sb_mem s x) as P1.
  { intros. subst s'. unfold sputc. destruct (pptr s <? epptr s) eqn:E; cbn; repeat split; auto; try lia.
    intros. unfold mset. replace (x =? pptr s) with false by lia. reflexivity. }
  assert (forall w s p0 p1, pptr s >= p0 -> epptr s = p1 ->
    let s' := fst (sputn s w) in pptr s' >= p0 /\ epptr s' = p1 /\ forall x, ~ (p0 <= x < p1) -> sb_mem s' x = sb_mem s x) as P2.
  { induction w; intros; [cbn in *; auto|]. subst s'. cbn. pose proof (P1 a s p0 p1 H H0) as Q.
    destruct (sputc s a) as [s1 [c|]]; cbn in Q; destruct Q as (Q1 & Q2 & Q3).
    - specialize (IHw s1 p0 p1 Q1 Q2). destruct (sputn s1 w); cbn in *. destruct IHw as (R1 & R2 & R3).
      repeat split; auto. intros. rewrite R3, Q3; auto.
    - cbn. auto. }
  assert (forall n s, let s' := fst (sgetn s n) in pptr s' = pptr s /\ epptr s' = epptr s /\ sb_mem s' = sb_mem s) as P3.
  { induction n; intros; [cbn; auto|]. subst s'. cbn. unfold sbumpc. destruct (gptr s <? egptr s); [|cbn; auto].
    specialize (IHn (with_g s (gptr s + 1))). destruct (sgetn _ n); cbn in *. auto. }
  induction ops as [|o ops IH]; intros s p0 p1 H H0; [cbn; auto|].
  cbn. assert (let s1 := fst (sb_step s o) in pptr s1 >= p0 /\ epptr s1 = p1 /\ forall x, ~ (p0 <= x < p1) -> sb_mem s1 x = sb_mem s x) as S.
  { destruct o; cbn.
    - auto.
    - unfold sbumpc. destruct (gptr s <? egptr s); cbn; auto.
    - unfold sungetc. destruct (eback s <? gptr s); cbn; auto.
    - specialize (P3 n s). destruct (sgetn s n); cbn in *. destruct P3 as (-> & -> & ->). auto.
    - specialize (P1 c s p0 p1 H H0). destruct (sputc s c); exact P1.
    - specialize (P2 w s p0 p1 H H0). destruct (sputn s w); exact P2. }
  destruct (sb_step s o) as [s1 r]. cbn in S. destruct S as (S1 & S2 & S3).
  specialize (IH s1 p0 p1 S1 S2). destruct (sb_run s1 ops); cbn in *. destruct IH as (R1 & R2 & R3).
  repeat split; auto. intros. rewrite R3, S3; auto.
Qed.
