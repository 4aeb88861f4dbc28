(** Proofs for C23, C24 and C58. *)

From Coq Require Import ZArith List Bool Lia ZifyBool Permutation.
From Verif Require Import Base ListMem Socket_Model Socket_Spec.
Import ListNotations.
Open Scope Z_scope.

(** ** C23 *)
Definition total (s : sbuf) : list Z := sent s ++ if pending s then [put_ch s] else [].
Definition is_byte (c : Z) : Prop := 0 <= c < 256.
Lemma sputc_total : forall s c, is_byte c -> fst (sb_sputc s c) = c /\ total (snd (sb_sputc s c)) = total s ++ [c].
Proof.
  intros s c Hc. unfold sb_sputc, total. destruct (pending s) eqn:E; cbn.
  - rewrite Z.mod_small by exact Hc. split; [reflexivity|]. rewrite app_nil_r, <- app_assoc. reflexivity.
  - rewrite app_nil_r. split; reflexivity.
Qed.
Lemma xsputn_total : forall l s, Forall is_byte l -> fst (sb_xsputn s l) = zlen l /\ total (snd (sb_xsputn s l)) = total s ++ l.
Proof.
  induction l as [|c l IH]; intros s H.
  - cbn. rewrite app_nil_r. split; reflexivity.
  - inversion H as [|x y Hc Hl]; subst. cbn [sb_xsputn]. destruct (sputc_total s c Hc) as (E1 & E2). unfold sb_sputc in E1, E2.
    assert (K : forall s', total s' = total s ++ [c] -> fst (let '(n, s) := sb_xsputn s' l in (n + 1, s)) = zlen (c :: l) /\
      total (snd (let '(n, s) := sb_xsputn s' l in (n + 1, s))) = total s ++ c :: l).
    { intros s' Hs. destruct (IH s' Hl) as (A & B). destruct (sb_xsputn s' l) as [n s'']. cbn [fst snd] in *. rewrite zlen_cons. split; [lia|].
      rewrite B, Hs, <- app_assoc. reflexivity. }
    destruct (pending s) eqn:P; cbn [fst snd] in *.
    + destruct (sb_overflow s c) as [r s'] eqn:O. cbn [fst snd] in *. replace (r =? -1) with false by (unfold is_byte in Hc; lia). apply K, E2.
    + apply K. exact E2.
Qed.
Lemma sync_total : forall s, total (sb_sync s) = total s /\ pending (sb_sync s) = false.
Proof. intro s. unfold sb_sync, total. cbn. destruct (pending s); cbn; rewrite ?app_nil_r; split; reflexivity. Qed.
Lemma writes_total : forall l s, Forall (fun w => Forall is_byte (bytes_of w)) l -> total (do_writes s l) = total s ++ written l.
Proof.
  induction l as [|w l IH]; intros s H; cbn; [rewrite app_nil_r; reflexivity|]. inversion H as [|x y Hw Hl]; subst.
  unfold do_writes in IH. rewrite IH by exact Hl. rewrite app_assoc. f_equal.
  destruct w as [c|cs|]; cbn [do_write bytes_of] in *.
  - inversion Hw; subst. apply sputc_total. assumption.
  - apply xsputn_total. exact Hw.
  - rewrite app_nil_r. apply sync_total.
Qed.
Lemma writes_prefix : forall l i, Forall (fun w => Forall is_byte (bytes_of w)) l ->
  let s := do_writes (sb_new i) l in sent s = written l \/ exists c, pending s = true /\ written l = sent s ++ [c].
Proof.
  intros l i H. cbv zeta. assert (T := writes_total l (sb_new i) H). unfold total in T. cbn in T.
  destruct (pending (do_writes (sb_new i) l)) eqn:P; [right; exists (put_ch (do_writes (sb_new i) l)); auto|left].
  rewrite app_nil_r in T. exact T.
Qed.
Lemma writes_flush : forall l i, Forall (fun w => Forall is_byte (bytes_of w)) l -> sent (do_writes (sb_new i) (l ++ [Flush])) = written l.
Proof.
  intros l i H. unfold do_writes. rewrite fold_left_app. cbn [fold_left do_write]. set (s := fold_left do_write l (sb_new i)).
  destruct (sync_total s) as (A & B). assert (T := writes_total l (sb_new i) H). fold s in T. unfold do_writes in T. fold s in T.
  rewrite T in A. unfold total in A. rewrite B, app_nil_r in A. exact A.
Qed.

(** ** C24 *)
Lemma schar_ff : forall c, is_byte c -> (schar c =? -1) = (c =? 255).
Proof. intros c H. unfold is_byte in H. unfold schar. destruct (c <? 128) eqn:E; lia. Qed.
Lemma read_one : forall s c r, avail s = false -> inp s = c :: r -> is_byte c -> c <> 255 ->
  sb_sbumpc s = Some (c, {| get_ch := Some c; avail := false; put_ch := put_ch s; pending := pending s; sent := sent s; inp := r |}).
Proof.
  intros s c r A I B N. unfold sb_sbumpc, sb_underflow. rewrite A, I, schar_ff by exact B. replace (c =? 255) with false by lia. reflexivity.
Qed.
Lemma read_stale : forall s c, avail s = false -> inp s = [] -> get_ch s = Some c -> is_byte c -> c <> 255 -> sb_sbumpc s = Some (c, s).
Proof.
  intros s c A I G B N. unfold sb_sbumpc, sb_underflow. rewrite A, I, G, schar_ff by exact B. replace (c =? 255) with false by lia. unfold sb_take. cbn. destruct s; cbn in *; subst; reflexivity.
Qed.
Lemma reads_app : forall a b s l s', sb_reads a s = Some (l, s') -> forall l2 s2, sb_reads b s' = Some (l2, s2) -> sb_reads (a + b) s = Some (l ++ l2, s2).
Proof.
  induction a as [|a IH]; intros b s l s' H l2 s2 H2; cbn in *; [injection H as <- <-; exact H2|].
  destruct (sb_sbumpc s) as [[c s1]|]; [|discriminate]. destruct (sb_reads a s1) as [[l1 s1']|] eqn:E; [|discriminate].
  injection H as <- <-. rewrite (IH b s1 l1 s1' E l2 s2 H2). reflexivity.
Qed.
Lemma reads_all : forall l r s, avail s = false -> inp s = l ++ r -> Forall (fun c => is_byte c /\ c <> 255) l ->
  exists s', sb_reads (length l) s = Some (l, s') /\ avail s' = false /\ inp s' = r /\
    get_ch s' = match l with [] => get_ch s | _ => Some (last l 0) end.
Proof.
  induction l as [|c l IH]; intros r s A I H.
  - exists s. split; [reflexivity|]. split; [exact A|]. split; [exact I|reflexivity].
  - inversion H as [|x y (B & N) Hl]; subst. cbn [length sb_reads]. rewrite (read_one s c (l ++ r) A I B N).
    match goal with |- context [sb_reads _ ?x] => set (s1 := x) end.
    destruct (IH r s1 eq_refl eq_refl Hl) as (s' & -> & A' & I' & G').
    exists s'. split; [reflexivity|]. split; [exact A'|]. split; [exact I'|]. rewrite G'. destruct l; reflexivity.
Qed.
Lemma reads_stale : forall n s c, avail s = false -> inp s = [] -> get_ch s = Some c -> is_byte c -> c <> 255 -> sb_reads n s = Some (repeat c n, s).
Proof.
  induction n as [|n IH]; intros s c A I G B N; cbn [sb_reads repeat]; [reflexivity|].
  rewrite (read_stale s c A I G B N), (IH s c A I G B N). reflexivity.
Qed.
Lemma never_eof : forall l c k, Forall (fun c => is_byte c /\ c <> 255) (l ++ [c]) ->
  exists s, sb_reads (length l + 1 + k) (sb_new (l ++ [c])) = Some (l ++ [c] ++ repeat c k, s).
Proof.
  intros l c k H. destruct (reads_all (l ++ [c]) [] (sb_new (l ++ [c]))) as (s & R & A & I & G); [reflexivity|cbn; symmetry; apply app_nil_r|exact H|].
  exists s. replace (length l + 1)%nat with (length (l ++ [c])) by (rewrite app_length; reflexivity).
  rewrite app_assoc. apply reads_app with (s' := s); [exact R|].
  apply Forall_app in H. destruct H as (_ & H). inversion H as [|x y (B & N) _]; subst.
  apply reads_stale; auto. rewrite G, last_last. destruct l; reflexivity.
Qed.

(** ** C58 *)
Definition owned (w : world) : list Z := held (objs w).
Definition inv (w : world) : Prop :=
  proper [] (trace w) = Some (os_open w) /\ NoDup (os_open w) /\ NoDup (owned w) /\ (forall fd, In fd (os_open w) <-> In fd (owned w)) /\
  Forall (fun fd => 0 <= fd) (os_open w).

Lemma proper_app : forall a b o, proper o (a ++ b) = match proper o a with Some o' => proper o' b | None => None end.
Proof.
  induction a as [|[fd|fd|fd] a IH]; intros b o; cbn; [reflexivity| | |].
  - destruct (existsb (Z.eqb fd) o); [reflexivity|apply IH].
  - destruct (existsb (Z.eqb fd) o); [apply IH|reflexivity].
  - destruct ((fd =? -1) || existsb (Z.eqb fd) o); [apply IH|reflexivity].
Qed.
Lemma existsb_In : forall fd l, existsb (Z.eqb fd) l = true <-> In fd l.
Proof.
  intros fd l. rewrite existsb_exists. split; [intros (x & I & E); apply Z.eqb_eq in E; subst; exact I|intro I; exists fd; split; [exact I|apply Z.eqb_refl]].
Qed.
Lemma held_app : forall a b, held (a ++ b) = held a ++ held b.
Proof. intros. unfold held. apply flat_map_app. Qed.
Lemma nth_split_obj : forall (l : list (option Z)) i fd, nth_error l i = Some (Some fd) ->
  exists a b, l = a ++ Some fd :: b /\ length a = i.
Proof. intros l i fd H. apply nth_error_split in H. exact H. Qed.
Lemma set_nth_mid : forall a b x y, set_nth (a ++ x :: b) (length a) y = a ++ y :: b.
Proof. induction a as [|z a IH]; intros; cbn; [reflexivity|rewrite IH; reflexivity]. Qed.
Lemma get_obj_split : forall w i fd, get_obj w i = Some fd -> exists a b, objs w = a ++ Some fd :: b /\ length a = i.
Proof. intros w i fd. unfold get_obj. destruct (nth_error (objs w) i) as [[f|]|] eqn:E; try discriminate. intro H. injection H as ->. apply nth_split_obj. exact E. Qed.
Lemma NoDup_remove_Z : forall fd l, NoDup l -> NoDup (remove Z.eq_dec fd l).
Proof.
  induction l as [|x l IH]; intro N; cbn; [constructor|]. inversion N as [|y z Ni Nl]; subst. destruct (Z.eq_dec fd x); [apply IH; exact Nl|].
  constructor; [|apply IH; exact Nl]. intro I. apply in_remove in I. apply Ni, I.
Qed.
Lemma in_remove_Z : forall fd l x, In x (remove Z.eq_dec fd l) <-> In x l /\ x <> fd.
Proof. intros. split; [apply in_remove|intros (A & B); apply in_in_remove; auto]. Qed.
Lemma inv_use : forall w i fd, inv w -> get_obj w i = Some fd -> inv (use w fd).
Proof.
  intros w i fd (P & N & N2 & E & F) G. split; [|split; [exact N|split; [exact N2|split; [exact E|exact F]]]].
  unfold use. cbn [trace os_open]. rewrite proper_app, P. cbn [proper].
  replace ((fd =? -1) || existsb (Z.eqb fd) (os_open w)) with true; [reflexivity|symmetry].
  destruct (fd =? -1) eqn:X; [reflexivity|]. cbn. apply existsb_In, E. unfold owned. destruct (get_obj_split w i fd G) as (a & b & -> & _).
  rewrite held_app. apply in_or_app. right. cbn. rewrite X. left. reflexivity.
Qed.
Lemma get_use : forall w i fd, get_obj (use w fd) i = get_obj w i. Proof. reflexivity. Qed.
Lemma inv_close : forall w i fd, inv w -> get_obj w i = Some fd -> inv (close w i fd) /\ get_obj (close w i fd) i = Some invalid.
Proof.
  intros w i fd H G. unfold close, is_open. destruct (fd =? invalid) eqn:X; cbn [negb]; unfold invalid in X.
  - apply Z.eqb_eq in X. subst. auto.
  - assert (U := inv_use w i fd H G). destruct H as (P & N & N2 & E & F). destruct (get_obj_split w i fd G) as (a & b & O & L).
    unfold owned in *. rewrite O, held_app in N2, E. cbn in N2, E. rewrite X in N2, E. cbn in N2, E.
    destruct U as (U & _). unfold use in U. cbn in U.
    assert (Fi : In fd (os_open w)) by (apply E; apply in_or_app; right; left; reflexivity).
    split; [|unfold set_obj, os_close, get_obj; cbn; rewrite O, <- L, set_nth_mid, nth_error_app2, Nat.sub_diag by lia; reflexivity].
    unfold inv, owned, set_obj, os_close. cbn [trace os_open objs].
    split.
    { change [Used fd; Closed fd] with ([Used fd] ++ [Closed fd]). rewrite app_assoc, proper_app, U. cbn.
      rewrite (proj2 (existsb_In fd (os_open w))) by exact Fi. reflexivity. }
    split; [apply NoDup_remove_Z; exact N|]. rewrite O, <- L, set_nth_mid, held_app. cbn.
    assert (N3 := NoDup_remove _ _ _ N2). destruct N3 as (N3 & Ni).
    split; [exact N3|]. split.
    + intro x. rewrite in_remove_Z, E, !in_app_iff. cbn. rewrite in_app_iff in Ni. split.
      * intros ([A|[A|A]] & D); [left; exact A|congruence|right; exact A].
      * intros [A|A]; (split; [tauto|]); intro; subst; tauto.
    + apply Forall_forall. intros x I. apply in_remove_Z in I. rewrite Forall_forall in F. apply F, I.
Qed.
Lemma inv_set : forall w i fd x, inv w -> get_obj w i = Some fd -> fd = invalid -> (x = Some invalid \/ x = None) -> inv (set_obj w i x).
Proof.
  intros w i fd x (P & N & N2 & E & F) G Hf Hx. destruct (get_obj_split w i fd G) as (a & b & O & L). subst fd.
  assert (K : held (set_nth (objs w) i x) = held (objs w)).
  { rewrite O, <- L, set_nth_mid, !held_app. f_equal. destruct Hx; subst; reflexivity. }
  unfold inv, owned, set_obj. cbn [objs os_open trace]. rewrite K. auto.
Qed.
Lemma inv_new : forall w i n w', inv w -> get_obj w i = Some invalid -> os_new w n = Some w' ->
  inv (set_obj w' i (Some n)) /\ get_obj (set_obj w' i (Some n)) i = Some n.
Proof.
  intros w i n w' (P & N & N2 & E & F) G H. unfold os_new in H. destruct ((0 <=? n) && negb (existsb (Z.eqb n) (os_open w))) eqn:C; [|discriminate].
  injection H as <-. apply andb_true_iff in C. destruct C as (C1 & C2). apply negb_true_iff in C2.
  assert (Ni : ~ In n (os_open w)) by (intro I; apply existsb_In in I; congruence).
  destruct (get_obj_split w i invalid G) as (a & b & O & L).
  split; [|unfold set_obj, get_obj; cbn; rewrite O, <- L, set_nth_mid, nth_error_app2, Nat.sub_diag by lia; reflexivity].
  unfold inv, owned, set_obj in *. cbn [trace os_open objs].
  rewrite O, held_app in N2, E. cbn in N2, E. rewrite O, <- L, set_nth_mid, held_app. cbn. replace (n =? -1) with false by lia. cbn.
  assert (Nh : ~ In n (held a ++ held b)) by (intro I; apply Ni, E; exact I).
  split; [rewrite proper_app, P; cbn; rewrite C2; reflexivity|].
  split; [constructor; assumption|].
  split; [apply NoDup_Add with (a := n) (l := held a ++ held b); [apply Add_app|split; assumption]|].
  split; [|constructor; [lia|exact F]].
  intro x. rewrite in_app_iff. cbn. rewrite E, in_app_iff. tauto.
Qed.
Lemma inv_adopt : forall w n w', inv w -> os_new w n = Some w' -> inv (add_obj w' n).
Proof.
  intros w n w' (P & N & N2 & E & F) H. unfold os_new in H. destruct ((0 <=? n) && negb (existsb (Z.eqb n) (os_open w))) eqn:C; [|discriminate].
  injection H as <-. apply andb_true_iff in C. destruct C as (C1 & C2). apply negb_true_iff in C2.
  assert (Ni : ~ In n (os_open w)) by (intro I; apply existsb_In in I; congruence).
  unfold inv, owned, add_obj in *. cbn [trace os_open objs]. rewrite held_app. cbn. replace (n =? -1) with false by lia. cbn.
  split; [rewrite proper_app, P; cbn; rewrite C2; reflexivity|].
  split; [constructor; assumption|].
  split; [apply NoDup_Add with (a := n) (l := held (objs w)); [replace (held (objs w)) with (held (objs w) ++ []) at 1 by apply app_nil_r; apply Add_app|split; [assumption|intro I; apply Ni, E; exact I]]|].
  split; [|constructor; [lia|exact F]].
  intro x. rewrite in_app_iff. cbn. rewrite E. tauto.
Qed.
Lemma inv_move : forall w i fd, inv w -> get_obj w i = Some fd -> inv (set_obj (add_obj w fd) i (Some invalid)).
Proof.
  intros w i fd (P & N & N2 & E & F) G. destruct (get_obj_split w i fd G) as (a & b & O & L).
  unfold inv, owned, set_obj, add_obj in *. cbn [trace os_open objs].
  rewrite O, <- app_assoc, <- L. cbn [app]. rewrite set_nth_mid, held_app. cbn. rewrite held_app. cbn.
  rewrite O, held_app in N2, E. cbn in N2, E. rewrite app_nil_r.
  split; [exact P|]. split; [exact N|].
  set (h := if fd =? -1 then [] else [fd]) in *.
  split; [|split; [|exact F]].
  - apply (Permutation.Permutation_NoDup (l := held a ++ h ++ held b)); [|exact N2].
    apply Permutation.Permutation_app_head, Permutation.Permutation_app_comm.
  - intro x. rewrite E, !in_app_iff. tauto.
Qed.
Lemma inv_open : forall w i fd got r w', inv w -> get_obj w i = Some fd -> open w i fd got = Some (r, w') ->
  inv w' /\ exists fd', get_obj w' i = Some fd'.
Proof.
  intros w i fd got r w' H G O. unfold open in O. destruct (inv_close w i fd H G) as (C & Cg). destruct got as [n|].
  - destruct (os_new (close w i fd) n) as [w2|] eqn:E; [|discriminate]. injection O as <- <-.
    destruct (inv_new _ i n w2 C Cg E) as (A & B). split; [exact A|exists n; exact B].
  - injection O as <- <-. split; [apply (inv_set _ i invalid); auto|]. exists invalid.
    destruct (get_obj_split _ i invalid Cg) as (a & b & O & L). unfold get_obj, set_obj. cbn. rewrite O, <- L, set_nth_mid, nth_error_app2, Nat.sub_diag by lia. reflexivity.
Qed.
Lemma inv_ensure : forall w i fd b got r w', inv w -> get_obj w i = Some fd -> ensure_open w i fd b got = Some (r, w') ->
  inv w' /\ exists fd', get_obj w' i = Some fd'.
Proof.
  intros w i fd b got r w' H G O. unfold ensure_open in O. destruct (is_open fd).
  - injection O as <- <-. split; [exact H|exists fd; exact G].
  - exact (inv_open w i fd got r w' H G O).
Qed.
Lemma inv_tie_fd : forall w i fd b, inv w -> get_obj w i = Some fd -> inv (tie_fd w fd b) /\ get_obj (tie_fd w fd b) i = Some fd.
Proof.
  intros w i fd b H G. unfold tie_fd. destruct b; (split; [|exact G]).
  - apply (inv_use _ i); [apply (inv_use _ i); assumption|exact G].
  - apply (inv_use _ i); assumption.
Qed.
Lemma inv_hosts : forall l w i fd b r w', inv w -> get_obj w i = Some fd -> tie_hosts w fd b l = (r, w') -> inv w' /\ get_obj w' i = Some fd.
Proof.
  induction l as [|ok l IH]; intros w i fd b r w' H G E; cbn in E; [injection E as <- <-; auto|].
  destruct (inv_tie_fd w i fd b H G) as (A & B). destruct ok; [injection E as <- <-; auto|]. exact (IH _ _ _ _ _ _ A B E).
Qed.
Lemma inv_step : forall c w w', inv w -> step w c = Some w' -> inv w'.
Proof.
  intros c w w' H S. destruct c as [|i b got hosts|i b got|i|i|i got|i|i|i]; cbn [step] in S;
    try (destruct (get_obj w i) as [fd|] eqn:G; [|discriminate]).
  - injection S as <-. destruct H as (P & N & N2 & E & F). unfold inv, owned, add_obj in *. cbn. rewrite held_app. cbn. rewrite app_nil_r. auto.
  - destruct (ensure_open w i fd b got) as [[r w1]|] eqn:E; [|discriminate]. destruct (inv_ensure w i fd b got r w1 H G E) as (I & f & Gf).
    destruct r; [|injection S as <-; exact I]. rewrite Gf in S.
    set (q := match hosts with None => (false, w1) | Some hosts => tie_hosts w1 f b hosts end) in S. destruct q as [d w2] eqn:Q. subst q.
    assert (U : inv w2 /\ get_obj w2 i = Some f).
    { destruct hosts as [l|]; [exact (inv_hosts l w1 i f b d w2 I Gf Q)|injection Q as <- <-; auto]. }
    destruct U as (U & Gu). injection S as <-. destruct (negb d && b); [apply inv_close; assumption|exact U].
  - destruct (ensure_open w i fd b got) as [[r w1]|] eqn:E; [|discriminate]. destruct (inv_ensure w i fd b got r w1 H G E) as (I & f & Gf).
    destruct r; [|injection S as <-; exact I]. rewrite Gf in S. injection S as <-. exact (proj1 (inv_tie_fd w1 i f b I Gf)).
  - injection S as <-. destruct (is_open fd); [exact (inv_use w i fd H G)|exact H].
  - injection S as <-. exact (inv_use w i fd H G).
  - assert (U := inv_use w i fd H G). destruct got as [n|]; [|injection S as <-; exact U].
    destruct (os_new (use w fd) n) as [w1|] eqn:E; [|discriminate]. injection S as <-. exact (inv_adopt _ n w1 U E).
  - injection S as <-. apply inv_close; assumption.
  - injection S as <-. apply inv_move; assumption.
  - injection S as <-. destruct (inv_close w i fd H G) as (A & B). apply (inv_set _ i invalid); auto.
Qed.
Lemma inv_steps : forall l w w', inv w -> steps w l = Some w' -> inv w'.
Proof.
  induction l as [|c l IH]; intros w w' H S; cbn in S; [injection S as <-; exact H|].
  destruct (step w c) as [w1|] eqn:E; [|discriminate]. exact (IH w1 w' (inv_step c w w1 H E) S).
Qed.
Lemma inv_start : inv start.
Proof. unfold inv, start, owned. cbn. repeat split; try constructor; tauto. Qed.
Lemma opens_closes : forall t o o', proper o t = Some o' -> NoDup o -> forall fd,
  (opens fd t + (if in_dec Z.eq_dec fd o then 1 else 0) = closes fd t + (if in_dec Z.eq_dec fd o' then 1 else 0))%nat.
Proof.
  induction t as [|e t IH]; intros o o' P N fd; cbn in P.
  - injection P as <-. reflexivity.
  - destruct e as [f|f|f]; unfold opens, closes in *; cbn.
    + destruct (existsb (Z.eqb f) o) eqn:E; [discriminate|]. assert (Ni : ~ In f o) by (intro I; apply existsb_In in I; congruence).
      specialize (IH (f :: o) o' P (NoDup_cons f Ni N) fd).
      destruct (f =? fd) eqn:X.
      * apply Z.eqb_eq in X. subst f. cbn. destruct (in_dec Z.eq_dec fd (fd :: o)) as [I|I]; [|cbn in I; tauto].
        destruct (in_dec Z.eq_dec fd o); [tauto|]. lia.
      * apply Z.eqb_neq in X. destruct (in_dec Z.eq_dec fd (f :: o)) as [I|I], (in_dec Z.eq_dec fd o) as [J|J]; cbn in I; try lia; exfalso; tauto.
    + destruct (existsb (Z.eqb f) o) eqn:E; [|discriminate]. apply existsb_In in E.
      specialize (IH (remove Z.eq_dec f o) o' P (NoDup_remove_Z f o N) fd). assert (R := in_remove_Z f o fd).
      destruct (f =? fd) eqn:X.
      * apply Z.eqb_eq in X. subst f. cbn. destruct (in_dec Z.eq_dec fd (remove Z.eq_dec fd o)) as [I|I]; [tauto|].
        destruct (in_dec Z.eq_dec fd o); [lia|tauto].
      * apply Z.eqb_neq in X. destruct (in_dec Z.eq_dec fd (remove Z.eq_dec f o)) as [I|I], (in_dec Z.eq_dec fd o) as [J|J]; try lia; exfalso; apply I || apply J; try tauto.
        apply R. split; [exact J|congruence].
    + destruct ((f =? -1) || existsb (Z.eqb f) o); [|discriminate]. apply IH; assumption.
Qed.
Lemma held_none : forall l, Forall (fun o => o = None) l -> held l = [].
Proof. induction l as [|o l IH]; intro H; [reflexivity|]. inversion H; subst. cbn. apply IH. assumption. Qed.
