(** Proofs for C115. *)

From Coq Require Import ZArith List Bool Lia ZifyBool.
From Verif Require Import Base ListMem Table_Model Table_Proofs Life_Model Life_Spec.
Import ListNotations.
Open Scope Z_scope.

Section Life.
Variable size : Z.
Hypothesis Hsize : 0 <= size < 2 ^ 31.

(** The objects are the lines of the book. *)
Definition same (w : world) (b : book) : Prop :=
  w_out w = b_out b /\ w_next w = b_next b /\
  forall i, match w_obj w i, b_text b i with
            | Some o, Some p => holds size (o_line o) p
            | None, None => True
            | _, _ => False
            end.

Lemma same_put : forall (f : nat -> option obj) g i x y,
  (forall i, match f i, g i with Some o, Some p => holds size (o_line o) p | None, None => True | _, _ => False end) ->
  match x, y with Some o, Some p => holds size (o_line o) p | None, None => True | _, _ => False end ->
  forall k, match put_obj f i x k, put_text g i y k with Some o, Some p => holds size (o_line o) p | None, None => True | _, _ => False end.
Proof. intros f g i x y H Hx k. unfold put_obj, put_text. destruct (Nat.eqb k i); [exact Hx|apply H]. Qed.

Lemma flush_same : forall w o p, holds size (o_line o) p -> exists o', obj_flush w o = Some (w_out w ++ p ++ [10], o') /\ holds size (o_line o') [].
Proof.
  intros w o p H. unfold obj_flush.
  destruct (holds_flush size Hsize {| l_size := l_size (o_line o); l_buf := l_buf (o_line o); l_pcount := l_pcount (o_line o); l_table := Some (w_out w) |} p) as (l' & E & H' & T); [exact H|].
  rewrite E. cbn [l_table] in T. rewrite T. eexists. split; [reflexivity|]. exact H'.
Qed.

Lemma step_same : forall w b e b', same w b -> no_show e = true -> book_step true true size b e = Some b' ->
  exists w', step size w e = Some w' /\ same w' b'.
Proof.
  intros w b e b' (Eo & En & S) N E. destruct e as [raw|i t|i t|i|i|i]; cbn [no_show] in N; try discriminate; cbn [book_step step] in *.
  - destruct (zlen raw =? size + 2) eqn:R; [|discriminate]. injection E as <-. eexists. split; [reflexivity|]. split; [exact Eo|]. split; [cbn; rewrite En; reflexivity|].
    cbn. rewrite En. apply same_put; [exact S|]. apply (new_holds size Hsize). lia.
  - pose proof (S i) as Si. destruct (b_text b i) as [p|]; [|discriminate]. destruct (w_obj w i) as [o|]; [|contradiction].
    destruct (zlen p + zlen t <? size) eqn:F; [|discriminate]. injection E as <-.
    destruct (holds_put size Hsize (o_line o) p t Si ltac:(lia)) as (l' & -> & H' & _). eexists. split; [reflexivity|]. split; [exact Eo|]. split; [exact En|].
    cbn. apply same_put; [exact S|exact H'].
  - pose proof (S i) as Si. destruct (b_text b i) as [p|]; [|discriminate]. destruct (w_obj w i) as [o|]; [|contradiction]. injection E as <-.
    destruct (flush_same w o p Si) as (o' & -> & H'). eexists. split; [reflexivity|]. split; [cbn; rewrite Eo; reflexivity|]. split; [exact En|].
    cbn. apply same_put; [exact S|exact H'].
  - pose proof (S i) as Si. destruct (b_text b i) as [p|] eqn:Ep; [|discriminate]. destruct (w_obj w i) as [o|]; [|contradiction]. injection E as <-.
    eexists. split; [reflexivity|]. split; [exact Eo|]. split; [cbn; rewrite En; reflexivity|].
    cbn. rewrite En. apply same_put; [|exact Si]. intro k. unfold put_text. destruct (Nat.eqb_spec k i) as [->|]; [pose proof (S i) as H; rewrite Ep in H; exact H|apply S].
  - pose proof (S i) as Si. destruct (b_text b i) as [p|]; [|discriminate]. destruct (w_obj w i) as [o|]; [|contradiction]. injection E as <-.
    destruct (flush_same w o p Si) as (o' & -> & H'). eexists. split; [reflexivity|]. split; [cbn; rewrite Eo; reflexivity|]. split; [exact En|].
    cbn. apply same_put; [exact S|exact I].
Qed.

Lemma run_same : forall l w b b', same w b -> forallb no_show l = true -> book_run true true size b l = Some b' ->
  exists w', run size w l = Some w' /\ same w' b'.
Proof.
  induction l as [|e l IH]; intros w b b' H N E; cbn in *.
  - injection E as <-. exists w. split; [reflexivity|exact H].
  - apply andb_true_iff in N. destruct N as (N1 & N2). destruct (book_step true true size b e) as [b1|] eqn:E1; [|discriminate].
    destruct (step_same w b e b1 H N1 E1) as (w1 & -> & H1). exact (IH w1 b1 b' H1 N2 E).
Qed.

Lemma start_same : same world_new book_new.
Proof. split; [reflexivity|]. split; [reflexivity|]. intro i. exact I. Qed.

Lemma plain_run : forall l b b', plain size b l = true -> book_run false false size b l = Some b' ->
  forallb no_show l = true /\ book_run true true size b l = Some b'.
Proof.
  induction l as [|e l IH]; intros b b' P E; cbn in *; [split; [reflexivity|exact E]|].
  apply andb_true_iff in P. destruct P as (P1 & P2). destruct (book_step false false size b e) as [b1|] eqn:E1; [|discriminate].
  destruct (IH b1 b' P2 E) as (N & R).
  assert (book_step true true size b e = Some b1 /\ no_show e = true) as (-> & ->); [|split; assumption].
  destruct e as [raw|i t|i t|i|i|i]; cbn in *; try discriminate; try (split; [exact E1|reflexivity]).
  destruct (b_text b i) as [p|]; [|discriminate]. destruct p as [|c p]; [discriminate|]. split; [|reflexivity].
  injection E1 as <-. reflexivity.
Qed.

End Life.
