(** Page chains and page allocation: C35, C36, C40 and C44 for programs that use pages and chains directly.
    (For containers see Cont_Props.) *)

From Coq Require Import ZArith List Bool Lia.
From Verif Require Import Base Cache_Model Linked_Model Linked_Spec Linked_Proofs Linked_Runs.
Import ListNotations.
Open Scope Z_scope.

(** * C44 *)

(** After every history of operations the chains are what the lists are, in both directions, and the results
    are those of the lists.  What is missing: histories in which a chain with pages is spliced into (or cleared
    into) a chain without pages; see C44_splice_refuted. *)
Theorem C44_chains_partial : forall A (zero : A) room h a rs,
  2 <= room < page_nil -> arun room a0 h = Some (a, rs) -> no_takeovers room a0 h ->
  exists m, run (new_mem zero room) h = Ok (m, rs) /\ forall c, is_chain m c (ch a c).
Proof.
  intros A zero rm h a rs B H N. destruct (run_ok rm (new_mem zero rm) a0 h a rs (inv0 zero rm B) N H) as (m & E & I).
  exists m. split; [exact E|]. intro c. eapply inv_chain; eauto.
Qed.
Print Assumptions C44_chains_partial.

(** The iterators of a chain walk over it: from begin() with ++ to end(), from rend() with -- to rbegin(). *)
Theorem C44_iterators_partial : forall A (zero : A) room h a rs c,
  2 <= room < page_nil -> arun room a0 h = Some (a, rs) -> no_takeovers room a0 h -> ch a c <> [] ->
  exists m, run (new_mem zero room) h = Ok (m, rs) /\
    l_begin m c = mkL (hd page_nil (ch a c)) E_none /\ l_rend m c = mkL (last (ch a c) page_nil) E_none /\
    l_next m c l_rbegin = l_begin m c /\ l_prev m c l_end = l_rend m c /\
    l_next m c l_end = l_end /\ l_prev m c l_rbegin = l_rbegin /\
    forall u x v, ch a c = u ++ x :: v ->
      l_next m c (mkL x E_none) = match v with [] => l_end | y :: _ => mkL y E_none end /\
      l_prev m c (mkL x E_none) = match u with [] => l_rbegin | _ => mkL (last u page_nil) E_none end.
Proof.
  intros A zero rm h a rs c B H N Hne. destruct (run_ok rm (new_mem zero rm) a0 h a rs (inv0 zero rm B) N H) as (m & E & I).
  exists m. split; [exact E|].
  assert (R : rep m c (ch a c)) by (destruct (iv_rep _ _ _ I c) as [R|[R _]]; [exact R|congruence]).
  assert (Bd : forall y, In y (ch a c) -> 0 < y < page_nil) by (intros; eapply iv_bnd0; eauto).
  assert (Eb : l_begin m c = mkL (hd page_nil (ch a c)) E_none) by (rewrite (begin_rep m c _ R Bd); destruct (ch a c); [congruence|reflexivity]).
  assert (Er : l_rend m c = mkL (last (ch a c) page_nil) E_none).
  { destruct (@exists_last _ _ Hne) as (u & x & Eu). rewrite Eu in *. rewrite last_snoc. eapply rend_rep; eauto. }
  split; [exact Eb|]. split; [exact Er|]. split; [reflexivity|].
  split; [|split; [reflexivity|split; [reflexivity|]]].
  - unfold l_prev. rewrite Eb, Er. unfold litr_eqb. cbn [li_page li_edge l_end l_rbegin edge_eqb]. rewrite !andb_false_r, andb_true_r, Z.eqb_refl. reflexivity.
  - intros u x v Eu. rewrite Eu in *. pose proof (iv_nd _ _ _ I c) as Nd. rewrite Eu in Nd. split; [apply (next_rep m c u x v)|apply (prev_rep m c u x v)]; auto.
Qed.
Print Assumptions C44_iterators_partial.

(** Three chains, all operations, a page freed and used again. *)
Example C44_example :
  let h := [OAlloc; OAlloc; OAlloc; OAlloc; OPushBack 1 2; OPushFront 1 3; OInsert 1 2 4; OPushBack 7 5; OErase 1 4; OAlloc; OPushBack 7 4; OSplice 7 1; OPopFront 7; OPopBack 7; OClear 7; OAlloc; OFree 3; OAlloc] in
  match arun 9 a0 h with
  | Some (a, rs) => rs = [2; 3; 4; 5; 2; 3; 4; 5; 2; 4; 4; 0; 4; page_nil; 0; 3; 0; 3] /\ ch a 7 = [] /\ ch a 1 = [] /\ ch a 0 = [5; 2; 4] /\ loose a = [3]
  | None => False
  end /\ no_takeovers 9 a0 h.
Proof. vm_compute. repeat split; discriminate. Qed.

(** Moving the pages of a chain to the end of an empty chain leaves the pages in both. *)
Theorem C44_splice_refuted : exists h a rs m,
  arun 9 a0 h = Some (a, rs) /\ run (new_mem 0 9) h = Ok (m, rs) /\ ch a 1 = [] /\ ch a 5 = [2] /\
  ~ is_chain m 1 (ch a 1) /\ is_chain m 1 [2] /\ is_chain m 5 [2].
Proof.
  set (h := [OAlloc; OPushBack 1 2; OSplice 5 1]).
  exists h, (match arun 9 a0 h with Some (a, _) => a | None => a0 end), [2; 2; 0], (match run (new_mem 0 9) h with Ok (m, _) => m | Throw => new_mem 0 9 end).
  split; [vm_compute; reflexivity|]. split; [vm_compute; reflexivity|]. split; [vm_compute; reflexivity|]. split; [vm_compute; reflexivity|].
  split; [|split].
  - intros [[H _]|[_ H]].
    + assert (E : front (sts (match run (new_mem 0 9) h with Ok (m, _) => m | Throw => new_mem 0 9 end) 1) = 2) by (vm_compute; reflexivity).
      replace (ch (match arun 9 a0 h with Some (a, _) => a | None => a0 end) 1) with (@nil Z) in H by (vm_compute; reflexivity). cbn [path] in H. rewrite E in H. discriminate.
    + assert (E : front (sts (match run (new_mem 0 9) h with Ok (m, _) => m | Throw => new_mem 0 9 end) 1) = 2) by (vm_compute; reflexivity).
      rewrite H in E. discriminate.
  - left. vm_compute. repeat split; discriminate.
  - left. vm_compute. repeat split; discriminate.
Qed.
Print Assumptions C44_splice_refuted.

(** * C35 *)

(** A page that is handed out is neither the root page nor the start page nor in use.  What is missing:
    take-overs (C35_clear_refuted) and containers (Cont_Props). *)
Theorem C35_pages_partial : forall A (zero : A) room h a rs,
  2 <= room < page_nil -> arun room a0 h = Some (a, rs) -> no_takeovers room a0 h ->
  exists m m' p, run (new_mem zero room) h = Ok (m, rs) /\ alloc_page m = (m', p) /\
    (p <> page_nil -> 2 <= p /\ ~ in_use a p /\ p < fsize m') /\
    (p = page_nil -> fsize m = room).
Proof.
  intros A zero rm h a rs B H N. destruct (run_ok rm (new_mem zero rm) a0 h a rs (inv0 zero rm B) N H) as (m & E & I).
  assert (Hs : exists a' r, astep rm a OAlloc = Some (a', r) /\
      (r <> page_nil -> 2 <= r /\ ~ in_use a r /\ r < npages a') /\ (r = page_nil -> npages a = rm)).
  { cbn [astep]. pose proof (iv_rb _ _ _ I) as RB. destruct (rev (ch a 0)) as [|p q] eqn:Er.
    - destruct (npages a <? rm) eqn:El; (do 2 eexists; split; [reflexivity|]).
      + apply Z.ltb_lt in El. split; [|lia]. intros _. cbn [npages]. repeat split; try lia. intro U. destruct (inv_in_use _ _ _ I _ U). lia.
      + apply Z.ltb_ge in El. split; [congruence|]. intros _; lia.
    - do 2 eexists; split; [reflexivity|].
      assert (Hp : In p (ch a 0)) by (rewrite in_rev, Er; left; auto). pose proof (iv_bnd _ _ _ I 0 p Hp). cbn [npages set_loose set_ch].
      split; [|lia]. intros _. repeat split; try lia. intro U. destruct (inv_in_use _ _ _ I _ U). auto. }
  destruct Hs as (a' & r & Es & P1 & P2). destruct (alloc_step _ _ _ _ _ I Es) as (m' & E' & I').
  exists m, m', r. rewrite (iv_size _ _ _ I), (iv_size _ _ _ I'). auto.
Qed.
Print Assumptions C35_pages_partial.

(** After a chain has been cleared twice, a page is handed out twice: the chain that was cleared while the
    free list was empty still has the page, and the second clear frees it again. *)
Theorem C35_clear_refuted : exists h a rs m m',
  arun 9 a0 h = Some (a, rs) /\ run (new_mem 0 9) h = Ok (m, rs) /\ in_use a 2 /\ alloc_page m = (m', 2).
Proof.
  set (h := [OAlloc; OPushBack 1 2; OClear 1; OAlloc; OClear 1]).
  exists h, (match arun 9 a0 h with Some (a, _) => a | None => a0 end), [2; 2; 0; 2; 0], (match run (new_mem 0 9) h with Ok (m, _) => m | Throw => new_mem 0 9 end),
    (fst (alloc_page (match run (new_mem 0 9) h with Ok (m, _) => m | Throw => new_mem 0 9 end))).
  split; [vm_compute; reflexivity|]. split; [vm_compute; reflexivity|]. split; [left; vm_compute; auto|]. vm_compute; reflexivity.
Qed.
Print Assumptions C35_clear_refuted.

(** * C36 *)

(** If there is a free page, a free page is handed out and the file does not grow; only if there is none, the
    file grows, by one page.  Missing as for C35. *)
Theorem C36_pages_partial : forall A (zero : A) room h a rs,
  2 <= room < page_nil -> arun room a0 h = Some (a, rs) -> no_takeovers room a0 h ->
  exists m m' p, run (new_mem zero room) h = Ok (m, rs) /\ alloc_page m = (m', p) /\
    (ch a 0 <> [] -> In p (ch a 0) /\ fsize m' = fsize m) /\
    (ch a 0 = [] -> fsize m < room -> p = fsize m /\ fsize m' = fsize m + 1).
Proof.
  intros A zero rm h a rs B H N. destruct (run_ok rm (new_mem zero rm) a0 h a rs (inv0 zero rm B) N H) as (m & E & I).
  assert (Hs : exists a' r, astep rm a OAlloc = Some (a', r) /\ (ch a 0 <> [] -> In r (ch a 0) /\ npages a' = npages a) /\ (ch a 0 = [] -> npages a < rm -> r = npages a /\ npages a' = npages a + 1)).
  { cbn [astep]. destruct (rev (ch a 0)) as [|p q] eqn:Er.
    - assert (E0 : ch a 0 = []) by (apply (f_equal (@rev Z)) in Er; rewrite rev_involutive in Er; exact Er).
      destruct (npages a <? rm) eqn:El; (do 2 eexists; split; [reflexivity|]); (split; [congruence|]); intros _ Hl.
      + auto.
      + apply Z.ltb_ge in El. lia.
    - do 2 eexists; split; [reflexivity|]. split; [|intro E0; rewrite E0 in Er; discriminate]. intros _. split; [rewrite in_rev, Er; left; auto|reflexivity]. }
  destruct Hs as (a' & r & Es & P1 & P2). destruct (alloc_step _ _ _ _ _ I Es) as (m' & E' & I').
  exists m, m', r. rewrite (iv_size _ _ _ I), (iv_size _ _ _ I'). auto.
Qed.
Print Assumptions C36_pages_partial.

(** The states met: a history after which there are free pages, and one after which there are none. *)
Example C36_example :
  match arun 9 a0 [OAlloc; OAlloc; OPushBack 1 2; OPushBack 1 3; OPopFront 1; OFree 2] with None => True | Some _ => False end /\
  match arun 9 a0 [OAlloc; OAlloc; OPushBack 1 2; OPushBack 1 3; OPopFront 1] with Some (a, _) => ch a 0 = [2] /\ in_use a 3 | None => False end /\
  match arun 4 a0 [OAlloc; OAlloc; OAlloc] with Some (a, rs) => rs = [2; 3; page_nil] /\ in_use a 3 | None => False end.
Proof. split; [exact I|]. split; [|split; [reflexivity|left; cbn; auto]]. split; [reflexivity|]. right. exists 1. split; [discriminate|]. cbn. auto. Qed.

(** * C40 *)

Lemma allocs {A} rm F : forall (m : mem A) a, Inv rm m a -> ch a 0 = F ->
  exists m', run m (repeat OAlloc (length F)) = Ok (m', rev F) /\ fsize m' = fsize m.
Proof.
  induction F as [|p F IH] using rev_ind; intros m a I E; [exists m; auto|].
  rewrite app_length, Nat.add_comm. cbn [length plus repeat run exec].
  assert (Es : astep rm a OAlloc = Some (set_loose (set_ch a 0 F) (p :: loose a), p)).
  { cbn [astep]. rewrite E, rev_app_distr. cbn [rev app]. rewrite rev_involutive. reflexivity. }
  destruct (alloc_step _ _ _ _ _ I Es) as (m1 & -> & I1).
  destruct (IH m1 _ I1 eq_refl) as (m' & -> & Ef). exists m'. rewrite rev_app_distr. split; [reflexivity|].
  rewrite Ef, (iv_size _ _ _ I1), (iv_size _ _ _ I). reflexivity.
Qed.

(** After clear() of a chain while the free list is not empty the chain is empty, and its pages and those
    that were free before are handed out next, each once, without the file growing.  What is missing: an empty
    free list (C40_clear_refuted), containers (Cont_Props). *)
Theorem C40_clear_partial : forall A (zero : A) room h a rs c,
  2 <= room < page_nil -> arun room a0 h = Some (a, rs) -> no_takeovers room a0 h -> c <> 0 -> ch a 0 <> [] ->
  exists m m1 m2, run (new_mem zero room) h = Ok (m, rs) /\ l_clear (l_init m c) c = Ok m1 /\
    is_chain m1 c [] /\ l_empty m1 c = true /\
    run m1 (repeat OAlloc (length (ch a 0 ++ ch a c))) = Ok (m2, rev (ch a 0 ++ ch a c)) /\ fsize m2 = fsize m /\
    NoDup (rev (ch a 0 ++ ch a c)).
Proof.
  intros A zero rm h a rs c B H N Hc Hf. destruct (run_ok rm (new_mem zero rm) a0 h a rs (inv0 zero rm B) N H) as (m & E & I).
  assert (Es : astep rm a (OClear c) = Some (set_ch (set_ch a 0 (ch a 0 ++ ch a c)) c [], 0)).
  { cbn [astep]. apply Z.eqb_neq in Hc. rewrite Hc. reflexivity. }
  assert (NT : no_takeover a (OClear c)) by (intro; congruence).
  destruct (step_ok rm m a (OClear c) _ _ I NT Es) as (m1 & E1 & I1).
  cbn [exec] in E1. destruct (l_clear (l_init m c) c) as [m1'|] eqn:Ec; [|discriminate]. injection E1; intros; subst m1'.
  set (a1 := set_ch (set_ch a 0 (ch a 0 ++ ch a c)) c []) in *.
  assert (E0 : ch a1 0 = ch a 0 ++ ch a c). { unfold a1. cbn [set_ch ch]. rewrite upd_other by auto. apply upd_same. }
  assert (E2 : ch a1 c = []) by (unfold a1; cbn [set_ch ch]; apply upd_same).
  destruct (allocs rm _ m1 a1 I1 E0) as (m2 & Er & Es2).
  exists m, m1, m2. split; [exact E|]. split; [exact Ec|].
  assert (Rc : rep m1 c []).
  { unfold l_clear, l_splice in Ec. destruct (iv_rep _ _ _ I1 c) as [R|[_ S]]; [rewrite E2 in R; exact R|].
    (* the state was initialised by the constructor *)
    exfalso. clear - Ec S I Hc B Hf. destruct (init_inv _ _ _ c I) as (J & R). destruct (init_inv _ _ _ 0 J) as (J2 & R2).
    destruct (splice_step rm (l_init (l_init m c) 0) a 0 c J2 R2) as (m' & E' & _); auto.
    { destruct (init_rep (l_init m c) 0 (ch a 0)) as (_ & F & S0); [apply J|intros; eapply iv_bnd0; eauto|]. eapply keep1; [exact R|exact F|auto|intros x _ []]. }
    { congruence. }
    change (l_splice (l_init (l_init m c) 0) 0 c = Ok m1) in Ec. 
    destruct (splice_rep (l_init (l_init m c) 0) 0 c (ch a 0) (ch a c)) as (m'' & E'' & _ & R'' & _); auto.
    { destruct (init_rep (l_init m c) 0 (ch a 0)) as (_ & F & S0); [apply J|intros; eapply iv_bnd0; eauto|]. eapply keep1; [exact R|exact F|auto|intros x _ []]. }
    { congruence. }
    { apply nodup_app_intro; try apply I. intros x H1 H2. eapply (iv_dis _ _ _ I 0 c); eauto. }
    { intros y Hy. apply in_app_or in Hy. destruct Hy; eapply iv_bnd0; eauto. }
    rewrite E'' in Ec. injection Ec; intros; subst. destruct R'' as (S'' & _). rewrite S in S''. discriminate. }
  split; [left; destruct Rc as (S & _); rewrite S; split; reflexivity|].
  split; [unfold l_empty; destruct Rc as (S & _); rewrite S; reflexivity|].
  split; [exact Er|]. split.
  - rewrite Es2, (iv_size _ _ _ I1), (iv_size _ _ _ I). reflexivity.
  - apply NoDup_rev. rewrite <- E0. apply I1.
Qed.
Print Assumptions C40_clear_partial.
Example C40_example :
  let h := [OAlloc; OAlloc; OAlloc; OPushBack 1 2; OPushBack 1 3; OFree 4] in
  match arun 9 a0 h with Some (a, _) => ch a 0 = [4] /\ ch a 1 = [2; 3] | None => False end /\ no_takeovers 9 a0 h.
Proof. vm_compute. repeat split. Qed.

(** With an empty free list (in particular the first time) clear() leaves the chain as it is, and the pages
    are in the free list as well. *)
Theorem C40_clear_refuted : exists h a rs m m1 m2,
  arun 9 a0 h = Some (a, rs) /\ run (new_mem 0 9) h = Ok (m, rs) /\ ch a 1 = [2] /\
  l_clear m 1 = Ok m1 /\ l_empty m1 1 = false /\ is_chain m1 1 [2] /\ alloc_page m1 = (m2, 2).
Proof.
  set (h := [OAlloc; OPushBack 1 2]).
  set (m := match run (new_mem 0 9) h with Ok (m, _) => m | Throw => new_mem 0 9 end).
  set (m1 := match l_clear m 1 with Ok m => m | Throw => new_mem 0 9 end).
  exists h, (match arun 9 a0 h with Some (a, _) => a | None => a0 end), [2; 2], m, m1, (fst (alloc_page m1)).
  split; [vm_compute; reflexivity|]. split; [vm_compute; reflexivity|]. split; [vm_compute; reflexivity|].
  split; [vm_compute; reflexivity|]. split; [vm_compute; reflexivity|]. split; [left; vm_compute; repeat split; discriminate|]. vm_compute; reflexivity.
Qed.
Print Assumptions C40_clear_refuted.
