(** Lists and stacks: C38, C39, C41, C42, C43, and C35, C36 and C40 for containers. *)

From Coq Require Import ZArith List Bool Lia.
From Verif Require Import Base Cache_Model Linked_Model Linked_Proofs Cont_Model Cont_Spec Cont_Proofs Cont_Steps Cont_Erase Cont_Runs.
Import ListNotations.
Open Scope Z_scope.

(** * C38 *)

(** After every history of calls on any number of lists of one pool, with items of any size of which at least two
    fit on a page, every list shows the sequence that the same calls give on an ordinary sequence.  No call ends
    the program, and no insertion fails while the pool has a page left for every call. *)
Theorem C38_list_is_a_sequence : forall A (zero : A) room size h,
  2 <= room <= 2 ^ 51 -> (forall c, 1 <= size c <= 2034) -> Forall (fun e => fst e <> 0) h ->
  exists m outs s, calls (fun c => list_of (size c)) (cont_mem zero room) h = Some (m, outs) /\
    ideals empties h outs = Some s /\ (forall c, c <> 0 -> shows m c (s c)) /\
    (2 + Z.of_nat (length h) < room -> ~ In Full outs).
Proof.
  intros A zero rm size h Hr Hs Hh.
  destruct (runs_start zero rm (fun c => list_of (size c)) size h Hr) as (m & outs & s & L & E & Ei & Hi & Ef & _ & N).
  { intro c. split; [left; auto|]. specialize (Hs c). lia. }
  { eapply Forall_impl; [|exact Hh]. intros [c o] Hc. split; [exact Hc|]. left. split; [reflexivity|apply Hs]. }
  exists m, outs, s. split; [exact E|]. split; [exact Ei|]. split; [|exact N].
  intros c Hc. rewrite (Ef c Hc). eapply Inv_shows; eauto.
Qed.
Print Assumptions C38_list_is_a_sequence.

(** Items of 1000 bytes, four on a page, in two lists: pages are split, merged and freed. *)
Definition h38 : list (Z * op Z) :=
  [(7, PushBack 10); (7, PushBack 11); (7, PushFront 12); (7, Insert 1 13); (7, Insert 2 14); (9, PushBack 1); (7, Insert 2 15); (7, PushFront 16); (7, Insert 3 17);
   (7, PushBack 18); (7, PushBack 19); (7, PushBack 20); (9, PopBack); (9, PopBack); (7, Erase 4); (7, Erase 4); (7, Erase 1); (7, PopFront); (7, Erase 9); (7, Erase 0); (7, PopBack); (9, PushFront 2)].
Example C38_example :
  Forall (fun e => fst e <> 0) h38 /\
  match calls (fun c => list_of 1000) (cont_mem 0 100) h38 with
  | Some (m, outs) =>
      outs = [Done; Done; Done; Done; Done; Done; Done; Done; Done; Done; Done; Done; Done; Threw; Done; Done; Done; Done; Threw; Done; Done; Done] /\
      match ideals empties h38 outs with
      | Some s => s 7 = [17; 10; 11; 18; 19] /\ s 9 = [2] /\ c_size 7 m = 5 /\ fsize m = 7
      | None => False
      end
  | None => False
  end.
Proof. split; [repeat constructor; discriminate|]. vm_compute. repeat split. Qed.
(** A pool of three pages: the third insertion finds no page, and changes nothing. *)
Example C38_example_full :
  match calls (fun c => list_of 2034) (cont_mem 0 3) [(1, PushBack 5); (1, PushBack 6); (1, PushFront 7)] with
  | Some (m, outs) => outs = [Done; Done; Full] /\ c_size 1 m = 2 /\ c_front 1 m = Some 5
  | None => False
  end.
Proof. vm_compute. repeat split. Qed.

(** * C39 *)

(** A stack among any other lists and stacks of a pool: what it shows, top first, is what pushing and popping
    last in, first out gives; items may fill a whole page. *)
Theorem C39_stack_is_lifo : forall A (zero : A) room ts size h c,
  2 <= room <= 2 ^ 51 ->
  (forall d, (ts d = list_of (size d) \/ ts d = stack_of (size d)) /\ 1 <= size d <= 4069) ->
  Forall (fun e => fst e <> 0 /\ supported (ts (fst e)) (size (fst e)) (snd e)) h ->
  c <> 0 -> Forall (fun e => fst e = c -> match snd e with PushBack _ | PopBack => True | _ => False end) h ->
  exists m outs st, calls ts (cont_mem zero room) h = Some (m, outs) /\ lifos [] (on c h outs) = Some st /\
    shows m c (rev st) /\ c_back c m = hd_error st /\ c_size c m = Z.of_nat (length st) /\
    (2 + Z.of_nat (length h) < room -> ~ In Full outs).
Proof.
  intros A zero rm ts size h c Hr Ht Hh Hc Hst.
  destruct (runs_start zero rm ts size h Hr Ht Hh) as (m & outs & s & L & E & Ei & Hi & Ef & _ & N).
  pose proof (ideals_lifos c h _ _ _ Ei Hst) as EL. pose proof (Inv_shows _ _ _ _ Hi Hc) as Sh. rewrite <- (Ef c Hc) in Sh.
  exists m, outs, (rev (s c)). split; [exact E|]. split; [exact EL|]. rewrite rev_involutive. split; [exact Sh|].
  destruct Sh as (Sz & _ & _ & Bk & _). split; [exact Bk|]. split; [rewrite rev_length; exact Sz|exact N].
Qed.
Print Assumptions C39_stack_is_lifo.

(** Three items of 4000 bytes on three pages, and a list in the same pool. *)
Definition ts39 (c : Z) : ctype := if c =? 5 then stack_of 4000 else list_of 1000.
Definition size39 (c : Z) : Z := if c =? 5 then 4000 else 1000.
Definition h39 : list (Z * op Z) := [(5, PushBack 1); (5, PushBack 2); (6, PushFront 9); (5, PushBack 3); (5, PopBack); (5, PushBack 4); (6, Insert 0 8); (5, PopBack); (5, PopBack)].
Example C39_example :
  (forall d, (ts39 d = list_of (size39 d) \/ ts39 d = stack_of (size39 d)) /\ 1 <= size39 d <= 4069) /\
  Forall (fun e => fst e <> 0 /\ supported (ts39 (fst e)) (size39 (fst e)) (snd e)) h39 /\
  Forall (fun e => fst e = 5 -> match snd e with PushBack _ | PopBack => True | _ => False end) h39 /\
  match calls ts39 (cont_mem 0 100) h39 with
  | Some (m, outs) => lifos [] (on 5 h39 outs) = Some [1] /\ c_back 5 m = Some 1 /\ c_size 5 m = 1 /\ c_size 6 m = 2 /\ outs = [Done; Done; Done; Done; Done; Done; Done; Done; Done]
  | None => False
  end.
Proof.
  split; [intro d; unfold ts39, size39; destruct (d =? 5); (split; [auto|lia])|].
  split. { unfold h39. repeat (apply Forall_cons; [split; [discriminate|]|]); try apply Forall_nil; first [left; split; [reflexivity|cbn; lia]|right; split; [right; reflexivity|split; [cbn; lia|exact I]]]. }
  split; [repeat constructor; cbn; auto; discriminate|]. vm_compute. repeat split.
Qed.

(** * C41 *)

(** insert() of an item into a list at any position [k], in any state that a history of calls leaves behind,
    returns the iterator at that position, which gives the item; or end() when the pool is full. *)
Theorem C41_insert : forall A (zero : A) room size h m outs c k x,
  2 <= room <= 2 ^ 51 -> (forall c, 1 <= size c <= 2034) -> Forall (fun e => fst e <> 0) h ->
  calls (fun c => list_of (size c)) (cont_mem zero room) h = Some (m, outs) -> c <> 0 ->
  exists m' r l, c_insert (list_of (size c)) c m (itr_at m c k) x = COk (m', r) /\ shows m c l /\
    (r_itr r = itr_at m' c (Nat.min k (length l)) /\ c_deref m' (r_itr r) = Some x /\ shows m' c (insert_at k x l) \/
     r_itr r = c_end c m' /\ fsize m' = room /\ shows m' c l).
Proof.
  intros A zero rm size h m outs c k x Hr Hs Hh E Hc.
  destruct (runs_start zero rm (fun c => list_of (size c)) size h Hr) as (m0 & outs0 & s & L & E0 & Ei & Hi & Ef & Er & N).
  { intro d. split; [left; auto|]. specialize (Hs d). lia. }
  { eapply Forall_impl; [|exact Hh]. intros [d o] Hd. split; [exact Hd|]. left. split; [reflexivity|apply Hs]. }
  rewrite E in E0. injection E0 as <- <-. pose proof Hi as [Wm G C T R]. pose proof (C c Hc) as Hcap.
  assert (Bt : between m L c (itr_at m c k) (firstn k (flat (L c))) (skipn k (flat (L c)))). { eapply (itr_between m L [] c (t_cap (list_of (size c)))); eauto; lia. }
  destruct (ins_step (fun c => list_of (size c)) m L c _ _ _ x Hi Hc Bt) as (m' & r & L' & E1 & Hi' & _ & Rm & _ & K). { right. apply list_flags, Hs. }
  exists m', r, (flat (L c)). split; [exact E1|]. split; [eapply Inv_shows; eauto|].
  destruct K as [(D & Eit & F & Z)|(D & F & Eit)].
  - right. split; [exact Eit|]. split; [congruence|]. rewrite firstn_skipn in F. rewrite <- F. eapply Inv_shows; eauto.
  - left. rewrite firstn_length in Eit. split; [exact Eit|]. split.
    + pose proof Hi' as [Wm' G' C' _ _]. destruct (locate (L' c) (Nat.min k (length (flat (L c))))) as (u & p & a & y & b & v & EL & Ek).
      { rewrite F, app_length, firstn_length. cbn. lia. }
      rewrite Eit, (itr_loc m' L' [] c (t_cap (list_of (size c))) Wm' Hc (G' c Hc) ltac:(lia) _ _ _ _ _ _ _ EL Ek).
      destruct (loc_facts m' L' [] c (t_cap (list_of (size c))) Wm' Hc (G' c Hc) ltac:(lia) _ _ _ _ _ _ EL) as (_ & -> & _). f_equal.
      destruct (at_skipn _ _ _ _ _ _ _ _ _ EL Ek) as (Es & _). rewrite F in Es.
      replace (Nat.min k (length (flat (L c)))) with (length (firstn k (flat (L c)))) in Es by apply firstn_length.
      rewrite skipn_app, skipn_all, Nat.sub_diag in Es. cbn in Es. congruence.
    + fold (insert_at k x (flat (L c))) in F. rewrite <- F. eapply Inv_shows; eauto.
Qed.
Print Assumptions C41_insert.

(** An insertion in the middle of a full page. *)
Example C41_example_insert :
  let t := list_of 1000 in
  match calls (fun c => t) (cont_mem 0 100) [(1, PushBack 1); (1, PushBack 2); (1, PushBack 3); (1, PushBack 4)] with
  | Some (m, _) =>
      match c_insert t 1 m (itr_at m 1 2) 9 with
      | COk (m', r) => r_itr r = mkI true 2 2 E_none /\ r_itr r = itr_at m' 1 2 /\ c_deref m' (r_itr r) = Some 9 /\ i_page (itr_at m' 1 3) = 3
      | _ => False
      end
  | None => False
  end.
Proof. vm_compute. repeat split. Qed.

(** erase() of the item at position [k] returns the iterator at that position (end() if the item was the last)
    exactly when the erasure is not one of those described by [lost].  After the others no position has the
    returned iterator, and end() is not it either.
    What is missing: the statement itself for the lost ones; see C41_erase_refuted. *)
Theorem C41_erase_partial : forall A (zero : A) room size h m outs c k,
  2 <= room <= 2 ^ 51 -> (forall c, 1 <= size c <= 2034) -> Forall (fun e => fst e <> 0) h ->
  calls (fun c => list_of (size c)) (cont_mem zero room) h = Some (m, outs) -> c <> 0 ->
  forall l, shows m c l -> (k < length l)%nat ->
  exists m' r, c_erase (list_of (size c)) c m (itr_at m c k) = COk (m', r) /\ shows m' c (erase_at k l) /\
    (lost (list_of (size c)) m (itr_at m c k) = false -> r_itr r = itr_at m' c k) /\
    (lost (list_of (size c)) m (itr_at m c k) = true -> forall j, r_itr r <> itr_at m' c j).
Proof.
  intros A zero rm size h m outs c k Hr Hs Hh E Hc l Sh Hk.
  destruct (runs_start zero rm (fun c => list_of (size c)) size h Hr) as (m0 & outs0 & s & L & E0 & Ei & Hi & Ef & Er & N).
  { intro d. split; [left; auto|]. specialize (Hs d). lia. }
  { eapply Forall_impl; [|exact Hh]. intros [d o] Hd. split; [exact Hd|]. left. split; [reflexivity|apply Hs]. }
  rewrite E in E0. injection E0 as <- <-. pose proof Hi as [Wm G C T R]. pose proof (C c Hc) as Hcap.
  assert (El : l = flat (L c)).
  { destruct (Inv_shows _ _ _ _ Hi Hc) as (_ & _ & _ & _ & V & _). destruct Sh as (_ & _ & _ & _ & V' & _).
    clear - V V'. revert V V'. generalize (c_begin c m). generalize (flat (L c)). induction l as [|x l IH]; intros [|y l'] i V V'; cbn in V, V'; auto; [destruct V; congruence|destruct V'; congruence|].
    destruct V as (_ & _ & D & V), V' as (_ & _ & D' & V'). f_equal; [congruence|eauto]. }
  subst l. destruct (ers_step (fun c => list_of (size c)) m L c k Hi Hc Hk) as (m' & r & L' & E1 & Hi' & _ & _ & _ & F & K1 & K2).
  exists m', r. split; [exact E1|]. split; [rewrite <- F; eapply Inv_shows; eauto|]. split; [exact K1|].
  intros Lo j. destruct (K2 Lo) as (In1 & In2). eapply lost_itr; eauto. pose proof (pgs_bnd _ _ _ _ _ Wm Hc In1) as B. pose proof (w_sz _ _ _ Wm). lia.
Qed.
Print Assumptions C41_erase_partial.

(** Both kinds of erasure. *)
Example C41_example_erase :
  let t := list_of 1000 in
  match calls (fun c => t) (cont_mem 0 100) [(1, PushBack 1); (1, PushBack 2); (1, PushBack 3); (1, PushBack 4); (1, PushBack 5)] with
  | Some (m, _) => lost t m (itr_at m 1 1) = false /\ lost t m (itr_at m 1 3) = false /\ lost t m (itr_at m 1 4) = true
  | None => False
  end.
Proof. vm_compute. repeat split. Qed.

(** Witnesses for the refutations below. *)
Definition mem_of (r : option (mem Z * list outcome)) : mem Z := match r with Some (m, _) => m | None => cont_mem 0 100 end.
Definition outs_of (r : option (mem Z * list outcome)) : list outcome := match r with Some (_, o) => o | None => [] end.
Definition ers_mem (r : cres (mem Z * result2 Z)) : mem Z := match r with COk (m, _) => m | _ => cont_mem 0 100 end.
Definition ers_res (r : cres (mem Z * result2 Z)) : result2 Z := match r with COk (_, r) => r | _ => no_result (cont_mem 0 100) end.
Definition clr_mem (r : cres (mem Z)) : mem Z := match r with COk m => m | _ => cont_mem 0 100 end.

(** Erasing the only item does not return end(), nor any other iterator of the list: a loop that erases until
    end() goes on with a freed page.  The same happens in the middle of a list. *)
Theorem C41_erase_refuted : exists h1 m1 o1 m1' r1 h2 m2 o2 m2' r2,
  calls (fun c => list_of 1000) (cont_mem 0 100) h1 = Some (m1, o1) /\ shows m1 1 [5] /\
  c_erase (list_of 1000) 1 m1 (itr_at m1 1 0) = COk (m1', r1) /\ shows m1' 1 [] /\ citr_eqb (r_itr r1) (c_end 1 m1') = false /\
  calls (fun c => list_of 2000) (cont_mem 0 100) h2 = Some (m2, o2) /\ shows m2 1 [1; 2; 3; 4; 5] /\
  c_erase (list_of 2000) 1 m2 (itr_at m2 1 3) = COk (m2', r2) /\ shows m2' 1 [1; 2; 3; 5] /\
  c_deref m2 (itr_at m2 1 4) = Some 5 /\ citr_eqb (r_itr r2) (itr_at m2' 1 3) = false.
Proof.
  pose (h1 := [(1, PushBack 5)] : list (Z * op Z)).
  pose (h2 := [(1, PushBack 1); (1, PushBack 2); (1, PushBack 3); (1, PushBack 4); (1, PushBack 5)] : list (Z * op Z)).
  pose (c1 := calls (fun c => list_of 1000) (cont_mem 0 100) h1). pose (e1 := c_erase (list_of 1000) 1 (mem_of c1) (itr_at (mem_of c1) 1 0)).
  pose (c2 := calls (fun c => list_of 2000) (cont_mem 0 100) h2). pose (e2 := c_erase (list_of 2000) 1 (mem_of c2) (itr_at (mem_of c2) 1 3)).
  exists h1, (mem_of c1), (outs_of c1), (ers_mem e1), (ers_res e1), h2, (mem_of c2), (outs_of c2), (ers_mem e2), (ers_res e2).
  split; [vm_compute; reflexivity|]. split; [vm_compute; repeat split|]. split; [vm_compute; reflexivity|]. split; [vm_compute; repeat split|]. split; [vm_compute; reflexivity|].
  split; [vm_compute; reflexivity|]. split; [vm_compute; repeat split|]. split; [vm_compute; reflexivity|]. split; [vm_compute; repeat split|]. split; vm_compute; reflexivity.
Qed.
Print Assumptions C41_erase_refuted.

(** * C42 *)

(** Iteration over any container after any history of supported calls: from begin() with ++ to end(), from the
    last item with -- to rbegin(), one reads the items in order; ++ leaves rbegin() for begin() and stays at
    end(), -- leaves end() for the last item.  Iterators are equal exactly if they stand at the same position. *)
Theorem C42_iteration : forall A (zero : A) room ts size h m outs c,
  2 <= room <= 2 ^ 51 ->
  (forall d, (ts d = list_of (size d) \/ ts d = stack_of (size d)) /\ 1 <= size d <= 4069) ->
  Forall (fun e => fst e <> 0 /\ supported (ts (fst e)) (size (fst e)) (snd e)) h ->
  calls ts (cont_mem zero room) h = Some (m, outs) -> c <> 0 ->
  exists s, ideals empties h outs = Some s /\
    visits m c (c_begin c m) (s c) /\ visits_back m c (c_rend c m) (rev (s c)) /\
    c_next c m (c_rbegin c m) = c_begin c m /\ c_next c m (c_end c m) = c_end c m /\ c_prev c m (c_end c m) = c_rend c m /\
    itr_at m c (length (s c)) = c_end c m /\
    (forall j k, (j <= length (s c))%nat -> (k <= length (s c))%nat ->
       citr_eqb (itr_at m c j) (itr_at m c k) = (j =? k)%nat /\ citr_eqb (itr_at m c k) (c_rbegin c m) = false).
Proof.
  intros A zero rm ts size h m outs c Hr Ht Hh E Hc.
  destruct (runs_start zero rm ts size h Hr Ht Hh) as (m0 & outs0 & s & L & E0 & Ei & Hi & Ef & _ & N).
  rewrite E in E0. injection E0 as <- <-. exists s. split; [exact Ei|].
  destruct (Inv_shows _ _ _ _ Hi Hc) as (_ & _ & _ & _ & V & Vb). rewrite <- (Ef c Hc) in V, Vb. split; [exact V|]. split; [exact Vb|]. split; [reflexivity|].
  destruct Hi as [Wm G C T R]. pose proof (C c Hc). split; [eapply (next_end m L [] c (t_cap (ts c))); eauto; lia|]. split; [reflexivity|]. rewrite (Ef c Hc).
  split; [eapply (itr_end m L [] c (t_cap (ts c))); eauto; lia|]. intros j k Hj Hk.
  split; [eapply (itr_eqb_pos m L [] c (t_cap (ts c))); eauto; lia|eapply (itr_eqb_rbegin m L [] c (t_cap (ts c))); eauto; lia].
Qed.
Print Assumptions C42_iteration.

(** The history of C38_example, whose list lies on three pages. *)
Example C42_example :
  match calls (fun c => list_of 1000) (cont_mem 0 100) h38 with
  | Some (m, _) => visits m 7 (c_begin 7 m) [17; 10; 11; 18; 19] /\ visits_back m 7 (c_rend 7 m) [19; 18; 11; 10; 17] /\ i_page (c_begin 7 m) <> i_page (c_rend 7 m)
  | None => False
  end.
Proof. vm_compute. repeat split. discriminate. Qed.

(** * C43 *)

(** Any history of supported calls runs to its end, so no item is written outside a page ([COob] would make
    [calls] fail); every item lies within the 4096 bytes of its page, behind the 27 bytes of the page header.
    What is missing: insertions before the end of a stack, or of a list with one item per page; see
    C43_one_item_refuted. *)
Theorem C43_pages_hold_items_partial : forall A (zero : A) room ts size h,
  2 <= room <= 2 ^ 51 ->
  (forall d, (ts d = list_of (size d) \/ ts d = stack_of (size d)) /\ 1 <= size d <= 4069) ->
  Forall (fun e => fst e <> 0 /\ supported (ts (fst e)) (size (fst e)) (snd e)) h ->
  exists m outs, calls ts (cont_mem zero room) h = Some (m, outs) /\
    forall c k, c <> 0 -> can_deref (itr_at m c k) = true ->
      let i := itr_at m c k in
      0 <= i_item i < p_cnt (pages m (i_page i)) /\ 27 + p_cnt (pages m (i_page i)) * size c <= 4096 /\ 2 <= i_page i < fsize m.
Proof.
  intros A zero rm ts size h Hr Ht Hh.
  destruct (runs_start zero rm ts size h Hr Ht Hh) as (m & outs & s & L & E & Ei & Hi & Ef & _ & N).
  exists m, outs. split; [exact E|]. intros c k Hc Hd i. pose proof Hi as [Wm G C T R]. pose proof (C c Hc) as Hcap.
  destruct (Nat.ltb_spec k (length (flat (L c)))) as [Hk|Hk].
  - destruct (locate (L c) k Hk) as (u & p & a & x & b & v & EL & Ek).
    unfold i. rewrite (itr_loc m L [] c (t_cap (ts c)) Wm Hc (G c Hc) ltac:(lia) k _ _ _ _ _ _ EL Ek). cbn [i_item i_page].
    destruct (page_items _ _ _ _ _ _ _ _ Wm Hc EL) as (Ic & _). fold (zl (a ++ x :: b)) in Ic. rewrite Ic.
    destruct (page_good L c (t_cap (ts c)) (G c Hc) _ _ _ _ EL) as (_ & Hl). destruct (page_bnd _ _ _ _ _ _ _ _ Wm Hc EL) as (B1 & B2).
    assert (K : t_cap (ts c) * size c + 27 <= 4096) by (destruct (Ht c) as ([-> | ->] & Hs); apply cap_ok; auto).
    assert (1 <= size c) by (destruct (Ht c); lia).
    split; [rewrite zl_app, zl_cons; pose proof (zl_pos a); pose proof (zl_pos b); lia|]. split; [nia|lia].
  - exfalso. rewrite (itr_end m L [] c (t_cap (ts c)) Wm Hc (G c Hc) ltac:(lia) k Hk), deref_end in Hd. discriminate.
Qed.
Print Assumptions C43_pages_hold_items_partial.

(** The hypotheses are met by C39_example; there, an item of 4000 bytes: *)
Example C43_example :
  match calls ts39 (cont_mem 0 100) h39 with
  | Some (m, _) => itr_at m 5 0 = mkI true 2 0 E_none /\ p_cnt (pages m 2) = 1 /\ p_cnt (pages m 4) = 2
  | None => False
  end.
Proof. vm_compute. repeat split. Qed.

(** push_front() on a list with items of 3000 bytes, one on a page, and on a stack whose page is full, writes
    behind the end of the page. *)
Theorem C43_one_item_refuted : exists h1 m1 o1 h2 m2 o2,
  calls (fun c => list_of 3000) (cont_mem 0 100) h1 = Some (m1, o1) /\ c_push_front (list_of 3000) 1 m1 6 = COob /\
  calls (fun c => stack_of 2000) (cont_mem 0 100) h2 = Some (m2, o2) /\ c_push_front (stack_of 2000) 1 m2 6 = COob /\
  c_insert (stack_of 2000) 1 m2 (itr_at m2 1 1) 6 = COob.
Proof.
  pose (h1 := [(1, PushBack 5)] : list (Z * op Z)). pose (h2 := [(1, PushBack 5); (1, PushBack 5)] : list (Z * op Z)).
  pose (c1 := calls (fun c => list_of 3000) (cont_mem 0 100) h1). pose (c2 := calls (fun c => stack_of 2000) (cont_mem 0 100) h2).
  exists h1, (mem_of c1), (outs_of c1), h2, (mem_of c2), (outs_of c2).
  split; [vm_compute; reflexivity|]. split; [vm_compute; reflexivity|]. split; [vm_compute; reflexivity|]. split; vm_compute; reflexivity.
Qed.
Print Assumptions C43_one_item_refuted.

(** * C35, C36 and C40 for containers *)

(** After any history of insertions and erasures no page holds items of two containers, and none of their
    pages is the root page or the start page.  What is missing: clear(); see C35_containers_refuted. *)
Theorem C35_containers_partial : forall A (zero : A) room ts size h m outs c d j k,
  2 <= room <= 2 ^ 51 ->
  (forall d, (ts d = list_of (size d) \/ ts d = stack_of (size d)) /\ 1 <= size d <= 4069) ->
  Forall (fun e => fst e <> 0 /\ supported (ts (fst e)) (size (fst e)) (snd e)) h ->
  calls ts (cont_mem zero room) h = Some (m, outs) -> c <> 0 -> d <> 0 -> c <> d ->
  can_deref (itr_at m c j) = true -> can_deref (itr_at m d k) = true ->
  i_page (itr_at m c j) <> i_page (itr_at m d k) /\ 2 <= i_page (itr_at m c j) < fsize m.
Proof.
  intros A zero rm ts size h m outs c d j k Hr Ht Hh E Hc Hd Hcd D1 D2.
  destruct (runs_start zero rm ts size h Hr Ht Hh) as (m0 & outs0 & s & L & E0 & Ei & Hi & Ef & _ & N).
  rewrite E in E0. injection E0 as <- <-. pose proof Hi as [Wm G C T R].
  assert (K : forall c k, c <> 0 -> can_deref (itr_at m c k) = true -> In (i_page (itr_at m c k)) (pgs (L c))).
  { clear - Wm G C. intros c k Hc Hd. pose proof (C c Hc) as Hcap. destruct (Nat.ltb_spec k (length (flat (L c)))) as [Hk|Hk].
    - destruct (locate (L c) k Hk) as (u & p & a & x & b & v & EL & Ek).
      rewrite (itr_loc m L [] c (t_cap (ts c)) Wm Hc (G c Hc) ltac:(lia) k _ _ _ _ _ _ EL Ek), EL. cbn [i_page]. unfold pgs. rewrite map_app. apply in_or_app. right. left. reflexivity.
    - exfalso. rewrite (itr_end m L [] c (t_cap (ts c)) Wm Hc (G c Hc) ltac:(lia) k Hk), deref_end in Hd. discriminate. }
  split; [|apply (w_bnd _ _ _ Wm); right; exists c; split; [exact Hc|apply K; auto]]. intro Eq. apply (w_dis _ _ _ Wm c d (i_page (itr_at m c j)) Hc Hd Hcd); [apply K; auto|]. rewrite Eq. apply K; auto.
Qed.
Print Assumptions C35_containers_partial.

(** The hypotheses are met by the history of C39_example. *)
Example C35_containers_example :
  match calls ts39 (cont_mem 0 100) h39 with
  | Some (m, _) => can_deref (itr_at m 5 0) = true /\ can_deref (itr_at m 6 1) = true /\ fsize m = 6
  | None => False
  end.
Proof. vm_compute. repeat split. Qed.

(** clear() of a list while no page is free: the list keeps its page, which is also handed out to another list;
    what is pushed to one is then seen in the other. *)
Theorem C35_containers_refuted : exists h m o m' h' m'' o',
  calls (fun c => list_of 1000) (cont_mem 0 100) h = Some (m, o) /\ c_clear 1 m = COk m' /\
  calls (fun c => list_of 1000) m' h' = Some (m'', o') /\ h' = [(2, PushBack 7)] /\
  i_page (itr_at m'' 1 0) = i_page (itr_at m'' 2 0) /\ c_front 1 m'' = Some 7 /\ c_front 2 m'' = Some 7.
Proof.
  pose (h := [(1, PushBack 5)] : list (Z * op Z)). pose (c1 := calls (fun c => list_of 1000) (cont_mem 0 100) h).
  pose (m1 := clr_mem (c_clear 1 (mem_of c1))). pose (h' := [(2, PushBack 7)] : list (Z * op Z)). pose (c2 := calls (fun c => list_of 1000) m1 h').
  exists h, (mem_of c1), (outs_of c1), m1, h', (mem_of c2), (outs_of c2).
  split; [vm_compute; reflexivity|]. split; [vm_compute; reflexivity|]. split; [vm_compute; reflexivity|]. split; [reflexivity|]. split; [vm_compute; reflexivity|]. split; vm_compute; reflexivity.
Qed.
Print Assumptions C35_containers_refuted.

(** erase_page() frees the page twice, and of several pages freed in turn only the last is handed out again: the
    pool grows although it has free pages. *)
Theorem C36_containers_refuted : exists h m o h' m' o',
  calls (fun c => list_of 1000) (cont_mem 0 100) h = Some (m, o) /\ h = [(1, PushBack 5); (2, PushBack 6); (3, PushBack 7); (1, PopBack); (2, PopBack); (3, PopBack)] /\
  fsize m = 5 /\ c_empty 1 m = true /\ c_empty 2 m = true /\ c_empty 3 m = true /\
  calls (fun c => list_of 1000) m h' = Some (m', o') /\ h' = [(1, PushBack 5); (2, PushBack 6); (3, PushBack 7)] /\ fsize m' = 7.
Proof.
  pose (h := [(1, PushBack 5); (2, PushBack 6); (3, PushBack 7); (1, PopBack); (2, PopBack); (3, PopBack)] : list (Z * op Z)). pose (c1 := calls (fun c => list_of 1000) (cont_mem 0 100) h).
  pose (h' := [(1, PushBack 5); (2, PushBack 6); (3, PushBack 7)] : list (Z * op Z)). pose (c2 := calls (fun c => list_of 1000) (mem_of c1) h').
  exists h, (mem_of c1), (outs_of c1), h', (mem_of c2), (outs_of c2).
  split; [vm_compute; reflexivity|]. split; [reflexivity|]. split; [vm_compute; reflexivity|]. split; [vm_compute; reflexivity|]. split; [vm_compute; reflexivity|]. split; [vm_compute; reflexivity|].
  split; [vm_compute; reflexivity|]. split; [reflexivity|]. vm_compute. reflexivity.
Qed.
Print Assumptions C36_containers_refuted.

(** clear() never sets the size of a container to 0, even when its pages go to the free list. *)
Theorem C40_size_refuted : exists h m o m',
  calls (fun c => list_of 1000) (cont_mem 0 100) h = Some (m, o) /\ c_clear 1 m = COk m' /\ c_empty 1 m' = true /\ c_size 1 m' = 2.
Proof.
  pose (h := [(2, PushBack 9); (1, PushBack 5); (1, PushBack 6); (2, PopBack)] : list (Z * op Z)). pose (c1 := calls (fun c => list_of 1000) (cont_mem 0 100) h).
  exists h, (mem_of c1), (outs_of c1), (clr_mem (c_clear 1 (mem_of c1))).
  split; [vm_compute; reflexivity|]. split; [vm_compute; reflexivity|]. split; vm_compute; reflexivity.
Qed.
Print Assumptions C40_size_refuted.
