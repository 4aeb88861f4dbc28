(** Calls with ranges: C103, C104, C105. *)

From Coq Require Import ZArith List Bool Lia.
From Verif Require Import Base Cache_Model Linked_Model Linked_Proofs Cont_Model Cont_Spec Cont_Proofs Cont_Steps Cont_Erase Cont_Runs Map_Model Map_Spec Map_Proofs Map_Props Range_Model Range_Spec Range_Proofs.
Import ListNotations.
Open Scope Z_scope.

(** * C103 *)

(** In every state that a history of calls leaves behind: items inserted as a range before the item number [k] stand there
    in their order, and the iterator returned is at the first of them, if the item is not the last one on its page and the
    page has room for all of them.  Missing: all other places, refuted below. *)
Theorem C103_inside_partial : forall A (zero : A) rm size h m outs c k xs l, 2 <= rm <= 2 ^ 51 -> (forall c, 1 <= size c <= 2034) -> Forall (fun e => fst e <> 0) h ->
  calls (fun c => list_of (size c)) (cont_mem zero rm) h = Some (m, outs) -> c <> 0 -> shows m c l -> (k < length l)%nat ->
  room_inside (list_of (size c)) m (itr_at m c k) (length xs) ->
  exists m', c_insert_range (list_of (size c)) c m (itr_at m c k) xs = COk (m', itr_at m' c k) /\ shows m' c (insert_all k xs l) /\
    (forall d w, d <> 0 -> d <> c -> shows m d w -> shows m' d w).
Proof.
  intros A zero rm size h m outs c k xs l Hr Hs Hh E Hc Sh Hk (R1 & R2). destruct (history_inv zero rm size h m outs Hr Hs Hh E) as (L & I & U).
  pose proof (U c l Hc Sh) as ->. pose proof I as [Wm G C T R]. pose proof (C c Hc) as HC.
  destruct (locate (L c) k Hk) as (u & p & a & y & b & v & EL & Ek).
  pose proof (itr_loc m L [] c (t_cap (list_of (size c))) Wm Hc (G c Hc) ltac:(lia) k _ _ _ _ _ _ EL Ek) as EI. rewrite EI in R1, R2. cbn [i_item i_page] in R1, R2.
  destruct (page_items _ _ _ _ _ _ _ _ Wm Hc EL) as (Ic & _). fold (zl (a ++ y :: b)) in Ic. rewrite Ic in R1, R2.
  destruct b as [|z b]; [rewrite zl_app, zl_cons, zl_nil in R1; lia|].
  destruct (insert_inside (fun c => list_of (size c)) c xs m L u p a y z b v I Hc EL R2) as (m' & L' & E' & I' & EL' & O').
  exists m'. pose proof I' as [Wm' G' C' _ _]. assert (FS : flat (L' c) = insert_all k xs (flat (L c))).
  { unfold insert_all. destruct (at_skipn _ _ _ _ _ _ _ _ _ EL Ek) as (-> & ->). rewrite EL', flat_app, flat_cons, <- !app_assoc. reflexivity. }
  split; [|split; [rewrite <- FS; eapply Inv_shows; eauto|]].
  - unfold c_insert_range. rewrite EI, E'. cbn [cbind]. do 2 f_equal.
    destruct xs as [|x xs]; symmetry; eapply (itr_loc m' L' [] c (t_cap (list_of (size c)))); eauto; lia.
  - intros d w Hd Hdc Sw. pose proof (U d w Hd Sw) as ->. rewrite <- (O' d Hdc). eapply Inv_shows; eauto.
Qed.
Print Assumptions C103_inside_partial.

(** Items inserted as a range at end() of a list that is not empty are appended, if the last page has room for them.  The
    iterator returned is end() and not at the first of them, though. *)
Theorem C103_append_partial : forall A (zero : A) rm size h m outs c xs l, 2 <= rm <= 2 ^ 51 -> (forall c, 1 <= size c <= 2034) -> Forall (fun e => fst e <> 0) h ->
  calls (fun c => list_of (size c)) (cont_mem zero rm) h = Some (m, outs) -> c <> 0 -> shows m c l -> l <> [] ->
  room_behind (list_of (size c)) m c (length xs) ->
  exists m', c_insert_range (list_of (size c)) c m (c_end c m) xs = COk (m', c_end c m') /\ shows m' c (l ++ xs) /\
    (forall d w, d <> 0 -> d <> c -> shows m d w -> shows m' d w).
Proof.
  intros A zero rm size h m outs c xs l Hr Hs Hh E Hc Sh Hl RB. destruct (history_inv zero rm size h m outs Hr Hs Hh E) as (L & I & U).
  pose proof (U c l Hc Sh) as ->. pose proof I as [Wm G C T R]. pose proof (C c Hc) as HC.
  destruct (ends_case (L c)) as [EL|(u & [p a] & EL)]; [rewrite EL in Hl; contradiction Hl; reflexivity|].
  unfold room_behind in RB. rewrite (W_states _ _ _ _ Wm Hc), EL in RB. cbn [back] in RB. rewrite last_pgs in RB.
  destruct (page_items _ _ _ _ _ _ _ _ Wm Hc EL) as (Ic & _). rewrite Ic in RB.
  destruct (insert_behind (fun c => list_of (size c)) c xs m L u p a I Hc EL RB) as (m' & L' & E' & I' & EL' & O' & EE).
  exists m'. split; [unfold c_insert_range; rewrite E', EE; reflexivity|]. split.
  - replace (flat (L c) ++ xs) with (flat (L' c)); [eapply Inv_shows; eauto|]. rewrite EL, EL', !flat_app, !flat_cons. cbn. rewrite !app_nil_r, app_assoc. reflexivity.
  - intros d w Hd Hdc Sw. pose proof (U d w Hd Sw) as ->. rewrite <- (O' d Hdc). eapply Inv_shows; eauto.
Qed.
Print Assumptions C103_append_partial.

(** Lists of items of 500 bytes, 8 on a page. *)
Definition fill (l : list Z) : list (Z * op Z) := map (fun x => (1, PushBack x)) l.
Definition filled (l : list Z) : mem Z := match calls (fun _ => list_of 500) (cont_mem 0 100) (fill l) with Some (m, _) => m | None => cont_mem 0 100 end.
Definition outs_filled (l : list Z) : list outcome := match calls (fun _ => list_of 500) (cont_mem 0 100) (fill l) with Some (_, o) => o | None => [] end.
Definition mem_after {B} (r : cres (mem Z * B)) : mem Z := match r with COk (m, _) => m | _ => cont_mem 0 100 end.
Definition itr_after (r : cres (mem Z * citr)) : citr := match r with COk (_, i) => i | _ => no_itr end.
Definition is_ok {B} (r : cres B) : bool := match r with COk _ => true | _ => false end.
Lemma ok_after (r : cres (mem Z * citr)) : is_ok r = true -> r = COk (mem_after r, itr_after r).
Proof. destruct r as [[m i]| | |]; [reflexivity|discriminate..]. Qed.
Lemma ok_filled l : match calls (fun _ => list_of 500) (cont_mem 0 100) (fill l) with Some _ => true | None => false end = true -> calls (fun _ => list_of 500) (cont_mem 0 100) (fill l) = Some (filled l, outs_filled l).
Proof. unfold filled, outs_filled. destruct (calls _ _ _) as [[m o]|]; [reflexivity|discriminate]. Qed.
Example C103_inside_case : calls (fun _ => list_of 500) (cont_mem 0 100) (fill [1; 2; 3; 4; 5; 6; 7; 8; 9; 10; 11]) = Some (filled [1; 2; 3; 4; 5; 6; 7; 8; 9; 10; 11], outs_filled [1; 2; 3; 4; 5; 6; 7; 8; 9; 10; 11]) /\
  shows (filled [1; 2; 3; 4; 5; 6; 7; 8; 9; 10; 11]) 1 [1; 2; 3; 4; 5; 6; 7; 8; 9; 10; 11] /\
  room_inside (list_of 500) (filled [1; 2; 3; 4; 5; 6; 7; 8; 9; 10; 11]) (itr_at (filled [1; 2; 3; 4; 5; 6; 7; 8; 9; 10; 11]) 1 9) 5 /\
  room_behind (list_of 500) (filled [1; 2; 3; 4; 5; 6; 7; 8; 9; 10; 11]) 1 5 /\
  insert_all 9 [21; 22; 23; 24; 25] [1; 2; 3; 4; 5; 6; 7; 8; 9; 10; 11] = [1; 2; 3; 4; 5; 6; 7; 8; 9; 21; 22; 23; 24; 25; 10; 11].
Proof. split; [apply ok_filled; vm_compute; reflexivity|]. split; [vm_compute; repeat split|]. split; [vm_compute; split; [reflexivity|discriminate]|]. split; [vm_compute; discriminate|reflexivity]. Qed.

(** Before the last item of a page, the items are torn apart; when the last page is full, those appended get out of order,
    and the iterator returned is not at the first of them; into an empty list, the second item is refused with an exception;
    inside of a page that overflows, items are written outside of the page. *)
Theorem C103_refuted :
  (let m := filled [10; 20] in exists m' i, c_insert_range (list_of 500) 1 m (itr_at m 1 1) [1; 2] = COk (m', i) /\ shows m 1 [10; 20] /\ shows m' 1 [10; 1; 20; 2]) /\
  (let m := filled [10; 20; 30; 40; 50; 60; 70] in exists m' i, c_insert_range (list_of 500) 1 m (c_end 1 m) [1; 2; 3; 4] = COk (m', i) /\ shows m' 1 [10; 20; 30; 40; 50; 60; 70; 1; 3; 4; 2] /\
     citr_eqb i (itr_at m' 1 7) = false) /\
  c_insert_range (list_of 500) 1 (filled []) (c_end 1 (filled [])) [1; 2] = CThrow /\
  (let m := filled [1; 2; 3; 4; 5; 6; 7; 8] in c_insert_range (list_of 500) 1 m (itr_at m 1 6) [10; 20] = COob).
Proof.
  split; [|split; [|split]].
  - cbn zeta. eexists _, _. split; [apply ok_after; vm_compute; reflexivity|]. split; vm_compute; repeat split.
  - cbn zeta. eexists _, _. split; [apply ok_after; vm_compute; reflexivity|]. split; [vm_compute; repeat split|vm_compute; reflexivity].
  - vm_compute. reflexivity.
  - vm_compute. reflexivity.
Qed.
Print Assumptions C103_refuted.

(** * C104 *)

(** erase(begin(), end()) empties every list, in as many turns as it has items, and leaves the others alone. *)
Theorem C104_all : forall A (zero : A) rm size h m outs c l, 2 <= rm <= 2 ^ 51 -> (forall c, 1 <= size c <= 2034) -> Forall (fun e => fst e <> 0) h ->
  calls (fun c => list_of (size c)) (cont_mem zero rm) h = Some (m, outs) -> c <> 0 -> shows m c l ->
  exists m' i, c_erase_range (list_of (size c)) c (length l) m (c_begin c m) (c_end c m) = Some (COk (m', i)) /\ shows m' c [] /\ can_deref i = false /\
    (forall d w, d <> 0 -> d <> c -> shows m d w -> shows m' d w).
Proof.
  intros A zero rm size h m outs c l Hr Hs Hh E Hc Sh. destruct (history_inv zero rm size h m outs Hr Hs Hh E) as (L & I & U). pose proof (U c l Hc Sh) as ->.
  destruct (erase_all (fun c => list_of (size c)) c (c_end c m) (length (flat (L c))) m L I Hc eq_refl (le_n _)) as (m' & i & L' & E' & I' & EL' & CD & O').
  exists m', i. split; [exact E'|]. split; [replace ([] : list A) with (flat (L' c)) by (rewrite EL'; reflexivity); eapply Inv_shows; eauto|]. split; [exact CD|].
  intros d w Hd Hdc Sw. pose proof (U d w Hd Sw) as ->. rewrite <- (O' d Hdc). eapply Inv_shows; eauto.
Qed.
Print Assumptions C104_all.

(** erase(itr, end()) erases the items from the item number [k] on, if the list is on one page.  Missing: longer lists, and
    ranges that end before end(), refuted below. *)
Theorem C104_one_page_partial : forall A (zero : A) rm size h m outs c k l, 2 <= rm <= 2 ^ 51 -> (forall c, 1 <= size c <= 2034) -> Forall (fun e => fst e <> 0) h ->
  calls (fun c => list_of (size c)) (cont_mem zero rm) h = Some (m, outs) -> c <> 0 -> shows m c l -> (0 < k)%nat -> front (sts m c) = back (sts m c) ->
  exists m', c_erase_range (list_of (size c)) c (length l) m (itr_at m c k) (c_end c m) = Some (COk (m', c_end c m')) /\ shows m' c (firstn k l) /\
    (forall d w, d <> 0 -> d <> c -> shows m d w -> shows m' d w).
Proof.
  intros A zero rm size h m outs c k l Hr Hs Hh E Hc Sh Hk HF. destruct (history_inv zero rm size h m outs Hr Hs Hh E) as (L & I & U). pose proof (U c l Hc Sh) as ->.
  pose proof I as [Wm G C T R]. pose proof (C c Hc) as HC.
  destruct (Nat.leb_spec (length (flat (L c))) k) as [Hle|Hlt].
  { exists m. assert (EE : itr_at m c k = c_end c m) by (eapply (itr_end m L [] c (t_cap (list_of (size c)))); eauto; lia). rewrite EE. split; [unfold c_erase_range; apply erase_stops, deref_end|]. split; [rewrite firstn_all2 by lia; exact Sh|auto]. }
  assert (NL : L c <> []) by (intro EL; rewrite EL in Hlt; cbn in Hlt; lia).
  destruct (one_page _ _ _ _ I Hc HF NL) as (p & it & EL & EP). assert (FL : flat (L c) = it) by (rewrite EL, flat_cons; apply app_nil_r). rewrite FL in *.
  rewrite <- (firstn_skipn k it) in EL. assert (LA : length (firstn k it) = k) by (rewrite firstn_length; lia).
  destruct (erase_rest (fun c => list_of (size c)) c (length it) m L p (firstn k it) (skipn k it) I Hc EL) as (m' & L' & E' & I' & EL' & O').
  { intro Z. rewrite Z in LA. cbn in LA. lia. } { rewrite skipn_length. lia. }
  rewrite LA in E'. exists m'. split; [unfold c_erase_range, c_end at 1; rewrite <- HF, EP; exact E'|]. split; [replace (firstn k it) with (flat (L' c)) by (rewrite EL', flat_cons; apply app_nil_r); eapply Inv_shows; eauto|].
  intros d w Hd Hdc Sw. pose proof (U d w Hd Sw) as ->. rewrite <- (O' d Hdc). eapply Inv_shows; eauto.
Qed.
Print Assumptions C104_one_page_partial.

Definition long : list Z := map Z.of_nat (seq 1 30).
Example C104_all_case : shows (filled long) 1 long /\ i_page (itr_at (filled long) 1 29) = 5 /\ i_page (itr_at (filled long) 1 0) = 2.
Proof. split; [vm_compute; repeat split|split; reflexivity]. Qed.
Example C104_one_page_case : let m := filled [1; 2; 3; 4; 5; 6; 7] in shows m 1 [1; 2; 3; 4; 5; 6; 7] /\ front (sts m 1) = back (sts m 1) /\
  match c_erase_range (list_of 500) 1 7 m (itr_at m 1 2) (c_end 1 m) with Some (COk (m', i)) => shows m' 1 [1; 2] | _ => False end.
Proof. cbn zeta. split; [vm_compute; repeat split|]. split; [reflexivity|vm_compute; repeat split]. Qed.

(** A range that ends before end() on its page: all items behind it are erased as well.  A range of six items in a list on
    three pages: the loop gets to a page that is not part of the list any more, and after 200 turns it has not ended. *)
Theorem C104_refuted :
  (let m := filled [1; 2; 3; 4; 5; 6] in shows m 1 [1; 2; 3; 4; 5; 6] /\
     exists m' i, c_erase_range (list_of 500) 1 6 m (itr_at m 1 1) (itr_at m 1 3) = Some (COk (m', i)) /\ shows m' 1 [1]) /\
  (let m := filled (map Z.of_nat (seq 1 18)) in shows m 1 (map Z.of_nat (seq 1 18)) /\
     c_erase_range (list_of 500) 1 200 m (itr_at m 1 12) (c_end 1 m) = None).
Proof.
  cbn zeta. split; split.
  - vm_compute; repeat split.
  - pose (r := c_erase_range (list_of 500) 1 6 (filled [1; 2; 3; 4; 5; 6]) (itr_at (filled [1; 2; 3; 4; 5; 6]) 1 1) (itr_at (filled [1; 2; 3; 4; 5; 6]) 1 3)).
    exists (match r with Some x => mem_after x | None => cont_mem 0 100 end), (match r with Some x => itr_after x | _ => no_itr end). split; [|vm_compute; repeat split].
    fold r. assert (H : match r with Some x => is_ok x | None => false end = true) by (vm_compute; reflexivity). destruct r as [x|]; [|discriminate H]. rewrite (ok_after x H) at 1. reflexivity.
  - vm_compute; repeat split.
  - vm_compute. reflexivity.
Qed.
Print Assumptions C104_refuted.

(** * C105 *)

(** After every history of insertions and lookups as in C45_lowest_first_partial: items with new keys inserted as a range
    leave the map that inserting them one by one leaves.  Missing: ranges with keys that are there, refuted below. *)
Theorem C105_new_partial : forall V (s : msizes) junk rm (h : list (mop V)) es m outs, two_on_page s -> 2 <= rm <= 65535 ->
  let h' := h ++ one_by_one es in
  no_erase h' -> lowest_first (inserted h') -> (forall k, In k (inserted h') -> 0 <= k) -> (forall k, In k (called h') -> forall m pos i, junk m pos i <> k) ->
  roomy s junk (map_mem V rm) h' -> new_keys (map fst (fst (ideal_map [] h))) es -> mcalls s junk (map_mem V rm) h = Some (m, outs) ->
  exists m', m_insert_range s junk m es = COk m' /\ map_shows m' (fst (ideal_map [] h')) /\ (forall k v, In (k, v) es -> In (k, v) (fst (ideal_map [] h'))).
Proof.
  intros V s junk rm h es m outs Hs Hr h' HE HL HP HJ HM HN E.
  destruct (C45_lowest_first_partial V s junk rm h' Hs Hr HE HL HP HJ HM) as (m' & E' & S'). unfold h' in *.
  destruct (mcalls_app s junk h (one_by_one es) _ _ _ _ _ E E') as (o2 & E2 & EO). rewrite ideal_app in EO. cbn [snd] in EO. rewrite (new_all es _ HN) in EO.
  assert (LE : length outs = length (snd (ideal_map [] h))).
  { assert (LI : forall (h : list (mop V)) l, length (snd (ideal_map l h)) = length h). { clear. induction h as [|o h IH]; intro l; cbn [ideal_map]; [reflexivity|]. destruct (ideal_op l o) as [l1 o1]. specialize (IH l1). destruct (ideal_map l1 h). cbn in *. congruence. }
    assert (LC : forall (h : list (mop V)) m m' o, mcalls s junk m h = Some (m', o) -> length o = length h).
    { clear. induction h as [|x h IH]; intros m m' o H; cbn [mcalls] in H; [injection H as <- <-; reflexivity|]. destruct (mcall s junk m x) as [[m1 o1]|]; [|discriminate]. destruct (mcalls s junk m1 h) as [[m2 o2]|] eqn:E2; [|discriminate]. injection H as <- <-. cbn. f_equal. eauto. }
    rewrite LI. eapply LC; eauto. }
  assert (EO2 : o2 = repeat (Inserted true) (length es)).
  { assert (AI : forall (a a' b b' : list (mout V)), a ++ b = a' ++ b' -> length a' = length a -> b' = b).
    { clear. induction a as [|x a IH]; intros [|y a'] b b' H1 H2; cbn in *; try discriminate; [auto|]. injection H1 as _ H1. eauto. } eapply AI; eauto. }
  subst o2. exists m'. split; [eapply range_one_by_one; eauto|]. split; [exact S'|]. intros k v Hk. rewrite ideal_app. cbn [fst]. apply (put_kept es); auto.
Qed.
Print Assumptions C105_new_partial.

(** Keys on two levels, inserted as a range after others. *)
Definition before : list (mop Z) := inserts [1; 13; 7; 19; 4].
Definition more : list (Z * Z) := map (fun k => (k, 100 * k)) [22; 10; 16; 2; 14; 8; 20; 5; 11; 17; 23; 24].
Example C105_new_case : let h' := before ++ one_by_one more in two_on_page tall /\ no_erase h' /\ lowest_first (inserted h') /\ (forall k, In k (inserted h') -> 0 <= k) /\
  (forall k, In k (called h') -> forall m pos i, ones m pos i <> k) /\ roomy tall ones (map_mem Z 100) h' /\ new_keys (map fst (fst (ideal_map [] before))) more /\
  map fst (fst (ideal_map [] h')) = [1; 2; 4; 5; 7; 8; 10; 11; 13; 14; 16; 17; 19; 20; 22; 23; 24].
Proof.
  cbn zeta. split; [repeat split; discriminate|]. split; [intro k; cbn; intuition discriminate|]. split; [intros k H; cbn in H |- *; intuition lia|]. split; [intros k H; cbn in H; intuition lia|].
  split; [intros k H m pos i; cbn in H; unfold ones; intuition lia|]. split; [vm_compute; repeat split; discriminate|]. split; [|vm_compute; reflexivity].
  split; [cbn; repeat constructor; cbn; intuition lia|]. intros k H1 H2. cbn in H1, H2. intuition lia.
Qed.

(** The key 7 is there; of the range 3, 7, 5, only 3 is inserted. *)
Theorem C105_refuted : exists m m', mcalls tall ones (map_mem Z 100) (inserts [1; 7]) = Some (m, [Inserted true; Inserted true]) /\ m_insert_range tall ones m [(3, 300); (7, 700); (5, 500)] = COk m' /\
  map_shows m' [(1, 100); (3, 300); (7, 700)] /\ fst (ideal_map [] (inserts [1; 7; 3; 7; 5])) = [(1, 100); (3, 300); (5, 500); (7, 700)].
Proof.
  pose (m := mem_of (mcalls tall ones (map_mem Z 100) (inserts [1; 7]))). exists m, (match m_insert_range tall ones m [(3, 300); (7, 700); (5, 500)] with COk m' => m' | _ => m end).
  split; [vm_compute; reflexivity|]. split; [|split; [vm_compute; repeat split|vm_compute; reflexivity]].
  assert (H : is_ok (m_insert_range tall ones m [(3, 300); (7, 700); (5, 500)]) = true) by (vm_compute; reflexivity). destruct (m_insert_range tall ones m _); [reflexivity|discriminate H..].
Qed.
Print Assumptions C105_refuted.
