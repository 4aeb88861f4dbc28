(** Maps: C45, C46, C47, C67. *)

From Coq Require Import ZArith List Bool Lia Sorting.Sorted.
From Verif Require Import Base Cache_Model Linked_Model Cont_Model Cont_Spec Map_Model Map_Spec Map_Proofs Map_Page.
Import ListNotations.
Open Scope Z_scope.

(** Witnesses: keys of 8 bytes, values of 1009 bytes, so four values on a page; memory behind a page is -1. *)
Definition four : msizes := mkS 8 1009.
Definition ones : mem (mitem Z) -> Z -> Z -> Z := fun _ _ _ => -1.
Definition inserts (l : list Z) : list (mop Z) := map (fun k => MInsert k (100 * k)) l.
Definition mem_of (r : option (mem (mitem Z) * list (mout Z))) : mem (mitem Z) := match r with Some (m, _) => m | None => map_mem Z 100 end.
Definition outs_of (r : option (mem (mitem Z) * list (mout Z))) : option (list (mout Z)) := match r with Some (_, o) => Some o | None => None end.
Lemma runs_to r o : outs_of r = Some o -> r = Some (mem_of r, o).
Proof. destruct r as [[m o']|]; cbn; congruence. Qed.
Ltac runs := apply runs_to; vm_compute; reflexivity.

(** * C45 *)

(** Keys that were inserted are not found again:
    - after 10, 9, ..., 2 the keys 2, 3 and 4 are not found: a key below all others is put on the first page, but
      the key level keeps the key that page had before, so a later split puts its new page into the wrong place;
    - with negative keys, 0 is taken to be present: an unused slot of the page reads as the key 0;
    - an erased key is still found: its slot is still there. *)
Theorem C45_refuted : exists h1 m1 m2 m3,
  h1 = inserts [10; 9; 8; 7; 6; 5; 4; 3; 2] ++ [MFind 2; MFind 3; MFind 4; MFind 5] /\
  mcalls four ones (map_mem Z 100) h1 =
    Some (m1, repeat (Inserted true) 9 ++ [Found None; Found None; Found None; Found (Some (5, 500))]) /\
  snd (ideal_map [] h1) = repeat (Inserted true) 9 ++ map (fun k => Found (Some (k, 100 * k))) [2; 3; 4; 5] /\
  mcalls four ones (map_mem Z 100) [MInsert (-1) 7; MInsert 0 8] = Some (m2, [Inserted true; Inserted false]) /\
  snd (ideal_map [] [MInsert (-1) 7; MInsert 0 8]) = [Inserted true; Inserted true] /\
  mcalls four ones (map_mem Z 100) [MInsert 5 7; MInsert 6 8; MErase 6; MFind 6; MInsert 6 9] =
    Some (m3, [Inserted true; Inserted true; Erased 1; Found (Some (6, 8)); Inserted false]) /\
  snd (ideal_map [] [MInsert 5 7; MInsert 6 8; MErase 6; MFind 6; MInsert 6 9]) = [Inserted true; Inserted true; Erased 1; Found None; Inserted true].
Proof.
  pose (h1 := inserts [10; 9; 8; 7; 6; 5; 4; 3; 2] ++ [MFind 2; MFind 3; MFind 4; MFind 5]).
  exists h1, (mem_of (mcalls four ones (map_mem Z 100) h1)), (mem_of (mcalls four ones (map_mem Z 100) [MInsert (-1) 7; MInsert 0 8])),
    (mem_of (mcalls four ones (map_mem Z 100) [MInsert 5 7; MInsert 6 8; MErase 6; MFind 6; MInsert 6 9])).
  split; [reflexivity|]. do 2 (split; [runs|split; [vm_compute; reflexivity|]]). split; [runs|vm_compute; reflexivity].
Qed.
Print Assumptions C45_refuted.

(** In a pool without space, insert() reports success for a key it does not insert; and in a pool that has space
    for one page more, keys inserted before are lost. *)
Theorem C45_full_refuted : exists m1 m2,
  mcalls four ones (map_mem Z 3) (inserts [1; 2; 3; 4; 5] ++ [MFind 5]) = Some (m1, repeat (Inserted true) 5 ++ [Found None]) /\
  map_shows m1 [(1, 100); (2, 200); (3, 300); (4, 400)] /\
  mcalls four ones (map_mem Z 4) (inserts [1; 2; 3; 4; 5] ++ [MFind 5; MFind 4; MFind 2]) =
    Some (m2, repeat (Inserted true) 5 ++ [Found None; Found None; Found (Some (2, 200))]).
Proof.
  exists (mem_of (mcalls four ones (map_mem Z 3) (inserts [1; 2; 3; 4; 5] ++ [MFind 5]))),
    (mem_of (mcalls four ones (map_mem Z 4) (inserts [1; 2; 3; 4; 5] ++ [MFind 5; MFind 4; MFind 2]))).
  split; [runs|]. split; [vm_compute; repeat split|runs].
Qed.
Print Assumptions C45_full_refuted.

(** With one value on a page, which the constructor allows, the second key is written outside its page. *)
Theorem C45_one_value_refuted : exists s, 1 <= t_cap (t_vals s) /\ 2 <= t_cap (t_keys s) /\
  mcalls s ones (map_mem Z 100) (inserts [1; 2]) = None /\ m_insert s ones (mem_of (mcalls s ones (map_mem Z 100) (inserts [1]))) 2 200 = COob.
Proof. exists (mkS 8 4000). do 2 (split; [vm_compute; discriminate|]). split; vm_compute; reflexivity. Qed.
Print Assumptions C45_one_value_refuted.

(** What is true instead, for every history of insertions and lookups: the map answers like an ordinary map, if no key
    is less than the first one inserted and none is negative, and at least two values fit on a page; whatever lies in
    memory behind pages, as long as it does not look like a key of the history; and while the pool has room.
    Missing: erasures, smaller keys later, full pools; all refuted above. *)
Theorem C45_lowest_first_partial : forall V (s : msizes) junk rm (h : list (mop V)), two_on_page s -> 2 <= rm <= 65535 ->
  no_erase h -> lowest_first (inserted h) -> (forall k, In k (inserted h) -> 0 <= k) -> (forall k, In k (called h) -> forall m pos i, junk m pos i <> k) ->
  roomy s junk (map_mem V rm) h ->
  exists m, mcalls s junk (map_mem V rm) h = Some (m, snd (ideal_map [] h)) /\ map_shows m (fst (ideal_map [] h)).
Proof.
  intros V s junk rm h Hs Hr HE HL HP HJ HM. destruct (two_caps s Hs) as (C1 & C2).
  destruct (history_ok s junk C1 C2 h (map_mem V rm) 0 [] (rest_start s C1 C2 rm Hr) HE HP HJ (or_introl (conj eq_refl HL)) HM) as (m & n & E & R & _).
  exists m. split; [exact E|]. eapply rest_shows; eauto.
Qed.
Print Assumptions C45_lowest_first_partial.

(** The same for pools that are large enough for the number of calls. *)
Theorem C45_large_pool_partial : forall V (s : msizes) junk rm (h : list (mop V)), two_on_page s ->
  let n := Z.of_nat (length h) in 2 + n * (2 * n + 4) <= rm <= 65535 ->
  no_erase h -> lowest_first (inserted h) -> (forall k, In k (inserted h) -> 0 <= k) -> (forall k, In k (called h) -> forall m pos i, junk m pos i <> k) ->
  exists m, mcalls s junk (map_mem V rm) h = Some (m, snd (ideal_map [] h)) /\ map_shows m (fst (ideal_map [] h)).
Proof.
  intros V s junk rm h Hs n Hr HE HL HP HJ. assert (Hr' : 2 <= rm <= 65535) by (unfold n in Hr; nia).
  apply C45_lowest_first_partial; auto. destruct (two_caps s Hs) as (C1 & C2).
  apply (roomy_ok s junk C1 C2 (length h) h _ 0%nat [] 0%nat (rest_start s C1 C2 rm Hr')); auto; [left; auto|cbn; lia|cbn [map_mem cont_mem room]; unfold n in Hr; apply Hr].
Qed.
Print Assumptions C45_large_pool_partial.

(** Four values and four keys on a page: 24 keys need two levels of keys. *)
Definition tall : msizes := mkS 1000 9.
Definition mixed : list (mop Z) :=
  inserts [1; 13; 7; 19; 4; 10; 16; 22] ++ map MFind [7; 8; 22] ++ inserts [2; 14; 8; 20; 5; 11; 17; 23; 7] ++ inserts [24; 18; 12; 6; 3; 9; 15; 21] ++ map MFind [1; 12; 21; 24; 25; 0].
Example C45_lowest_first_case : two_on_page tall /\ no_erase mixed /\ lowest_first (inserted mixed) /\ (forall k, In k (inserted mixed) -> 0 <= k) /\
  (forall k, In k (called mixed) -> forall m pos i, ones m pos i <> k) /\ roomy tall ones (map_mem Z 100) mixed /\
  c_size c_keys (mem_of (mcalls tall ones (map_mem Z 100) mixed)) = 2 /\
  outs_of (mcalls tall ones (map_mem Z 100) mixed) = Some (repeat (Inserted true) 8 ++ [Found (Some (7, 700)); Found None; Found (Some (22, 2200))] ++ repeat (Inserted true) 8 ++ [Inserted false] ++
    repeat (Inserted true) 8 ++ [Found (Some (1, 100)); Found (Some (12, 1200)); Found (Some (21, 2100)); Found (Some (24, 2400)); Found None; Found None]).
Proof.
  split; [repeat split; discriminate|]. split; [intro k; cbn; intuition discriminate|]. split; [intros k H; cbn in H |- *; intuition lia|]. split; [intros k H; cbn in H; intuition lia|].
  split; [intros k H m pos i; cbn in H; unfold ones; intuition lia|]. split; [vm_compute; repeat split; discriminate|]. split; vm_compute; reflexivity.
Qed.
Example C45_large_pool_case : let h := inserts [5; 9; 7; 6; 8; 11; 10; 12; 5] ++ [MFind 11; MFind 4] in let n := Z.of_nat (length h) in
  2 + n * (2 * n + 4) <= 300 <= 65535 /\ no_erase h /\ lowest_first (inserted h) /\ (forall k, In k (inserted h) -> 0 <= k) /\ (forall k, In k (called h) -> forall m pos i, ones m pos i <> k).
Proof.
  split; [vm_compute; split; discriminate|]. split; [intro k; cbn; intuition discriminate|]. split; [intros k H; cbn in H |- *; intuition lia|]. split; [intros k H; cbn in H; intuition lia|].
  intros k H m pos i; cbn in H; unfold ones; intuition lia.
Qed.

(** * C46 *)

(** Iteration comes across the key 3 twice, and not in order. *)
Theorem C46_refuted : exists m outs,
  mcalls four ones (map_mem Z 100) (inserts [10; 9; 8; 7; 6; 5; 4; 3; 2; 3]) = Some (m, outs) /\
  map_shows m (map (fun k => (k, 100 * k)) [2; 3; 4; 3; 5; 6; 7; 8; 9; 10]).
Proof.
  pose (r := mcalls four ones (map_mem Z 100) (inserts [10; 9; 8; 7; 6; 5; 4; 3; 2; 3])).
  exists (mem_of r), (repeat (Inserted true) 10). split; [runs|]. vm_compute. repeat split.
Qed.
Print Assumptions C46_refuted.

(** What is true instead, for the histories of C45_lowest_first_partial: iteration comes across exactly the inserted
    keys, in ascending order. *)
Theorem C46_lowest_first_partial : forall V (s : msizes) junk rm (h : list (mop V)), two_on_page s -> 2 <= rm <= 65535 ->
  no_erase h -> lowest_first (inserted h) -> (forall k, In k (inserted h) -> 0 <= k) -> (forall k, In k (called h) -> forall m pos i, junk m pos i <> k) ->
  roomy s junk (map_mem V rm) h ->
  exists m outs l, mcalls s junk (map_mem V rm) h = Some (m, outs) /\ visits m c_vals (c_begin c_vals m) (entries l) /\
    StronglySorted Z.lt (map fst l) /\ forall k, In k (map fst l) <-> In k (inserted h).
Proof.
  intros V s junk rm h Hs Hr HE HL HP HJ HM. destruct (C45_lowest_first_partial V s junk rm h Hs Hr HE HL HP HJ HM) as (m & E & S).
  exists m, (snd (ideal_map [] h)), (fst (ideal_map [] h)). split; [exact E|]. destruct S as (_ & _ & _ & _ & S & _). split; [exact S|].
  split; [apply ideal_srt; [auto|constructor]|]. intro k. rewrite ideal_keys by auto. cbn. tauto.
Qed.
Print Assumptions C46_lowest_first_partial.
Example C46_lowest_first_case : fst (ideal_map [] mixed) = map (fun k => (k, 100 * k)) [1; 2; 3; 4; 5; 6; 7; 8; 9; 10; 11; 12; 13; 14; 15; 16; 17; 18; 19; 20; 21; 22; 23; 24].
Proof. vm_compute. reflexivity. Qed.

(** * C47 *)

(** Erasing a key twice erases another key the second time.  Erasing the smallest key of a page loses keys on other
    pages: the lead of the page is followed by an erasure on the key level, with a key of zero. *)
Theorem C47_refuted : exists m1 m2,
  mcalls four ones (map_mem Z 100) (inserts [5; 6] ++ [MErase 6; MErase 6; MFind 5]) = Some (m1, [Inserted true; Inserted true; Erased 1; Erased 1; Found None]) /\
  snd (ideal_map [] (inserts [5; 6] ++ [MErase 6; MErase 6; MFind 5])) = [Inserted true; Inserted true; Erased 1; Erased 0; Found (Some (5, 500))] /\
  mcalls four ones (map_mem Z 100) (inserts [1; 2; 3; 4; 5; 6; 7; 8; 9; 10; 11] ++ [MErase 7; MFind 1; MFind 2; MFind 3; MFind 7]) =
    Some (m2, repeat (Inserted true) 11 ++ [Erased 1; Found None; Found None; Found (Some (3, 300)); Found (Some (7, 700))]) /\
  map_shows m2 (map (fun k => (k, 100 * k)) [1; 2; 3; 4; 5; 6; 8; 9; 10; 11]).
Proof.
  exists (mem_of (mcalls four ones (map_mem Z 100) (inserts [5; 6] ++ [MErase 6; MErase 6; MFind 5]))),
    (mem_of (mcalls four ones (map_mem Z 100) (inserts [1; 2; 3; 4; 5; 6; 7; 8; 9; 10; 11] ++ [MErase 7; MFind 1; MFind 2; MFind 3; MFind 7]))).
  split; [runs|]. split; [vm_compute; reflexivity|]. split; [runs|]. vm_compute. repeat split.
Qed.
Print Assumptions C47_refuted.

(** What is true instead, for every history of insertions, lookups and erasures in any order: the map answers like an
    ordinary map and holds what that holds, if the keys fit on one page of values, none is negative, and the greatest
    key is not erased; whatever lies in memory behind pages, as long as it does not look like a key of the history.
    Missing: the greatest key, and keys on more than one page; both refuted above. *)
Theorem C47_one_page_partial : forall V (s : msizes) junk rm (h : list (mop V)), two_on_page s -> 4 <= rm <= 65535 ->
  small_map (fit s) [] h -> (forall k, In k (inserted h) -> 0 <= k) -> (forall k, In k (called h) -> forall m pos i, junk m pos i <> k) ->
  exists m, mcalls s junk (map_mem V rm) h = Some (m, snd (ideal_map [] h)) /\ map_shows m (fst (ideal_map [] h)).
Proof.
  intros V s junk rm h Hs Hr HM HP HJ. destruct (two_caps s Hs) as (C1 & C2).
  destruct (page_history s junk C1 C2 h (map_mem V rm) [] (stay_start s C1 C2 rm ltac:(lia))) as (m & E & R); auto; [cbn; lia|].
  exists m. split; [exact E|]. eapply stay_shows; eauto.
Qed.
Print Assumptions C47_one_page_partial.
(** In particular: insertions in any order, as long as they fit on one page (what C45_lowest_first_partial lacks). *)
Theorem C45_one_page_partial : forall V (s : msizes) junk rm (h : list (mop V)), two_on_page s -> 4 <= rm <= 65535 ->
  no_erase h -> Z.of_nat (length (inserted h)) <= fit s -> (forall k, In k (inserted h) -> 0 <= k) -> (forall k, In k (called h) -> forall m pos i, junk m pos i <> k) ->
  exists m, mcalls s junk (map_mem V rm) h = Some (m, snd (ideal_map [] h)) /\ map_shows m (fst (ideal_map [] h)).
Proof.
  intros V s junk rm h Hs Hr HE HL HP HJ. apply C47_one_page_partial; auto.
  assert (G : forall (l : list (Z * V)), Z.of_nat (length l) + Z.of_nat (length (inserted h)) <= fit s -> small_map (fit s) l h); [|apply G; exact HL].
  clear HL HP HJ. induction h as [|o h IH]; intros l Hl; [exact I|]. cbn [small_map].
  assert (HE' : no_erase h) by (intros k Hk; apply (HE k); right; exact Hk).
  split; [intros k -> ; exfalso; apply (HE k); left; reflexivity|].
  assert (PL : forall k v (l : list (Z * V)), (length (put k v l) <= S (length l))%nat).
  { intros k v. induction l0 as [|[j w] l0 IHl]; cbn [put length]; [lia|]. destruct (k <? j); cbn [length]; [lia|]. destruct (k =? j); cbn [length]; lia. }
  destruct o as [k v|k|k]; cbn [ideal_op fst]; [| |exfalso; apply (HE k); left; reflexivity].
  - cbn [inserted flat_map app length] in Hl. change (flat_map _ h) with (inserted h) in Hl. specialize (PL k v l). split; [lia|apply IH; auto; lia].
  - cbn [inserted flat_map app] in Hl. change (flat_map _ h) with (inserted h) in Hl. split; [lia|apply IH; auto].
Qed.
Print Assumptions C45_one_page_partial.
Example C45_one_page_case : let h := inserts [9; 7; 8; 3] ++ map MFind [7; 1; 3; 10] in no_erase h /\ Z.of_nat (length (inserted h)) <= fit four /\ ~ lowest_first (inserted h) /\
  outs_of (mcalls four ones (map_mem Z 4) h) = Some (repeat (Inserted true) 4 ++ [Found (Some (7, 700)); Found None; Found (Some (3, 300)); Found None]).
Proof.
  split; [intro k; cbn; intuition discriminate|]. split; [vm_compute; discriminate|]. split; [intro H; specialize (H 3 ltac:(cbn; tauto)); cbn in H; lia|vm_compute; reflexivity].
Qed.
(** Four values on a page. *)
Definition churn : list (mop Z) :=
  inserts [8; 5; 9; 2] ++ [MErase 5; MErase 5; MFind 5; MFind 9; MErase 2; MInsert 3 1; MInsert 5 2; MErase 8; MErase 3; MFind 3; MInsert 7 3; MInsert 10 4; MErase 9; MErase 5; MFind 9; MFind 10; MInsert 0 5; MErase 0; MFind 0].
Example C47_one_page_case : two_on_page four /\ fit four = 4 /\ small_map (fit four) [] churn /\ (forall k, In k (inserted churn) -> 0 <= k) /\
  (forall k, In k (called churn) -> forall m pos i, ones m pos i <> k) /\
  outs_of (mcalls four ones (map_mem Z 4) churn) = Some (repeat (Inserted true) 4 ++ [Erased 1; Erased 0; Found None; Found (Some (9, 900)); Erased 1; Inserted true; Inserted true; Erased 1; Erased 1; Found None; Inserted true; Inserted true; Erased 1; Erased 1; Found None; Found (Some (10, 4)); Inserted true; Erased 1; Found None]) /\
  fst (ideal_map [] churn) = [(7, 3); (10, 4)].
Proof.
  split; [repeat split; discriminate|]. split; [reflexivity|]. split.
  - change (fit four) with 4.
    unfold churn, inserts. cbn [map app small_map ideal_op fst put without filter Z.ltb Z.eqb Z.compare Pos.compare Pos.compare_cont Pos.eqb negb length Z.mul Pos.mul].
    repeat match goal with |- _ /\ _ => split | |- True => exact I | |- (_ <= _) => vm_compute; discriminate | |- forall k, _ = MErase k -> _ =>
      let k := fresh "k" in let E := fresh "E" in let H := fresh "H" in intros k E H; try discriminate; injection E as <-; vm_compute in H; try (exfalso; intuition discriminate);
      first [exists 10; split; [vm_compute; tauto|reflexivity] | exists 9; split; [vm_compute; tauto|reflexivity]] end.
  - split; [intros k H; cbn in H; intuition lia|]. split; [intros k H m pos i; cbn in H; unfold ones; intuition lia|]. split; vm_compute; reflexivity.
Qed.

(** * C67 *)

(** A lookup in a full page reads a key behind the page, and what is there decides: the same history refuses or
    accepts a new key, depending on bytes outside the page of values. *)
Theorem C67_refuted : exists s h junk1 junk2 m1 m2,
  mcalls s junk1 (map_mem Z 100) h = Some (m1, repeat (Inserted true) 4 ++ [Found None; Inserted true]) /\
  mcalls s junk2 (map_mem Z 100) h = Some (m2, repeat (Inserted true) 4 ++ [Unreadable; Inserted false]) /\
  (forall m pos i, i < t_cap (t_vals s) -> junk1 m pos i = junk2 m pos i) /\
  ~ key_on_page s (t_cap (t_vals s)).
Proof.
  pose (h := inserts [1; 2; 3; 4] ++ [MFind 9; MInsert 9 0]).
  pose (j2 := fun (_ : mem (mitem Z)) (_ i : Z) => if i <? 4 then -1 else 9).
  exists four, h, ones, j2, (mem_of (mcalls four ones (map_mem Z 100) h)), (mem_of (mcalls four j2 (map_mem Z 100) h)).
  split; [runs|]. split; [runs|]. split.
  - intros m pos i Hi. change (t_cap (t_vals four)) with 4 in Hi. unfold ones, j2. apply Z.ltb_lt in Hi. rewrite Hi. reflexivity.
  - vm_compute. intro H. apply H. reflexivity.
Qed.
Print Assumptions C67_refuted.

(** What is true instead, for the histories of C45_large_pool_partial: as long as bytes behind pages do not look like
    one of the keys, they do not matter. *)
Theorem C67_unlike_partial : forall V (s : msizes) junk1 junk2 rm (h : list (mop V)), two_on_page s ->
  let n := Z.of_nat (length h) in 2 + n * (2 * n + 4) <= rm <= 65535 ->
  no_erase h -> lowest_first (inserted h) -> (forall k, In k (inserted h) -> 0 <= k) ->
  (forall k, In k (called h) -> forall m pos i, junk1 m pos i <> k /\ junk2 m pos i <> k) ->
  exists m1 m2 outs, mcalls s junk1 (map_mem V rm) h = Some (m1, outs) /\ mcalls s junk2 (map_mem V rm) h = Some (m2, outs).
Proof.
  intros V s junk1 junk2 rm h Hs n Hr HE HL HP HJ.
  destruct (C45_large_pool_partial V s junk1 rm h Hs Hr HE HL HP) as (m1 & E1 & _); [intros k Hk m pos i; apply (HJ k Hk)|].
  destruct (C45_large_pool_partial V s junk2 rm h Hs Hr HE HL HP) as (m2 & E2 & _); [intros k Hk m pos i; apply (HJ k Hk)|].
  exists m1, m2, (snd (ideal_map [] h)). auto.
Qed.
Print Assumptions C67_unlike_partial.
Example C67_unlike_case : let j2 := fun (_ : mem (mitem Z)) (_ i : Z) => if i <? 4 then -1 else 90 in
  let h := inserts [1; 2; 3; 4] ++ [MFind 9; MInsert 9 0] in forall k, In k (called h) -> forall m pos i, ones m pos i <> k /\ j2 m pos i <> k.
Proof. cbn zeta. intros k H m pos i. cbn in H. unfold ones. destruct (i <? 4); intuition lia. Qed.
