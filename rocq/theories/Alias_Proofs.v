(** C112: proofs. *)

From Coq Require Import ZArith List Bool Lia.
From Verif Require Import Base Cache_Model Linked_Model Linked_Proofs Cont_Model Cont_Spec Cont_Proofs Cont_Steps Cont_Erase Cont_Inner Cont_Runs Alias_Model Alias_Spec.
Import ListNotations.
Open Scope Z_scope.

Section Read.
Context {A : Type}.
Implicit Types m : mem A.
Variable t : ctype.
Variable c : Z.
(** The memory when the item is copied. *)
Definition shifted m (i : citr) : mem A :=
  let p := pages m (i_page i) in
  let pos := if i_item i =? item_nil then p_cnt p else i_item i in
  set_cnt (set_arr m (i_page i) (moved (p_arr p) (pos + 1) (p_arr p) pos (p_cnt p - pos))) (i_page i) (wrap_u16 (p_cnt p + 1)).
Definition splitted m (i : citr) (balance : bool) (new : Z) : mem A := if balance then balance_split t m (i_page i) new else m.
Definition place m (i : citr) (new : Z) : citr :=
  let count := p_cnt (pages m (i_page i)) in
  if negb (i_item i =? item_nil) && (i_item i <=? count) then i
  else mkI true new (if i_item i =? item_nil then p_cnt (pages m new) else wrap_u16 (i_item i - count)) E_none.
Definition at_copy m (i : citr) : mem A :=
  if i_page i =? page_nil then match insert_page_after c m page_nil with COk (m, new) => shifted m (mkI true new 0 E_none) | _ => m end
  else if p_cnt (pages m (i_page i)) =? t_cap t then
    match insert_page_after c m (i_page i) with
    | COk (m1, new) => let m2 := splitted m1 i (should_balance_insert t m i) new in shifted m2 (place m2 i new)
    | _ => m
    end
  else shifted m i.
Lemma iwc_by m i (f : mem A -> A) : insert_with_capacity_by t m i f = insert_with_capacity t m i (f (shifted m i)).
Proof. reflexivity. Qed.
Lemma insert_item m i s : c_insert_item t c m i s = c_insert t c m i (item_of s (at_copy m i)).
Proof.
  unfold c_insert_item, c_insert. destruct (_ && _); [reflexivity|]. destruct (_ && _); [reflexivity|].
  replace (insert_nostate_by t c m i (item_of s)) with (insert_nostate t c m i (item_of s (at_copy m i))); [reflexivity|].
  unfold insert_nostate, insert_nostate_by, at_copy. destruct (i_page i =? page_nil).
  - unfold insert_empty, insert_empty_by. destruct (insert_page_after c m page_nil) as [(m1 & new)| | |]; try reflexivity.
  - unfold insert_nonempty, insert_nonempty_by. destruct (p_cnt (pages m (i_page i)) =? t_cap t); [|reflexivity].
    unfold insert_with_overflow, insert_with_overflow_by. destruct (insert_page_after c m (i_page i)) as [(m1 & new)| | |]; try reflexivity. cbn [cbind].
    destruct (new =? page_nil); [reflexivity|]. fold (splitted m1 i (should_balance_insert t m i) new). set (m2 := splitted m1 i _ new). unfold place. cbn zeta.
    destruct (negb (i_item i =? item_nil) && (i_item i <=? p_cnt (pages m2 (i_page i)))); rewrite iwc_by; reflexivity.
Qed.
Lemma shifted_other m i q : q <> i_page i -> p_arr (pages (shifted m i) q) = p_arr (pages m q).
Proof. intros N. unfold shifted. rewrite arr_set_cnt, arr_set_arr. destruct (Z.eqb_spec q (i_page i)); [contradiction|reflexivity]. Qed.
Lemma shifted_same m i q k : q = i_page i -> i_item i = item_nil \/ i_item i <= p_cnt (pages m (i_page i)) -> p_arr (pages (shifted m i) q) k =
  if negb (i_item i =? item_nil) && (i_item i <? k) && (k <=? p_cnt (pages m (i_page i))) then p_arr (pages m (i_page i)) (k - 1) else p_arr (pages m (i_page i)) k.
Proof.
  intros -> H. unfold shifted. rewrite arr_set_cnt, arr_set_arr, Z.eqb_refl. unfold moved. destruct (Z.eqb_spec (i_item i) item_nil) as [E|E]; cbn [negb andb].
  - destruct (Z.leb_spec (p_cnt (pages m (i_page i)) + 1) k), (Z.ltb_spec k (p_cnt (pages m (i_page i)) + 1 + (p_cnt (pages m (i_page i)) - p_cnt (pages m (i_page i))))); try reflexivity; lia.
  - destruct H as [H|H]; [contradiction|]. destruct (Z.leb_spec (i_item i + 1) k), (Z.ltb_spec k (i_item i + 1 + (p_cnt (pages m (i_page i)) - i_item i))), (Z.ltb_spec (i_item i) k), (Z.leb_spec k (p_cnt (pages m (i_page i)))); cbn [andb]; try lia; try reflexivity. f_equal. lia.
Qed.
End Read.

Lemma read_loc {A} (m : mem A) L c u p a x b v : W m L [] -> c <> 0 -> L c = u ++ (p, a ++ x :: b) :: v -> p_arr (pages m p) (zl a) = x.
Proof. intros Wm Hc EL. destruct (page_items _ _ _ _ _ _ _ _ Wm Hc EL) as (_ & T). exact (tab_nth _ _ _ _ T). Qed.
Lemma holds_at {A} (P Q : page A) l k : holds P l -> holds Q l -> 0 <= k < zl l -> p_arr P k = p_arr Q k.
Proof.
  intros (_ & HP) (_ & HQ) Hk. unfold zl in Hk. assert (tab (p_arr P) (length l) = tab (p_arr Q) (length l)) as E by congruence.
  unfold tab in E. replace k with (Z.of_nat (Z.to_nat k)) by lia. apply (f_equal (fun l => nth_error l (Z.to_nat k))) in E.
  rewrite !(map_nth_error _ (Z.to_nat k) (seq 0 (length l)) (d := Z.to_nat k)) in E; [congruence|..];
    (rewrite (nth_error_nth' _ O) by (rewrite seq_length; lia); rewrite seq_nth by lia; reflexivity).
Qed.
(** Getting a page leaves the items of all containers alone, and the new page is none of theirs. *)
Lemma page_added {A} (m : mem A) L c u v : W m L [] -> c <> 0 -> L c = u ++ v -> (u = [] -> v = []) ->
  exists m1 q, insert_page_after c m (last (pgs u) page_nil) = COk (m1, q) /\
    forall d sp items, d <> 0 -> In (sp, items) (L d) -> holds (pages m1 sp) items /\ sp <> q.
Proof.
  intros Wm Hc EL Huv. destruct (insert_page_W m L c u v Wm Hc EL Huv) as (m1 & q & E1 & _ & _ & K & _ & _ & Q). exists m1, q. split; [exact E1|]. intros d sp items Hd Hi.
  assert (In sp (pgs (L d))) as Ip by (apply in_map_iff; exists (sp, items); auto).
  destruct K as [(-> & W1 & _)|(Nq & W1)].
  - split; [exact (w_items _ _ _ W1 d sp items Hd Hi)|]. pose proof (pgs_bnd _ _ _ _ _ Wm Hd Ip). lia.
  - split; [|intros ->; apply (proj1 (Q Nq)); right; exists d; auto]. apply (w_items _ _ _ W1 d sp items Hd). rewrite upd_eq. destruct (Z.eqb_spec d c) as [->|]; [|exact Hi].
    rewrite EL in Hi. apply in_app_or in Hi. apply in_or_app. destruct Hi; [left; assumption|right; right; assumption].
Qed.
Lemma split_other {A} t (m : mem A) p new q : q <> new -> p_arr (pages (balance_split t m p new) q) = p_arr (pages m q).
Proof. intros N. unfold balance_split. rewrite !arr_set_cnt, arr_set_arr. destruct (Z.eqb_spec q new); [contradiction|reflexivity]. Qed.
Lemma split_cnt {A} t (m : mem A) p new : p_cnt (pages (balance_split t m p new) p) = wrap_u16 (t_cap t - t_cap t / 2).
Proof. unfold balance_split. rewrite cnt_set_cnt, Z.eqb_refl. reflexivity. Qed.
Lemma splitted_other {A} t (m : mem A) i b new q : q <> new -> p_arr (pages (splitted t m i b new) q) = p_arr (pages m q).
Proof. intros N. unfold splitted. destruct b; [apply split_other, N|reflexivity]. Qed.
Lemma and_false b : b && false = false. Proof. apply andb_false_r. Qed.

Section Value.
Context {A : Type}.
Variables (ts : Z -> ctype) (m : mem A) (L : layout A) (c d : Z) (k : nat).
Variables (u' : list (Z * list A)) (sp : Z) (a' : list A) (x : A) (b' : list A) (v' : list (Z * list A)).
Hypothesis Hi : Inv ts m L.
Hypothesis Hc : c <> 0.
Hypothesis Hd : d <> 0.
Hypothesis Hfl : flags_ok (ts c).
Hypothesis ED : L d = u' ++ (sp, a' ++ x :: b') :: v'.
Let t := ts c.
Let s := mkI true sp (zl a') E_none.
Let i := itr_at m c k.

Lemma value : item_of s (at_copy t c m i) = if moved_away t m i s then p_arr (pages m sp) (zl a' - 1) else p_arr (pages m sp) (zl a').
Proof.
  pose proof Hi as [Wm G C T R]. pose proof (C c Hc) as Hcap. pose proof Hfl as (H2 & Hfb & Hfi). fold t in H2, Hfb, Hfi, Hcap.
  destruct (page_bnd _ _ _ _ _ _ _ _ Wm Hd ED) as (_ & Bs). destruct (page_items _ _ _ _ _ _ _ _ Wm Hd ED) as (Ics & Its). pose proof (conj Ics Its) as Hs.
  assert (In (sp, a' ++ x :: b') (L d)) as Is by (rewrite ED; apply in_or_app; right; left; reflexivity).
  pose proof (zl_pos a') as Za'. pose proof (zl_pos b') as Zb'. assert (zl (a' ++ x :: b') = zl a' + 1 + zl b') as Zs by (rewrite zl_app, zl_cons; lia).
  assert (0 <= zl a' < zl (a' ++ x :: b')) as B1 by lia.
  unfold item_of, at_copy, moved_away. cbn [s i_page i_item]. fold t.
  destruct (Nat.lt_ge_cases k (length (flat (L c)))) as [Hk|Hk].
  - destruct (locate (L c) k Hk) as (u & p & a & y & b & v & EL & Ek).
    assert (i = mkI true p (zl a) E_none) as -> by (unfold i; exact (itr_loc m L [] c (t_cap t) Wm Hc (G c Hc) ltac:(lia) _ _ _ _ _ _ _ EL Ek)).
    cbn [i_page i_item]. destruct (page_bnd _ _ _ _ _ _ _ _ Wm Hc EL) as (_ & Bp). destruct (Z.eqb_spec p page_nil); [lia|].
    pose proof (G c Hc) as Hg. rewrite EL in Hg. apply good_app in Hg. destruct Hg as (_ & Hg). apply good_cons in Hg. destruct Hg as (_ & Hle & _). fold t in Hle.
    pose proof (zl_pos a) as Za. pose proof (zl_pos b) as Zb. assert (zl (a ++ y :: b) = zl a + 1 + zl b) as Zp by (rewrite zl_app, zl_cons; lia).
    rewrite (zl_ok a (t_cap t)) by lia. cbn [negb]. rewrite andb_true_r.
    destruct (page_items _ _ _ _ _ _ _ _ Wm Hc EL) as (Ic & It). fold (zl (a ++ y :: b)) in Ic. rewrite Ic.
    destruct (Z.eqb_spec (zl (a ++ y :: b)) (t_cap t)) as [Ef|Ef]; cbn [negb orb].
    + assert (ELa : L c = (u ++ [(p, a ++ y :: b)]) ++ v) by (rewrite <- app_assoc; exact EL).
      destruct (page_added m L c _ _ Wm Hc ELa) as (m1 & q & E1 & Ho). { intro E. destruct u; discriminate. }
      rewrite last_pgs in E1. rewrite E1. destruct (Ho d sp _ Hd Is) as (Hs1 & Nq).
      assert (EB : should_balance_insert t m (mkI true p (zl a) E_none) = true).
      { unfold should_balance_insert. cbn [i_page i_item i_edge edge_eqb]. rewrite !andb_false_r. destruct (_ && _); auto. }
      rewrite EB. set (m2 := splitted t m1 _ true q). assert (p_arr (pages m2 sp) = p_arr (pages m1 sp)) as A2 by (apply splitted_other; auto).
      assert (Hdiv : 1 <= t_cap t / 2 <= t_cap t - t_cap t / 2).
      { pose proof (Z.div_mod (t_cap t) 2). pose proof (Z.mod_pos_bound (t_cap t) 2). assert (1 <= t_cap t / 2) by (apply Z.div_le_lower_bound; lia). lia. }
      assert (p_cnt (pages m2 p) = t_cap t - t_cap t / 2) as C2 by (unfold m2, splitted; cbn [i_page]; rewrite split_cnt; apply small_u16; lia).
      unfold place. cbn zeta. cbn [i_page i_item]. rewrite C2, (zl_ok a (t_cap t)) by lia. cbn [negb andb].
      destruct (Z.leb_spec (zl a) (t_cap t - t_cap t / 2)) as [Hh|Hh].
      * destruct (Z.eqb_spec p sp) as [->|Np]; cbn [andb].
        -- rewrite (shifted_same m2 (mkI true sp (zl a) E_none) sp (zl a') eq_refl) by (right; cbn [i_page i_item]; lia). cbn [i_page i_item]. rewrite (zl_ok a (t_cap t)) by lia. cbn [negb andb]. rewrite C2, A2.
           destruct (Z.ltb_spec (zl a) (zl a')); cbn [andb]; [|apply (holds_at _ _ _ _ Hs1 Hs B1)]. destruct (Z.leb_spec (zl a') (t_cap t - t_cap t / 2)); [|apply (holds_at _ _ _ _ Hs1 Hs B1)].
           apply (holds_at _ _ _ _ Hs1 Hs). lia.
        -- rewrite shifted_other by (cbn [i_page]; auto). rewrite A2. apply (holds_at _ _ _ _ Hs1 Hs B1).
      * rewrite shifted_other by (cbn [i_page]; auto). rewrite A2. rewrite (holds_at _ _ _ _ Hs1 Hs B1).
        destruct (Z.eqb_spec p sp) as [->|Np]; cbn [andb]; [|reflexivity]. destruct (Z.ltb_spec (zl a) (zl a')); cbn [andb]; [|reflexivity]. destruct (Z.leb_spec (zl a') (t_cap t - t_cap t / 2)); [lia|reflexivity].
    + destruct (Z.eqb_spec p sp) as [->|Np]; cbn [andb]; [|rewrite shifted_other by (cbn [i_page]; auto); reflexivity].
      rewrite (shifted_same m (mkI true sp (zl a) E_none) sp (zl a') eq_refl) by (right; cbn [i_page i_item]; lia). cbn [i_page i_item]. rewrite (zl_ok a (t_cap t)) by lia. cbn [negb andb]. rewrite andb_true_r.
      fold (zl (a' ++ x :: b')) in Ics. destruct (Z.leb_spec (zl a') (p_cnt (pages m sp))); [rewrite andb_true_r; reflexivity|lia].
  - assert (i = c_end c m) as -> by (unfold i; exact (itr_end m L [] c (t_cap t) Wm Hc (G c Hc) ltac:(lia) _ Hk)).
    unfold c_end. cbn [i_page i_item]. rewrite Z.eqb_refl. cbn [negb]. rewrite andb_false_r. cbn [andb].
    destruct (ends_case (L c)) as [En|(u & (p & it) & EL)].
    + rewrite (W_states _ _ _ _ Wm Hc), En. cbn [pgs map last hd back]. rewrite Z.eqb_refl.
      destruct (page_added m L c [] [] Wm Hc En (fun H => H)) as (m1 & q & E1 & Ho). cbn [pgs map last] in E1. rewrite E1. destruct (Ho d sp _ Hd Is) as (Hs1 & Nq).
      rewrite shifted_other by (cbn [i_page]; auto). apply (holds_at _ _ _ _ Hs1 Hs B1).
    + assert (back (sts m c) = p) as Eb by (rewrite (W_states _ _ _ _ Wm Hc), EL; cbn [back]; apply last_pgs). rewrite Eb.
      destruct (page_bnd _ _ _ _ _ _ _ _ Wm Hc EL) as (_ & Bp). destruct (Z.eqb_spec p page_nil); [lia|].
      destruct (Z.eqb_spec (p_cnt (pages m p)) (t_cap t)) as [Ef|Ef].
      * assert (ELa : L c = (u ++ [(p, it)]) ++ []) by (rewrite app_nil_r; exact EL).
        destruct (page_added m L c _ _ Wm Hc ELa) as (m1 & q & E1 & Ho). { intro E. destruct u; discriminate. }
        rewrite last_pgs in E1. rewrite E1. destruct (Ho d sp _ Hd Is) as (Hs1 & Nq). unfold place. cbn [i_item i_page]. rewrite Z.eqb_refl. cbn [negb andb].
        rewrite shifted_other by (cbn [i_page]; auto). rewrite splitted_other by auto. apply (holds_at _ _ _ _ Hs1 Hs B1).
      * destruct (Z.eq_dec sp p) as [->|Np]; [|rewrite shifted_other by (cbn [i_page]; auto); reflexivity].
        rewrite (shifted_same m (mkI true p item_nil E_end) p (zl a') eq_refl) by (left; reflexivity). reflexivity.
Qed.
End Value.

Lemma shown_list {A} ts (m : mem A) L c l : Inv ts m L -> c <> 0 -> shows m c l -> l = flat (L c).
Proof.
  intros Hi Hc Sh. destruct (Inv_shows _ _ _ _ Hi Hc) as (_ & _ & _ & _ & V & _). destruct Sh as (_ & _ & _ & _ & V' & _).
  clear - V V'. revert V V'. generalize (c_begin c m). generalize (flat (L c)). induction l as [|x l IH]; intros [|y l'] i V V'; cbn in V, V'; auto; [destruct V; congruence|destruct V'; congruence|].
  destruct V as (_ & _ & D & V), V' as (_ & _ & D' & V'). f_equal; [congruence|eauto].
Qed.
(** Items of other lists, and items at or before the place, are not moved away. *)
Lemma not_moved {A} ts (m : mem A) L c d k j : Inv ts m L -> c <> 0 -> d <> 0 -> (j < length (flat (L d)))%nat -> c <> d \/ (j <= k)%nat ->
  moved_away (ts c) m (itr_at m c k) (itr_at m d j) = false.
Proof.
  intros Hi Hc Hd Hj Ho. pose proof Hi as [Wm G C T R]. pose proof (C d Hd) as Hcap. pose proof (C c Hc) as Hcap'.
  destruct (locate (L d) j Hj) as (u & p & a & y & b & v & ED & Ej). rewrite (itr_loc m L [] d _ Wm Hd (G d Hd) ltac:(lia) _ _ _ _ _ _ _ ED Ej).
  unfold moved_away. cbn [i_page i_item]. destruct (Nat.lt_ge_cases k (length (flat (L c)))) as [Hk|Hk].
  - destruct (locate (L c) k Hk) as (u1 & p1 & a1 & y1 & b1 & v1 & EL & Ek). rewrite (itr_loc m L [] c _ Wm Hc (G c Hc) ltac:(lia) _ _ _ _ _ _ _ EL Ek). cbn [i_page i_item].
    destruct (Z.eqb_spec p1 p) as [->|]; [|reflexivity]. destruct (Z.ltb_spec (zl a1) (zl a)) as [Lt|]; [|rewrite !andb_false_r; reflexivity]. exfalso.
    destruct Ho as [Ho|Ho].
    + apply (w_dis _ _ _ Wm c d p Hc Hd Ho); [rewrite EL|rewrite ED]; rewrite pgs_app; apply in_or_app; right; left; reflexivity.
    + destruct (Z.eq_dec c d) as [->|Ncd]; [|apply (w_dis _ _ _ Wm c d p Hc Hd Ncd); [rewrite EL|rewrite ED]; rewrite pgs_app; apply in_or_app; right; left; reflexivity].
      assert (u = u1) as -> by (eapply (page_once u u1 p); [rewrite <- ED; apply (w_nd _ _ _ Wm d Hd)|rewrite <- ED; exact EL]).
      rewrite !app_length in *. unfold zl in Lt. lia.
  - rewrite (itr_end m L [] c _ Wm Hc (G c Hc) ltac:(lia) _ Hk). cbn [c_end i_page i_item]. rewrite Z.eqb_refl. cbn [negb]. rewrite andb_false_r. reflexivity.
Qed.
