(** Lemmas for C33 and C34. *)

From Coq Require Import ZArith List Bool Lia Permutation.
From Verif Require Import Base ListMem Cache_Model Cache_Spec.
Import ListNotations.
Open Scope Z_scope.

(** ** Arrays *)
Lemma set_nth_app : forall A (a : list A) x y c, set_nth (length a) x (a ++ y :: c) = a ++ x :: c.
Proof. induction a as [|z a IH]; intros; cbn [length app set_nth]; [reflexivity|]. now rewrite IH. Qed.
Lemma set_nth_length : forall A (l : list A) i x, length (set_nth i x l) = length l.
Proof. induction l as [|y l IH]; intros [|i] x; cbn; auto. Qed.
Lemma nth_app_exact : forall A (a : list A) y c d, nth (length a) (a ++ y :: c) d = y.
Proof. induction a as [|z a IH]; intros; cbn; auto. Qed.
Lemma split_nth : forall A (l : list A) i d, (i < length l)%nat -> exists a c, l = a ++ nth i l d :: c /\ length a = i.
Proof. intros A l i d H. destruct (nth_split l d H) as (a & c & E & L). exists a, c. auto. Qed.
Lemma u32_small : forall x, 0 <= x < 2 ^ 32 -> wrap_u32 x = x.
Proof. intros. unfold wrap_u32. apply Z.mod_small. assumption. Qed.

(** ** Making room *)
Definition lowered (min : Z) (s : slot) : slot :=
  {| s_pos := s_pos s; s_ptr := s_ptr s; s_lock := s_lock s; s_keep := if min <? s_keep s then wrap_u32 (s_keep s - min) else 0 |}.
Definition kept (min : Z) (s : slot) : bool := (0 <? s_lock s) || (min <? s_keep s).
Fixpoint total_after (min : Z) (l : list slot) (t : Z) : Z :=
  match l with
  | [] => t
  | s :: l => total_after min l (if kept min s then wrap_u32 (t - (if min <? s_keep s then min else s_keep s)) else t)
  end.
Definition dropped (min : Z) (l : list slot) : list slot := filter (fun s => negb (kept min s)) l.
Definition unmapped_os (l : list slot) (o : list (Z * Z)) : list (Z * Z) := filter (fun m => negb (existsb (fun s => s_ptr s =? fst m) l)) o.

Lemma filter_filter : forall A (f g : A -> bool) l, filter f (filter g l) = filter (fun x => g x && f x) l.
Proof. induction l as [|x l IH]; [reflexivity|]. cbn [filter]. destruct (g x); cbn [filter andb]; rewrite IH; reflexivity. Qed.
Lemma filter_ext_in' : forall A (f g : A -> bool) l, (forall x, In x l -> f x = g x) -> filter f l = filter g l.
Proof. intros. apply filter_ext_in. assumption. Qed.
Lemma unmapped_cons : forall s l o, unmapped_os (s :: l) o = unmapped_os l (filter (fun m => negb (fst m =? s_ptr s)) o).
Proof. intros. unfold unmapped_os. rewrite filter_filter. apply filter_ext. intros m. cbn [existsb]. rewrite negb_orb. f_equal. f_equal. apply Z.eqb_sym. Qed.
Lemma repeat_snoc : forall A (x : A) n, repeat x n ++ [x] = x :: repeat x n.
Proof. induction n; [reflexivity|]. cbn. rewrite IHn. reflexivity. Qed.

Lemma loop_spec : forall min r p k u e,
  slots p = k ++ repeat no_slot u ++ r -> count p = length (slots p) -> e = (if (u =? 0)%nat then length (slots p) else length k) ->
  exists p', capacity_loop (length r) p (length k + u) min e u = (p', (u + length (dropped min r))%nat) /\
    slots p' = k ++ map (lowered min) (filter (kept min) r) ++ repeat no_slot (u + length (dropped min r)) /\
    count p' = count p /\ total_keep p' = total_after min r (total_keep p) /\ total_locks p' = total_locks p /\
    os p' = unmapped_os (dropped min r) (os p) /\ os_next p' = os_next p.
Proof.
  intros min. induction r as [|s r IH]; intros p k u e Hs Hc He.
  - exists p. cbn [length capacity_loop dropped filter map app total_after]. rewrite Nat.add_0_r. rewrite app_nil_r in Hs.
    split; [reflexivity|]. split; [exact Hs|]. repeat split; auto. unfold unmapped_os. cbn. symmetry. induction (os p) as [|m o IHo]; [reflexivity|]. cbn. now rewrite IHo.
  - cbn [length capacity_loop].
    assert (get_slot p (length k + u) = s) as G.
    { unfold get_slot. rewrite Hs, app_assoc. replace (length k + u)%nat with (length (k ++ repeat no_slot u)) by (rewrite app_length, repeat_length; reflexivity). apply nth_app_exact. }
    assert (should_keep_mapped_page p (length k + u) min = kept min s) as Ks by (unfold should_keep_mapped_page; rewrite G; reflexivity).
    rewrite Ks. cbn [dropped filter total_after]. fold (dropped min r). destruct (kept min s) eqn:Kp; cbn [negb].
    + (* kept *)
      assert (exists p1, keep_mapped_page p (length k + u) min e = (p1, if (u =? 0)%nat then length (slots p1) else length (k ++ [lowered min s])) /\
        slots p1 = (k ++ [lowered min s]) ++ repeat no_slot u ++ r /\ count p1 = count p /\
        total_keep p1 = wrap_u32 (total_keep p - (if min <? s_keep s then min else s_keep s)) /\ total_locks p1 = total_locks p /\ os p1 = os p /\ os_next p1 = os_next p) as (p1 & K & S1 & C1 & T1 & L1 & O1 & N1).
      { unfold keep_mapped_page. rewrite G.
        set (t1 := if min <? s_keep s then min else s_keep s).
        assert ((if min <? s_keep s
                 then (set_total p (total_keep p - min), {| s_pos := s_pos s; s_ptr := s_ptr s; s_lock := s_lock s; s_keep := wrap_u32 (s_keep s - min) |})
                 else (set_total p (total_keep p - s_keep s), {| s_pos := s_pos s; s_ptr := s_ptr s; s_lock := s_lock s; s_keep := 0 |}))
                = (set_total p (total_keep p - t1), lowered min s)) as ->.
        { unfold lowered, t1. destruct (min <? s_keep s); reflexivity. }
        assert (slots (set_slot (set_total p (total_keep p - t1)) (length k + u) (lowered min s)) = k ++ repeat no_slot u ++ lowered min s :: r) as S0.
        { cbn [set_slot set_total slots]. rewrite Hs, !app_assoc. replace (length k + u)%nat with (length (k ++ repeat no_slot u)) by (rewrite app_length, repeat_length; reflexivity). apply set_nth_app. }
        assert (count (set_slot (set_total p (total_keep p - t1)) (length k + u) (lowered min s)) = count p) as C0 by reflexivity.
        set (p0 := set_slot (set_total p (total_keep p - t1)) (length k + u) (lowered min s)) in *.
        assert (total_keep p0 = wrap_u32 (total_keep p - t1) /\ total_locks p0 = total_locks p /\ os p0 = os p /\ os_next p0 = os_next p) as (T0 & L0 & O0 & N0) by (repeat split).
        clearbody p0. rewrite C0.
        assert (length (slots p) = length k + u + S (length r))%nat as Ln by (rewrite Hs, !app_length, repeat_length; cbn; lia).
        destruct u as [|u].
        - cbn in He. subst e. rewrite Hc. rewrite Nat.ltb_irrefl. exists p0. split; [f_equal; cbn; rewrite Ln, S0, app_length; cbn; lia|]. cbn [repeat app] in S0. rewrite S0, <- app_assoc. cbn. repeat split; auto; congruence.
        - cbn [Nat.eqb] in He. subst e. rewrite (proj2 (Nat.ltb_lt (length k) (count p))) by lia.
          set (p2 := set_slot (set_slot p0 (length k) (lowered min s)) (length k + S u) no_slot).
          assert (slots p2 = (k ++ [lowered min s]) ++ repeat no_slot (S u) ++ r) as S2.
          { unfold p2. cbn [set_slot slots]. rewrite S0. cbn [repeat app]. rewrite set_nth_app.
            replace (k ++ lowered min s :: repeat no_slot u ++ lowered min s :: r) with ((k ++ lowered min s :: repeat no_slot u) ++ lowered min s :: r) by (rewrite <- app_assoc; reflexivity).
            replace (length k + S u)%nat with (length (k ++ lowered min s :: repeat no_slot u)) by (rewrite app_length; cbn; rewrite repeat_length; reflexivity).
            rewrite set_nth_app. rewrite <- !app_assoc. cbn [app]. f_equal. f_equal.
            change (no_slot :: repeat no_slot u ++ r) with ((no_slot :: repeat no_slot u) ++ r). rewrite <- repeat_snoc, <- app_assoc. reflexivity. }
          assert (count p2 = count p /\ total_keep p2 = total_keep p0 /\ total_locks p2 = total_locks p0 /\ os p2 = os p0 /\ os_next p2 = os_next p0) as (C2 & T2 & L2 & O2 & N2) by (repeat split; exact C0).
          clearbody p2. exists p2. split; [|rewrite T2, L2, O2, N2; auto 10]. f_equal. cbn [Nat.eqb]. unfold next_empty_i.
          rewrite app_length. cbn [length]. rewrite Nat.add_1_r. replace (length k + S u)%nat with (S (length k + u)) by lia. cbn [next_empty_loop].
          destruct (Nat.ltb_spec (S (length k)) (S (length k + u))) as [Lt|Ge]; [|reflexivity]. cbn [andb].
          unfold get_slot. rewrite S2. rewrite app_assoc. replace (S (length k)) with (length (k ++ [lowered min s])) at 1 by (rewrite app_length; cbn; lia).
          cbn [repeat app]. rewrite <- app_assoc. cbn [app]. rewrite nth_app_exact. reflexivity. }
      rewrite K. assert (count p1 = length (slots p1)) as Hc1. { rewrite C1, Hc, Hs, S1, !app_length, repeat_length. cbn. lia. }
      destruct (IH p1 (k ++ [lowered min s]) u _ S1 Hc1 eq_refl) as (p' & E & S' & C' & T' & L' & O' & N').
      rewrite app_length in E. cbn [length] in E. replace (length k + 1 + u)%nat with (S (length k + u)) in E by lia.
      rewrite app_length. cbn [length]. rewrite E.
      exists p'. split; [reflexivity|]. rewrite S', C', T', L', O', N', C1, T1, L1, O1, N1. rewrite <- app_assoc. cbn [map app]. auto 10.
    + (* unmapped *)
      unfold unmap_mapped_page. rewrite G.
      set (p1 := set_slot (munmap p (s_ptr s)) (length k + u) no_slot).
      assert (slots p1 = k ++ repeat no_slot (S u) ++ r) as S1.
      { unfold p1. cbn [set_slot munmap slots]. rewrite Hs, !app_assoc. replace (length k + u)%nat with (length (k ++ repeat no_slot u)) by (rewrite app_length, repeat_length; reflexivity).
        rewrite set_nth_app. rewrite <- !app_assoc. f_equal. cbn [repeat app]. change (no_slot :: repeat no_slot u ++ r) with ((no_slot :: repeat no_slot u) ++ r). rewrite <- repeat_snoc, <- app_assoc. reflexivity. }
      assert (count p1 = count p /\ total_keep p1 = total_keep p /\ total_locks p1 = total_locks p /\ os p1 = filter (fun m => negb (fst m =? s_ptr s)) (os p) /\ os_next p1 = os_next p) as (C1 & T1 & L1 & O1 & N1) by (repeat split).
      assert (length (slots p1) = length (slots p)) as Ln by (rewrite S1, Hs, !app_length, !repeat_length; cbn; lia).
      clearbody p1.
      assert ((if (u =? 0)%nat then (length k + u)%nat else e) = if (S u =? 0)%nat then length (slots p1) else length k) as He1.
      { cbn [Nat.eqb]. destruct u; cbn in *; lia. }
      destruct (IH p1 k (S u) _ S1 ltac:(congruence) He1) as (p' & E & S' & C' & T' & L' & O' & N').
      replace (length k + S u)%nat with (S (length k + u)) in E by lia. rewrite E.
      exists p'. split; [f_equal; cbn [length]; lia|]. rewrite S', C', T', L', O', N', C1, T1, L1, O1, N1. rewrite unmapped_cons. cbn [length]. replace (S u + length (dropped min r))%nat with (u + S (length (dropped min r)))%nat by lia. auto 10.
Qed.
Lemma capacity_above : forall min p, count p = length (slots p) ->
  exists p', make_capacity_above p min = (p', length (dropped min (slots p))) /\
    mapped p' = map (lowered min) (filter (kept min) (slots p)) /\ length (slots p') = length (slots p) /\
    count p' = length (filter (kept min) (slots p)) /\ total_keep p' = total_after min (slots p) (total_keep p) /\ total_locks p' = total_locks p /\
    os p' = unmapped_os (dropped min (slots p)) (os p) /\ os_next p' = os_next p.
Proof.
  intros min p Hc. unfold make_capacity_above. destruct (loop_spec min (slots p) p [] O (length (slots p)) eq_refl Hc eq_refl) as (p1 & E & S1 & C1 & T1 & L1 & O1 & N1).
  cbn [length Nat.add app] in *. rewrite Hc, E. eexists. split; [reflexivity|].
  assert (length (filter (kept min) (slots p)) + length (dropped min (slots p)) = length (slots p))%nat as Sm.
  { clear. induction (slots p) as [|s l IH]; [reflexivity|]. unfold dropped in *. cbn [filter]. destruct (kept min s); cbn [negb length]; lia. }
  assert (count p1 - length (dropped min (slots p)) = length (filter (kept min) (slots p)))%nat as Cn by (rewrite C1, Hc; lia).
  unfold mapped. cbn [set_count slots count total_keep total_locks os os_next]. rewrite Cn, S1.
  split; [|split; [rewrite app_length, map_length, repeat_length; lia|auto 10]].
  replace (length (filter (kept min) (slots p))) with (length (map (lowered min) (filter (kept min) (slots p))) + 0)%nat by (rewrite map_length; lia).
  rewrite firstn_app_2. cbn. apply app_nil_r.
Qed.

(** ** The state of the cache *)
Definition pair (s : slot) : Z * Z := (s_ptr s, s_pos s).
Record pinv (max : nat) (p : pool) (H : Z -> Z) : Prop := {
  pi_len : length (slots p) = max;
  pi_count : (count p <= max)%nat;
  pi_pos : NoDup (map s_pos (mapped p));
  pi_ptr : NoDup (map s_ptr (mapped p));
  pi_lock : forall s, In s (mapped p) -> s_lock s = H (s_pos s) /\ 1 <= s_ptr s < os_next p;
  pi_held : forall pos, 0 < H pos -> exists s, In s (mapped p) /\ s_pos s = pos;
  pi_nonneg : forall pos, 0 <= H pos;
  pi_os : forall m, In m (os p) <-> In m (map pair (mapped p));
  pi_osnd : NoDup (os p);
  pi_next : 1 <= os_next p }.
(** Pages in use stay where they are. *)
Definition stable (p p' : pool) (H : Z -> Z) : Prop := forall s, In s (mapped p) -> 0 < H (s_pos s) -> exists s', In s' (mapped p') /\ s_pos s' = s_pos s /\ s_ptr s' = s_ptr s.
Fixpoint sumk (l : list slot) : Z := match l with [] => 0 | s :: l => s_keep s + sumk l end.
Definition kinv (p : pool) (n : Z) : Prop := (forall s, In s (mapped p) -> 0 <= s_keep s) /\ sumk (mapped p) <= total_keep p <= n.

Lemma pinv_ext : forall max p H H', (forall q, H q = H' q) -> pinv max p H -> pinv max p H'.
Proof.
  intros max p H H' E [L C P T K D N O U X]. constructor; auto.
  - intros s I. rewrite <- E. auto.
  - intros pos. rewrite <- E. auto.
  - intros pos. rewrite <- E. auto.
Qed.
Lemma stable_ext : forall p p' H H', (forall q, H q = H' q) -> stable p p' H -> stable p p' H'.
Proof. intros p p' H H' E S s I P. rewrite <- E in P. auto. Qed.
(** Nothing is evicted. *)
Definition kept_all (p p' : pool) : Prop := forall s, In s (mapped p) -> exists s', In s' (mapped p') /\ s_pos s' = s_pos s /\ s_ptr s' = s_ptr s.
Lemma kept_stable : forall p p' H, kept_all p p' -> stable p p' H.
Proof. intros p p' H K s I _. exact (K s I). Qed.
Lemma stable_refl : forall p H, stable p p H.
Proof. intros p H s I _. exists s. auto. Qed.
Lemma stable_trans : forall p p' p'' H, stable p p' H -> stable p' p'' H -> stable p p'' H.
Proof. intros p p' p'' H A B s I P. destruct (A s I P) as (s1 & I1 & E1 & F1). destruct (B s1 I1) as (s2 & I2 & E2 & F2); [rewrite E1; exact P|]. exists s2. split; [exact I2|]. split; congruence. Qed.
Lemma pinv_perm : forall max p p' H, Permutation (mapped p) (mapped p') -> length (slots p') = length (slots p) -> count p' = count p -> os p' = os p -> os_next p' = os_next p ->
  pinv max p H -> pinv max p' H /\ stable p p' H.
Proof.
  intros max p p' H Pm El Ec Eo En [L C P T K D N O U X]. split.
  - constructor; rewrite ?El, ?Ec, ?Eo, ?En; auto.
    + eapply Permutation_NoDup; [apply Permutation_map, Pm|exact P].
    + eapply Permutation_NoDup; [apply Permutation_map, Pm|exact T].
    + intros s I. apply K. eapply Permutation_in; [apply Permutation_sym, Pm|exact I].
    + intros pos Hp. destruct (D pos Hp) as (s & I & E). exists s. split; [eapply Permutation_in; eauto|exact E].
    + intros m. rewrite O. split; intros I; (eapply Permutation_in; [|exact I]); [apply Permutation_map, Pm|apply Permutation_map, Permutation_sym, Pm].
  - intros s I _. exists s. split; [eapply Permutation_in; eauto|auto].
Qed.
Lemma sumk_perm : forall l l', Permutation l l' -> sumk l = sumk l'.
Proof. induction 1; cbn [sumk]; lia. Qed.
Lemma sumk_app : forall a c, sumk (a ++ c) = sumk a + sumk c.
Proof. induction a; intros; cbn [app sumk]; [lia|]. rewrite IHa. lia. Qed.

(** ** Eviction *)
Lemma filter_le : forall A (g : A -> bool) l, (length (filter g l) <= length l)%nat.
Proof. intros A g. induction l as [|x l IH]; cbn [filter length]; [lia|]. destruct (g x); cbn [length]; lia. Qed.
Lemma nodup_map_filter : forall A B (f : A -> B) g l, NoDup (map f l) -> NoDup (map f (filter g l)).
Proof.
  intros A B f g. induction l as [|x l IH]; intros H; [constructor|]. cbn [map] in H. inversion H as [|? ? N F]; subst. cbn [filter]. destruct (g x); [|apply IH, F].
  cbn [map]. constructor; [|apply IH, F]. intros I. apply N. apply in_map_iff in I. destruct I as (y & E & I). apply filter_In in I. apply in_map_iff. exists y. tauto.
Qed.
Lemma nodup_map_inj : forall A B (f : A -> B) l x y, NoDup (map f l) -> In x l -> In y l -> f x = f y -> x = y.
Proof.
  intros A B f. induction l as [|z l IH]; intros x y N Ix Iy E; [destruct Ix|]. cbn [map] in N. inversion N as [|? ? Nz F]; subst.
  destruct Ix as [->|Ix], Iy as [->|Iy]; auto.
  - exfalso. apply Nz. rewrite E. apply in_map, Iy.
  - exfalso. apply Nz. rewrite <- E. apply in_map, Ix.
Qed.
Lemma mapped_full : forall p, count p = length (slots p) -> mapped p = slots p.
Proof. intros p E. unfold mapped. rewrite E. apply firstn_all. Qed.
Lemma kept_locked : forall min s, 0 < s_lock s -> kept min s = true.
Proof. intros. unfold kept. rewrite (proj2 (Z.ltb_lt _ _)) by assumption. reflexivity. Qed.
Lemma evict_pinv : forall max min p H p' n, pinv max p H -> count p = length (slots p) -> make_capacity_above p min = (p', n) -> pinv max p' H /\ stable p p' H.
Proof.
  intros max min p H p' n I Hc E. destruct (capacity_above min p Hc) as (p1 & E1 & M & L & C & T & K & O & X). rewrite E1 in E. injection E as <- <-.
  pose proof (mapped_full p Hc) as Mf. rewrite <- Mf in *. destruct I as [L0 C0 P0 T0 K0 D0 N0 O0 U0 X0].
  assert (map s_pos (mapped p1) = map s_pos (filter (kept min) (mapped p))) as Mp by (rewrite M, map_map; reflexivity).
  assert (map s_ptr (mapped p1) = map s_ptr (filter (kept min) (mapped p))) as Mt by (rewrite M, map_map; reflexivity).
  assert (map pair (mapped p1) = map pair (filter (kept min) (mapped p))) as Mm by (rewrite M, map_map; reflexivity).
  assert (forall s, In s (mapped p) -> 0 < H (s_pos s) -> In (lowered min s) (mapped p1)) as St.
  { intros s I P. rewrite M. apply in_map, filter_In. split; [exact I|]. apply kept_locked. rewrite (proj1 (K0 s I)). exact P. }
  split; [constructor|].
  - congruence.
  - rewrite C, <- L0. pose proof (filter_le _ (kept min) (mapped p)). rewrite Mf in *. lia.
  - rewrite Mp. apply nodup_map_filter, P0.
  - rewrite Mt. apply nodup_map_filter, T0.
  - intros s I. rewrite M in I. apply in_map_iff in I. destruct I as (s0 & <- & I). apply filter_In in I. rewrite X. cbn [lowered s_lock s_pos s_ptr]. apply K0, I.
  - intros pos Hp. destruct (D0 pos Hp) as (s & I & <-). exists (lowered min s). split; [apply St; assumption|reflexivity].
  - exact N0.
  - intros m. rewrite O, Mm. unfold unmapped_os. rewrite filter_In, O0, negb_true_iff. split.
    + intros (I & Nd). apply in_map_iff in I. destruct I as (s & <- & I). apply in_map, filter_In. split; [exact I|].
      destruct (kept min s) eqn:Ek; [reflexivity|exfalso]. assert (existsb (fun s0 => s_ptr s0 =? fst (pair s)) (dropped min (mapped p)) = true); [|congruence].
      apply existsb_exists. exists s. split; [apply filter_In; rewrite Ek; auto|apply Z.eqb_refl].
    + intros I. apply in_map_iff in I. destruct I as (s & <- & I). apply filter_In in I. destruct I as (I & Ek). split; [apply in_map, I|].
      destruct (existsb _ _) eqn:Ex; [exfalso|reflexivity]. apply existsb_exists in Ex. destruct Ex as (s' & I' & E'). apply filter_In in I'. destruct I' as (I' & Ek'). apply Z.eqb_eq in E'. cbn [fst pair] in E'.
      assert (s' = s) as -> by (eapply nodup_map_inj; eauto). rewrite Ek in Ek'. discriminate.
  - rewrite O. unfold unmapped_os. apply NoDup_filter, U0.
  - rewrite X. exact X0.
  - intros s I P. exists (lowered min s). split; [apply St; assumption|]. split; reflexivity.
Qed.
Lemma sum_after : forall min l t, 0 <= min -> (forall s, In s l -> 0 <= s_keep s) -> sumk l <= t < 2 ^ 32 ->
  (forall s, In s (map (lowered min) (filter (kept min) l)) -> 0 <= s_keep s) /\
  sumk (map (lowered min) (filter (kept min) l)) + (t - total_after min l t) <= sumk l /\ total_after min l t <= t.
Proof.
  intros min l. induction l as [|s l IH]; intros t Hm Hk Ht; cbn [filter map sumk total_after]; [split; [intros s []|cbn in Ht; lia]|].
  assert (0 <= s_keep s) as K0 by (apply Hk; left; reflexivity). assert (forall s, In s l -> 0 <= s_keep s) as Kl by (intros; apply Hk; right; assumption). cbn [sumk] in Ht.
  assert (0 <= sumk l) as Sp. { clear - Kl. induction l as [|x l IH]; cbn [sumk]; [lia|]. pose proof (Kl x (or_introl eq_refl)). assert (0 <= sumk l) by (apply IH; intros; apply Kl; right; assumption). lia. }
  destruct (kept min s) eqn:E.
  - set (d := if min <? s_keep s then min else s_keep s). assert (0 <= d <= s_keep s) as Dd by (unfold d; destruct (Z.ltb_spec min (s_keep s)); lia).
    rewrite u32_small by lia. destruct (IH (t - d) Hm Kl ltac:(lia)) as (A & B). cbn [map sumk]. split.
    + intros x [<-|I]; [|apply A, I]. cbn [lowered s_keep]. destruct (Z.ltb_spec min (s_keep s)); [|lia]. rewrite u32_small by lia. lia.
    + cbn [lowered s_keep]. unfold d in *. destruct (Z.ltb_spec min (s_keep s)); [rewrite u32_small by lia; lia|lia].
  - destruct (IH t Hm Kl ltac:(lia)) as (A & B). split; [exact A|lia].
Qed.
Lemma evict_kinv : forall min p p' k n, kinv p n -> n < 2 ^ 32 -> 0 <= min -> count p = length (slots p) -> make_capacity_above p min = (p', k) -> kinv p' n.
Proof.
  intros min p p' k n (K & S) Hn Hm Hc E. destruct (capacity_above min p Hc) as (p1 & E1 & M & L & C & T & _). rewrite E1 in E. injection E as <- <-.
  rewrite (mapped_full p Hc) in *. destruct (sum_after min (slots p) (total_keep p) Hm K ltac:(lia)) as (A & B). split; [rewrite M; exact A|rewrite M, T; lia].
Qed.
Lemma sumk_in : forall l s, (forall s, In s l -> 0 <= s_keep s) -> In s l -> s_keep s <= sumk l.
Proof.
  induction l as [|x l IH]; intros s K I; [destruct I|]. cbn [sumk].
  assert (forall s, In s l -> 0 <= s_keep s) as Kl by (intros; apply K; right; assumption).
  assert (0 <= sumk l) as Sp. { clear - Kl. induction l as [|y l IHl]; cbn [sumk]; [lia|]. pose proof (Kl y (or_introl eq_refl)). assert (0 <= sumk l) by (apply IHl; intros; apply Kl; right; assumption). lia. }
  pose proof (K x (or_introl eq_refl)). destruct I as [->|I]; [lia|]. pose proof (IH s Kl I). lia.
Qed.
(** Making room: what is left, and when it does not help. *)
Lemma make_room : forall max p H, (1 <= max)%nat -> pinv max p H -> count p = length (slots p) ->
  pinv max (make_mapping_capacity p) H /\ stable p (make_mapping_capacity p) H /\
  (forall n, kinv p n -> n + 1 < 2 ^ 32 -> kinv (make_mapping_capacity p) n /\
     (count (make_mapping_capacity p) = max -> forall s, In s (mapped (make_mapping_capacity p)) -> 0 < s_lock s)) /\
  ((forall s, In s (mapped p) -> 0 < s_lock s) -> count (make_mapping_capacity p) = max).
Proof.
  intros max p H Hmax I Hc. unfold make_mapping_capacity.
  destruct (make_capacity_above p (total_keep p / Z.of_nat (count p))) as (p1 & u) eqn:E1.
  destruct (evict_pinv _ _ _ _ _ _ I Hc E1) as (I1 & S1).
  destruct (capacity_above (total_keep p / Z.of_nat (count p)) p Hc) as (p1' & E1' & M1 & L1 & C1 & _). rewrite E1 in E1'. injection E1' as <- Eu.
  assert (forall min, length (filter (kept min) (slots p)) + length (dropped min (slots p)) = length (slots p))%nat as Sm.
  { intros min. clear. induction (slots p) as [|s l IH]; [reflexivity|]. unfold dropped in *. cbn [filter]. destruct (kept min s); cbn [negb length]; lia. }
  pose proof (pi_len _ _ _ I) as Lm. pose proof (mapped_full p Hc) as Mf.
  assert (forall min, (forall s, In s (mapped p) -> 0 < s_lock s) -> length (dropped min (slots p)) = O) as Dl.
  { intros min A. rewrite Mf in A. unfold dropped. clear - A. induction (slots p) as [|s l IH]; [reflexivity|]. cbn [filter]. rewrite kept_locked by (apply A; left; reflexivity). cbn [negb]. apply IH. intros; apply A; right; assumption. }
  destruct u as [|u]; cbn [Nat.ltb Nat.leb].
  - assert (count p1 = length (slots p1)) as Hc1 by (rewrite C1, L1; specialize (Sm (total_keep p / Z.of_nat (count p))); lia).
    destruct (make_capacity_above p1 (wrap_u32 (total_keep p1 + 1))) as (p2 & u2) eqn:E2. cbn [fst].
    destruct (evict_pinv _ _ _ _ _ _ I1 Hc1 E2) as (I2 & S2).
    destruct (capacity_above (wrap_u32 (total_keep p1 + 1)) p1 Hc1) as (p2' & E2' & M2 & L2 & C2 & _). rewrite E2 in E2'. injection E2' as <- Eu2.
    split; [exact I2|]. split; [eapply stable_trans; eauto|]. split.
    + intros n K Hn. assert (0 <= total_keep p) as Tp.
      { destruct K as (Ks & Sk). assert (0 <= sumk (mapped p)); [|lia]. clear - Ks. induction (mapped p) as [|y l IHl]; cbn [sumk]; [lia|]. pose proof (Ks y (or_introl eq_refl)). assert (0 <= sumk l) by (apply IHl; intros; apply Ks; right; assumption). lia. }
      assert (kinv p1 n) as K1 by (eapply (evict_kinv (total_keep p / Z.of_nat (count p))); [exact K|lia|apply Z.div_pos; lia|exact Hc|exact E1]).
      assert (0 <= total_keep p1) as Tp1.
      { destruct K1 as (Ks & Sk). assert (0 <= sumk (mapped p1)); [|lia]. clear - Ks. induction (mapped p1) as [|y l IHl]; cbn [sumk]; [lia|]. pose proof (Ks y (or_introl eq_refl)). assert (0 <= sumk l) by (apply IHl; intros; apply Ks; right; assumption). lia. }
      assert (wrap_u32 (total_keep p1 + 1) = total_keep p1 + 1) as Wp by (apply u32_small; destruct K1; lia).
      split; [eapply (evict_kinv (wrap_u32 (total_keep p1 + 1))); [exact K1|lia|rewrite Wp; lia|exact Hc1|exact E2]|].
      intros Cm s Is. rewrite M2 in Is. apply in_map_iff in Is. destruct Is as (s0 & <- & Is). cbn [lowered s_lock].
      apply filter_In in Is. destruct Is as (Is & Ks). unfold kept in Ks. apply orb_prop in Ks. destruct Ks as [Ks|Ks]; [lia|exfalso].
      rewrite Wp in Ks. apply Z.ltb_lt in Ks. rewrite <- (mapped_full p1 Hc1) in Is. destruct K1 as (Kk & Ss). pose proof (sumk_in _ _ Kk Is). lia.
    + intros A. assert (forall s, In s (mapped p1) -> 0 < s_lock s) as A1.
      { intros s Is. rewrite M1 in Is. apply in_map_iff in Is. destruct Is as (s0 & <- & Is). cbn [lowered s_lock]. apply filter_In in Is. apply A. rewrite Mf. tauto. }
      rewrite C2. rewrite (mapped_full p1 Hc1) in A1. rewrite <- Lm, <- L1. clear - A1. induction (slots p1) as [|s l IH]; [reflexivity|]. cbn [filter]. rewrite kept_locked by (apply A1; left; reflexivity). cbn [length]. f_equal. apply IH. intros; apply A1; right; assumption.
  - split; [exact I1|]. split; [exact S1|]. split.
    + intros n K Hn. assert (0 <= total_keep p) as Tp.
      { destruct K as (Ks & Sk). assert (0 <= sumk (mapped p)); [|lia]. clear - Ks. induction (mapped p) as [|y l IHl]; cbn [sumk]; [lia|]. pose proof (Ks y (or_introl eq_refl)). assert (0 <= sumk l) by (apply IHl; intros; apply Ks; right; assumption). lia. }
      split; [eapply (evict_kinv (total_keep p / Z.of_nat (count p))); [exact K|lia|apply Z.div_pos; lia|exact Hc|exact E1]|].
      intros Cm. exfalso. specialize (Sm (total_keep p / Z.of_nat (count p))). lia.
    + intros A. specialize (Dl (total_keep p / Z.of_nat (count p)) A). lia.
Qed.

(** ** Finding, locking and unlocking *)
Lemma firstn_set_nth : forall A (l : list A) n i x, firstn n (set_nth i x l) = set_nth i x (firstn n l).
Proof.
  induction l as [|y l IH]; intros n i x; [destruct n, i; reflexivity|]. destruct i as [|i]; destruct n as [|n]; cbn [set_nth firstn]; try reflexivity. f_equal. apply IH.
Qed.
Lemma get_mapped : forall p i, (i < count p)%nat -> get_slot p i = nth i (mapped p) no_slot.
Proof.
  intros p i. unfold get_slot, mapped. revert i. generalize (slots p) (count p). induction l as [|x l IH]; intros n i Hi; [destruct n; reflexivity|]. destruct n as [|n]; [lia|]. cbn [firstn]. destruct i as [|i]; cbn [nth]; [reflexivity|]. apply IH. lia.
Qed.
Lemma mapped_length : forall p, (count p <= length (slots p))%nat -> length (mapped p) = count p.
Proof. intros p H. unfold mapped. rewrite firstn_length. lia. Qed.
Lemma split_mapped : forall p i, (i < count p)%nat -> (count p <= length (slots p))%nat ->
  exists a c, mapped p = a ++ get_slot p i :: c /\ length a = i /\ forall s, mapped (set_slot p i s) = a ++ s :: c.
Proof.
  intros p i Hi Hc. destruct (split_nth _ (mapped p) i no_slot) as (a & c & E & La); [rewrite mapped_length; assumption|]. rewrite <- get_mapped in E by assumption.
  exists a, c. split; [exact E|]. split; [exact La|]. intros s. unfold mapped in *. cbn [set_slot slots count]. rewrite firstn_set_nth, E, <- La. apply set_nth_app.
Qed.
Lemma find_from_spec : forall p pos n i j f, find_from p pos n i = (j, f) ->
  if f then (i <= j < i + n)%nat /\ s_pos (get_slot p j) = pos else forall k, (i <= k < i + n)%nat -> s_pos (get_slot p k) <> pos.
Proof.
  intros p pos. induction n as [|n IH]; intros i j f E; cbn [find_from] in E.
  - injection E as <- <-. intros k Hk. lia.
  - destruct (Z.eqb_spec (s_pos (get_slot p i)) pos) as [Ep|Ep].
    + injection E as <- <-. split; [lia|exact Ep].
    + specialize (IH (S i) j f E). destruct f.
      * destruct IH as (A & B). split; [lia|exact B].
      * intros k Hk. destruct (Nat.eq_dec k i) as [->|Hn]; [exact Ep|]. apply IH. lia.
Qed.
Lemma find_spec : forall p pos j f, (count p <= length (slots p))%nat -> find_mapped_page p pos = (j, f) ->
  if f then (j < count p)%nat /\ s_pos (get_slot p j) = pos else forall s, In s (mapped p) -> s_pos s <> pos.
Proof.
  intros p pos j f Hc E. apply find_from_spec in E. destruct f; [split; [lia|tauto]|].
  intros s I. apply (In_nth _ _ no_slot) in I. destruct I as (k & Hk & <-). rewrite mapped_length in Hk by assumption. rewrite <- get_mapped by assumption. apply E. lia.
Qed.
Definition bump (H : Z -> Z) (pos d : Z) : Z -> Z := fun q => if q =? pos then H q + d else H q.

Lemma nodup_mid : forall A B (f : A -> B) a x c, NoDup (map f (a ++ x :: c)) -> forall y, In y (a ++ c) -> f y <> f x.
Proof.
  intros A B f a x c N y I E. rewrite map_app in N. cbn [map] in N. apply NoDup_remove_2 in N. apply N. rewrite <- map_app, <- E. apply in_map, I.
Qed.
Lemma in_mid : forall A (a c : list A) x y, In y (a ++ x :: c) <-> y = x \/ In y (a ++ c).
Proof. intros. rewrite !in_app_iff. cbn [In]. intuition (subst; auto). Qed.
(** Changing the lock count of the slot of [pos]. *)
Lemma relock : forall max p H p' i s' pos d, pinv max p H -> (i < count p)%nat -> s_pos (get_slot p i) = pos -> s_pos s' = pos -> s_ptr s' = s_ptr (get_slot p i) -> s_lock s' = H pos + d -> 0 <= H pos + d ->
  slots p' = slots (set_slot p i s') -> count p' = count p -> os p' = os p -> os_next p' = os_next p ->
  pinv max p' (bump H pos d) /\ kept_all p p' /\ In s' (mapped p') /\ (forall n k, kinv p n -> s_keep s' = s_keep (get_slot p i) + k -> 0 <= k -> total_keep p' = total_keep p + k -> kinv p' (n + k)).
Proof.
  intros max p H p' i s' pos d I Hi Ep Es Et El Hd Sl Cn Os Ox. destruct I as [L C P T K D N O U X].
  destruct (split_mapped p i Hi ltac:(lia)) as (a & c & M & La & Ms). specialize (Ms s').
  assert (mapped p' = a ++ s' :: c) as M' by (rewrite <- Ms; unfold mapped; rewrite Sl, Cn; reflexivity).
  set (s := get_slot p i) in *.
  assert (map s_pos (a ++ s' :: c) = map s_pos (a ++ s :: c)) as Qp by (rewrite !map_app; cbn [map]; congruence).
  assert (map s_ptr (a ++ s' :: c) = map s_ptr (a ++ s :: c)) as Qt by (rewrite !map_app; cbn [map]; congruence).
  assert (map pair (a ++ s' :: c) = map pair (a ++ s :: c)) as Qm by (rewrite !map_app; cbn [map]; unfold pair at 2 5; rewrite Et, Es, Ep; reflexivity).
  rewrite M in P, T, O. assert (In s (mapped p)) as Is by (rewrite M; apply in_or_app; right; left; reflexivity).
  split; [constructor|split; [|split]].
  - rewrite Sl. cbn [set_slot slots]. rewrite set_nth_length. exact L.
  - rewrite Cn. exact C.
  - rewrite M', Qp. exact P.
  - rewrite M', Qt. exact T.
  - intros x Ix. rewrite M' in Ix. apply in_mid in Ix. rewrite Ox. unfold bump. destruct Ix as [->|Ix].
    + rewrite Es, Z.eqb_refl, Et. split; [exact El|]. apply K, Is.
    + pose proof (nodup_mid _ _ _ _ _ _ P x Ix) as Np. rewrite Ep in Np. rewrite (proj2 (Z.eqb_neq _ _) Np). apply K. rewrite M. apply in_mid. right. exact Ix.
  - intros q Hq. unfold bump in Hq. destruct (Z.eqb_spec q pos) as [Eq|Nq]; [try rewrite Eq in *|].
    + exists s'. split; [rewrite M'; apply in_mid; left; reflexivity|exact Es].
    + destruct (D q Hq) as (x & Ix & Ex). exists x. split; [|exact Ex]. rewrite M in Ix. rewrite M'. apply in_mid. apply in_mid in Ix. destruct Ix as [->|Ix]; [congruence|right; exact Ix].
  - intros q. unfold bump. destruct (Z.eqb_spec q pos) as [Eq|Nq]; [try rewrite Eq in *|]; [exact Hd|apply N].
  - rewrite Os, M', Qm. exact O.
  - rewrite Os. exact U.
  - rewrite Ox. exact X.
  - intros x Ix. rewrite M in Ix. apply in_mid in Ix. destruct Ix as [->|Ix].
    + exists s'. split; [rewrite M'; apply in_mid; left; reflexivity|]. split; congruence.
    + exists x. split; [rewrite M'; apply in_mid; right; exact Ix|]. split; reflexivity.
  - rewrite M'. apply in_mid. left. reflexivity.
  - intros n k (Kk & Ks) Ek Hk Tk. rewrite M in Kk, Ks. rewrite sumk_app in Ks. cbn [sumk] in Ks. split.
    + intros x Ix. rewrite M' in Ix. apply in_mid in Ix. destruct Ix as [->|Ix]; [rewrite Ek; pose proof (Kk s ltac:(apply in_mid; left; reflexivity)); lia|]. apply Kk, in_mid. right. exact Ix.
    + rewrite M', sumk_app. cbn [sumk]. lia.
Qed.
(** Mapping a page into a free slot. *)
Lemma map_new : forall max p H pos, pinv max p H -> (count p < max)%nat -> (forall s, In s (mapped p) -> s_pos s <> pos) ->
  let (p', ptr) := map_new_page p (count p) pos true in
  pinv max p' (bump H pos 1) /\ stable p p' H /\ ptr <> 0 /\ (count p' = S (count p)) /\ (exists s, In s (mapped p') /\ s_pos s = pos /\ s_ptr s = ptr) /\ (forall n, kinv p n -> n + 1 < 2 ^ 32 -> kinv p' (n + 1)).
Proof.
  intros max p H pos I Hc Nf. destruct I as [L C P T K D N O U X]. unfold map_new_page. cbn [mmap].
  set (s' := {| s_pos := pos; s_ptr := os_next p; s_lock := 1; s_keep := 1 |}).
  match goal with |- pinv max ?q _ /\ _ => set (p' := q) end.
  assert (H pos = 0) as H0. { pose proof (N pos). destruct (Z.eq_dec (H pos) 0) as [|Hn]; [assumption|]. destruct (D pos ltac:(lia)) as (s & Is & Es). exfalso. exact (Nf s Is Es). }
  assert (mapped p' = mapped p ++ [s']) as M'.
  { unfold p', mapped. cbn [add_lock set_total set_slot set_count count slots]. rewrite firstn_set_nth.
    destruct (split_nth _ (slots p) (count p) no_slot) as (a & c & E & La); [lia|]. rewrite E.
    rewrite <- La at 2. replace (S (length a)) with (length a + 1)%nat by lia. rewrite firstn_app_2. cbn [firstn].
    rewrite <- La. rewrite set_nth_app. rewrite firstn_app, Nat.sub_diag, firstn_all. cbn [firstn]. rewrite app_nil_r. reflexivity. }
  assert (forall x, In x (mapped p') <-> In x (mapped p) \/ x = s') as Im by (intros; rewrite M', in_app_iff; cbn [In]; intuition).
  assert (forall A (f : slot -> A), NoDup (map f (mapped p)) -> (forall x, In x (mapped p) -> f x <> f s') -> NoDup (map f (mapped p'))) as Nd.
  { intros A f Hn Hf. rewrite M', map_app. cbn [map]. eapply Permutation_NoDup; [apply Permutation_cons_append|]. constructor; [|exact Hn]. intros Ix. apply in_map_iff in Ix. destruct Ix as (x & Ex & Ix). exact (Hf x Ix Ex). }
  split; [constructor|split; [|split; [|split; [|split]]]].
  - unfold p'. cbn [add_lock set_total set_slot set_count count slots]. rewrite set_nth_length. exact L.
  - unfold p'. cbn [add_lock set_total set_slot set_count count slots]. lia.
  - apply Nd; [exact P|]. intros x Ix. cbn [s' s_pos]. apply Nf, Ix.
  - apply Nd; [exact T|]. intros x Ix. cbn [s' s_ptr]. pose proof (proj2 (K x Ix)). lia.
  - intros x Ix. apply Im in Ix. unfold p'. cbn [add_lock set_total set_slot set_count os_next]. unfold bump. destruct Ix as [Ix| ->].
    + rewrite (proj2 (Z.eqb_neq _ _) (Nf x Ix)). pose proof (K x Ix). split; [tauto|lia].
    + cbn [s' s_pos s_lock s_ptr]. rewrite Z.eqb_refl. lia.
  - intros q Hq. unfold bump in Hq. destruct (Z.eqb_spec q pos) as [Eq|Nq]; [try rewrite Eq in *|].
    + exists s'. split; [apply Im; right; reflexivity|reflexivity].
    + destruct (D q Hq) as (x & Ix & Ex). exists x. split; [apply Im; left; exact Ix|exact Ex].
  - intros q. unfold bump. pose proof (N q). destruct (q =? pos); lia.
  - intros m. rewrite M', map_app, in_app_iff. cbn [map In]. unfold p'. cbn [add_lock set_total set_slot set_count os In]. rewrite O. unfold s', pair at 2. cbn [s_pos s_ptr]. tauto.
  - unfold p'. cbn [add_lock set_total set_slot set_count os]. constructor; [|exact U]. intros Ix. apply O in Ix. apply in_map_iff in Ix. destruct Ix as (x & Ex & Ix). injection Ex as Ex _. pose proof (proj2 (K x Ix)). lia.
  - unfold p'. cbn [add_lock set_total set_slot set_count os_next]. lia.
  - intros x Ix _. exists x. split; [apply Im; left; exact Ix|]. split; reflexivity.
  - lia.
  - reflexivity.
  - exists s'. split; [apply Im; right; reflexivity|]. split; reflexivity.
  - intros n (Kk & Ks) Hn. split.
    + intros x Ix. apply Im in Ix. destruct Ix as [Ix| ->]; [apply Kk, Ix|cbn [s' s_keep]; lia].
    + rewrite M', sumk_app. unfold p'. cbn [add_lock set_total set_slot set_count total_keep sumk s' s_keep].
      assert (0 <= sumk (mapped p)). { clear - Kk. induction (mapped p) as [|y l IHl]; cbn [sumk]; [lia|]. pose proof (Kk y (or_introl eq_refl)). assert (0 <= sumk l) by (apply IHl; intros; apply Kk; right; assumption). lia. }
      rewrite u32_small by lia. lia.
Qed.
Lemma swap_perm : forall A (l : list A) i j d, (j < i < length l)%nat -> Permutation l (set_nth i (nth j l d) (set_nth j (nth i l d) l)).
Proof.
  intros A. induction l as [|x l IH]; intros i j d H; [cbn [length] in H; lia|]. destruct i as [|i]; [lia|]. cbn [length] in H. destruct j as [|j]; cbn [nth set_nth].
  - destruct (split_nth _ l i d) as (a & c & E & La); [lia|]. set (y := nth i l d) in *. rewrite E, <- La, set_nth_app.
    apply perm_trans with (x :: y :: a ++ c); [apply perm_skip, Permutation_sym, Permutation_middle|]. apply perm_trans with (y :: x :: a ++ c); [apply perm_swap|]. apply perm_skip, Permutation_middle.
  - apply perm_skip, IH. lia.
Qed.
Lemma get_other : forall A (l : list A) i j x d, i <> j -> nth j (set_nth i x l) d = nth j l d.
Proof. induction l as [|y l IH]; intros i j x d H; [destruct i; reflexivity|]. destruct i, j; cbn [set_nth nth]; try reflexivity; try congruence. apply IH. congruence. Qed.
Lemma optimize_perm : forall n p j i, (j + n = i)%nat -> (i < count p)%nat -> (count p <= length (slots p))%nat ->
  let p' := optimize_loop n p j i in
  Permutation (mapped p) (mapped p') /\ length (slots p') = length (slots p) /\ count p' = count p /\ os p' = os p /\ os_next p' = os_next p /\ total_keep p' = total_keep p /\ total_locks p' = total_locks p.
Proof.
  induction n as [|n IH]; intros p j i Hj Hi Hc; cbn [optimize_loop]; [repeat split; reflexivity|].
  destruct (_ <? _); [|apply IH; lia]. cbn [set_slot count os os_next total_keep total_locks slots]. rewrite !set_nth_length.
  split; [|repeat split; reflexivity]. unfold mapped. cbn [set_slot count slots]. rewrite !firstn_set_nth.
  rewrite (get_mapped p i) by lia. rewrite (get_mapped p j) by lia. apply swap_perm. unfold mapped. rewrite firstn_length. lia.
Qed.
Lemma optimize_inv : forall max p H i, pinv max p H -> (i < count p)%nat -> pinv max (optimize_mapped_page p i) H /\ stable p (optimize_mapped_page p i) H /\
  (forall s, In s (mapped p) -> In s (mapped (optimize_mapped_page p i))) /\ (forall n, kinv p n -> kinv (optimize_mapped_page p i) n) /\ count (optimize_mapped_page p i) = count p.
Proof.
  intros max p H i I Hi. pose proof (pi_len _ _ _ I) as L. pose proof (pi_count _ _ _ I) as C. destruct (optimize_perm i p O i ltac:(lia) Hi ltac:(lia)) as (Pm & Ls & Cn & Os & Ox & Tk & _).
  fold (optimize_mapped_page p i) in *. destruct (pinv_perm _ _ _ _ Pm Ls Cn Os Ox I) as (A & B). split; [exact A|]. split; [exact B|]. split; [intros s; apply Permutation_in, Pm|]. split; [|exact Cn].
  intros n (Kk & Ks). split; [|rewrite Tk, <- (sumk_perm _ _ Pm); exact Ks]. intros s Is. apply Kk. eapply Permutation_in; [apply Permutation_sym, Pm|exact Is].
Qed.

(** ** lock_page and unlock_page *)
Lemma lock_spec : forall max p H pos p' ptr, (1 <= max)%nat -> pinv max p H -> (forall q, H q + 1 < 2 ^ 32) -> lock_page p pos true = (p', ptr) ->
  stable p p' H /\ (forall s, In s (mapped p) -> s_pos s = pos -> exists s', In s' (mapped p') /\ s_pos s' = s_pos s /\ s_ptr s' = s_ptr s) /\
  (ptr <> 0 -> pinv max p' (bump H pos 1) /\ exists s, In s (mapped p') /\ s_pos s = pos /\ s_ptr s = ptr) /\
  (ptr = 0 -> pinv max p' H /\ H pos = 0 /\ forall n, kinv p n -> n + 1 < 2 ^ 32 -> count p' = max /\ forall s, In s (mapped p') -> 0 < s_lock s) /\
  (forall n, kinv p n -> n + 1 < 2 ^ 32 -> kinv p' (n + 1)) /\
  (count p = max -> (forall s, In s (mapped p) -> 0 < s_lock s /\ s_pos s <> pos) -> ptr = 0).
Proof.
  intros max p H pos p' ptr Hmax I Hb E. pose proof (pi_len _ _ _ I) as L. pose proof (pi_count _ _ _ I) as C. unfold lock_page in E.
  destruct (find_mapped_page p pos) as (j & f) eqn:Ef. apply find_spec in Ef; [|lia]. destruct f; cbn [negb andb] in E.
  - destruct Ef as (Hj & Ej). rewrite (proj2 (Nat.ltb_lt _ _) Hj) in E. destruct (lock_mapped_page p j) as (p1 & pt) eqn:El. injection E as <- <-. unfold lock_mapped_page in El. injection El as <- <-.
    set (s := get_slot p j) in *. assert (In s (mapped p)) as Is by (unfold s; rewrite get_mapped by exact Hj; apply nth_In; rewrite mapped_length; lia).
    destruct (pi_lock _ _ _ I s Is) as (Lk & Pt). rewrite Ej in Lk. pose proof (pi_nonneg _ _ _ I pos) as N0. specialize (Hb pos).
    set (s' := {| s_pos := s_pos s; s_ptr := s_ptr s; s_lock := wrap_u32 (s_lock s + 1); s_keep := wrap_u32 (s_keep s + 1) |}).
    set (p1 := add_lock _) in *.
    destruct (relock max p H p1 j s' pos 1 I Hj Ej Ej eq_refl) as (A & B & Im & Kn); try reflexivity; [cbn [s' s_lock]; rewrite Lk; apply u32_small; lia|lia|].
    destruct (optimize_inv max p1 _ j A Hj) as (A2 & B2 & Im2 & Kn2 & _).
    assert (kept_all p (optimize_mapped_page p1 j)) as Ka.
    { intros x Ix. destruct (B x Ix) as (y & Iy & Ey). exists y. split; [apply Im2, Iy|exact Ey]. }
    split; [apply kept_stable, Ka|]. split; [intros x Ix _; exact (Ka x Ix)|]. split; [|split; [|split]].
    + intros _. split; [exact A2|]. exists s'. split; [apply Im2, Im|]. split; [exact Ej|reflexivity].
    + intros Z0. lia.
    + intros n K Hn. apply Kn2. pose proof K as (Kk & Ks). pose proof (Kk s Is). pose proof (sumk_in _ _ Kk Is). apply Kn; [exact K| |lia|].
      * cbn [s' s_keep]. apply u32_small. fold s. lia.
      * unfold p1. cbn [add_lock set_total set_slot total_keep]. apply u32_small. lia.
    + intros _ A0. exfalso. exact (proj2 (A0 s Is) Ej).
  - assert (forall q, In q (mapped p) -> s_pos q <> pos) as Nf by exact Ef. clear Ef.
    assert (H pos = 0) as H0. { pose proof (pi_nonneg _ _ _ I pos). destruct (Z.eq_dec (H pos) 0) as [|Hn]; [assumption|]. destruct (pi_held _ _ _ I pos ltac:(lia)) as (s & Is & Es). exfalso. exact (Nf s Is Es). }
    assert (forall q, pinv max q H -> stable p q H -> (forall n, kinv p n -> n + 1 < 2 ^ 32 -> kinv q n) -> (count q < max)%nat -> (forall s, In s (mapped q) -> s_pos s <> pos) ->
      (let '(q1, pt) := (if (count q <? count q)%nat then lock_mapped_page q (count q) else map_new_page q (count q) pos true) in (optimize_mapped_page q1 (count q), pt)) = (p', ptr) ->
      stable p p' H /\ (pinv max p' (bump H pos 1) /\ exists s, In s (mapped p') /\ s_pos s = pos /\ s_ptr s = ptr) /\ ptr <> 0 /\ (forall n, kinv p n -> n + 1 < 2 ^ 32 -> kinv p' (n + 1))) as Go.
    { intros q Iq Sq Kq Hc Nq Eq. rewrite Nat.ltb_irrefl in Eq. pose proof (map_new max q H pos Iq Hc Nq) as Mn. destruct (map_new_page q (count q) pos true) as (q1 & pt). injection Eq as <- <-.
      destruct Mn as (A & B & Nz & Cq & (s & Is & Es & Et) & Kn). destruct (optimize_inv max q1 _ (count q) A ltac:(lia)) as (A2 & B2 & Im2 & Kn2 & _).
      split; [eapply stable_trans; [exact Sq|]; eapply stable_trans; [exact B|]; intros x Ix Px; exists x; split; [apply Im2, Ix|split; reflexivity]|].
      split; [split; [exact A2|]; exists s; split; [apply Im2, Is|split; assumption]|]. split; [exact Nz|]. intros n K Hn. apply Kn2, Kn; [apply Kq; assumption|exact Hn]. }
    destruct (has_mapping_capacity p) eqn:Eh; cbn [negb] in E.
    + rewrite Eh in E. cbn [negb andb] in E. unfold has_mapping_capacity in Eh. apply Nat.ltb_lt in Eh. destruct (Go p I (stable_refl _ _) (fun n K _ => K) ltac:(lia) Nf E) as (A & B & Nz & Kn).
      split; [exact A|]. split; [intros x Ix Ex; exfalso; exact (Nf x Ix Ex)|]. split; [intros _; exact B|]. split; [intros; contradiction|]. split; [exact Kn|]. intros; lia.
    + unfold has_mapping_capacity in Eh. apply Nat.ltb_ge in Eh. assert (count p = length (slots p)) as Hc by lia.
      destruct (make_room max p H Hmax I Hc) as (I1 & S1 & K1 & F1). set (q := make_mapping_capacity p) in *.
      destruct (has_mapping_capacity q) eqn:Eq; cbn [negb andb] in E.
      * unfold has_mapping_capacity in Eq. apply Nat.ltb_lt in Eq. pose proof (pi_len _ _ _ I1) as L1.
        assert (forall s, In s (mapped q) -> s_pos s <> pos) as Nq.
        { intros s Is. assert (In (s_pos s) (map s_pos (mapped p))) as Ip; [|apply in_map_iff in Ip; destruct Ip as (x & <- & Ix); apply Nf, Ix].
          clear - Is Hc. unfold q, make_mapping_capacity in Is. destruct (make_capacity_above p (total_keep p / Z.of_nat (count p))) as (p1 & u) eqn:E1.
          destruct (capacity_above (total_keep p / Z.of_nat (count p)) p Hc) as (p1' & E1' & M1 & L1 & C1 & _). rewrite E1 in E1'. injection E1' as <- Eu.
          assert (forall s, In s (mapped p1) -> In (s_pos s) (map s_pos (mapped p))) as A1.
          { intros x Ix. rewrite M1 in Ix. apply in_map_iff in Ix. destruct Ix as (y & <- & Iy). apply filter_In in Iy. cbn [lowered s_pos]. apply in_map. rewrite (mapped_full p Hc). tauto. }
          destruct u as [|u]; cbn [Nat.ltb Nat.leb] in Is; [|apply A1, Is].
          assert (count p1 = length (slots p1)) as Hc1.
          { rewrite C1, L1. revert Eu. generalize (total_keep p / Z.of_nat (count p)). intros min. unfold dropped. clear. induction (slots p) as [|x l IH]; [reflexivity|]. cbn [filter]. destruct (kept min x); cbn [negb length]; [intros; f_equal; apply IH; assumption|discriminate]. }
          destruct (capacity_above (wrap_u32 (total_keep p1 + 1)) p1 Hc1) as (p2 & E2 & M2 & _). rewrite E2 in Is. cbn [fst] in Is. rewrite M2 in Is. apply in_map_iff in Is. destruct Is as (y & <- & Iy). apply filter_In in Iy. cbn [lowered s_pos]. apply A1. rewrite (mapped_full p1 Hc1). tauto. }
        destruct (Go q I1 S1 (fun n K Hn => proj1 (K1 n K Hn)) ltac:(lia) Nq E) as (A & B & Nz & Kn).
        split; [exact A|]. split; [intros x Ix Ex; exfalso; exact (Nf x Ix Ex)|]. split; [intros _; exact B|]. split; [intros; contradiction|]. split; [exact Kn|]. intros _ A0. exfalso. rewrite F1 in Eq; [lia|]. intros s Is. apply (A0 s Is).
      * injection E as <- <-. unfold has_mapping_capacity in Eq. apply Nat.ltb_ge in Eq. pose proof (pi_len _ _ _ I1) as L1. pose proof (pi_count _ _ _ I1) as C1.
        split; [exact S1|]. split; [intros x Ix Ex; exfalso; exact (Nf x Ix Ex)|]. split; [intros; congruence|]. split; [|split].
        -- intros _. split; [exact I1|]. split; [exact H0|]. intros n K Hn. split; [lia|]. apply (proj2 (K1 n K Hn)). lia.
        -- intros n K Hn. destruct (proj1 (K1 n K Hn)) as (a & b). split; [exact a|lia].
        -- reflexivity.
Qed.
Lemma unlock_spec : forall max p H pos, pinv max p H -> 0 < H pos < 2 ^ 32 -> pinv max (unlock_page p pos) (bump H pos (-1)) /\ kept_all p (unlock_page p pos) /\ (forall n, kinv p n -> kinv (unlock_page p pos) n).
Proof.
  intros max p H pos I Hp. unfold unlock_page. destruct (find_mapped_page p pos) as (j & f) eqn:Ef. pose proof (pi_len _ _ _ I) as L. pose proof (pi_count _ _ _ I) as C. apply find_spec in Ef; [|lia]. destruct f.
  - destruct Ef as (Hj & Ej). assert (In (get_slot p j) (mapped p)) as Is by (rewrite get_mapped by exact Hj; apply nth_In; rewrite mapped_length; lia).
    destruct (pi_lock _ _ _ I _ Is) as (Lk & _). rewrite Ej in Lk.
    destruct (relock max p H (unlock_mapped_page p j) j {| s_pos := s_pos (get_slot p j); s_ptr := s_ptr (get_slot p j); s_lock := wrap_u32 (s_lock (get_slot p j) - 1); s_keep := s_keep (get_slot p j) |} pos (-1) I Hj Ej Ej eq_refl) as (A & B & _ & Kn); try reflexivity.
    + cbn [s_lock]. rewrite Lk. apply u32_small. lia.
    + lia.
    + split; [exact A|]. split; [exact B|]. intros n K. replace n with (n + 0) by lia. apply (Kn n 0 K); [cbn [s_keep]; lia|lia|cbn [unlock_mapped_page set_slot total_keep]; lia].
  - exfalso. destruct (pi_held _ _ _ I pos ltac:(lia)) as (s & Is & Es). exact (Ef s Is Es).
Qed.
