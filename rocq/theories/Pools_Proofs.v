(** Proofs for C116. *)

From Coq Require Import ZArith List Bool Lia Permutation.
From Verif Require Import Base Cache_Model Cache_Spec Cache_Proofs Cache_World Pools_Model Pools_Spec.
Import ListNotations.
Open Scope Z_scope.

(** ** Every mapping is in a slot *)
Definition covered (p : pool) : Prop := (count p <= length (slots p))%nat /\ forall m, In m (os p) -> exists s, In s (mapped p) /\ s_ptr s = fst m.

Lemma covered_perm : forall p p', Permutation (mapped p) (mapped p') -> length (slots p') = length (slots p) -> count p' = count p -> os p' = os p -> covered p -> covered p'.
Proof.
  intros p p' Pm L C O (Hc & Hm). split; [lia|]. rewrite O. intros m I. destruct (Hm m I) as (s & Is & Es). exists s. split; [eapply Permutation_in; eassumption|exact Es].
Qed.
Lemma in_unmapped : forall l o m, In m (unmapped_os l o) <-> In m o /\ forall s, In s l -> s_ptr s <> fst m.
Proof.
  intros l o m. unfold unmapped_os. rewrite filter_In. split; intros (A & B); (split; [exact A|]).
  - intros s Is E. rewrite negb_true_iff in B. assert (existsb (fun s => s_ptr s =? fst m) l = true) as X by (apply existsb_exists; exists s; split; [exact Is|apply Z.eqb_eq, E]). congruence.
  - rewrite negb_true_iff. destruct (existsb _ l) eqn:X; [|reflexivity]. apply existsb_exists in X. destruct X as (s & Is & E). apply Z.eqb_eq in E. exfalso. exact (B s Is E).
Qed.
Lemma filter_split : forall min l, (length (filter (kept min) l) + length (dropped min l) = length l)%nat.
Proof. intros min. induction l as [|s l IH]; [reflexivity|]. unfold dropped in *. cbn [filter]. destruct (kept min s); cbn [negb length]; lia. Qed.
Lemma capacity_covered : forall min p p' n, count p = length (slots p) -> covered p -> make_capacity_above p min = (p', n) ->
  covered p' /\ length (slots p') = length (slots p) /\ (n = O -> count p' = length (slots p')) /\ (os p = [] -> os p' = []).
Proof.
  intros min p p' n Hc (_ & Hm) E. destruct (capacity_above min p Hc) as (q & Eq & M & L & C & _ & _ & O & _). rewrite E in Eq. injection Eq as <- ->.
  pose proof (filter_split min (slots p)) as Sm.
  split; [split|split; [exact L|split]].
  - lia.
  - intros m I. rewrite O in I. apply in_unmapped in I. destruct I as (I & D). destruct (Hm m I) as (s & Is & Es). rewrite (mapped_full p Hc) in Is.
    exists (lowered min s). split; [|exact Es]. rewrite M. apply in_map. apply filter_In. split; [exact Is|].
    destruct (kept min s) eqn:K; [reflexivity|]. exfalso. apply (D s); [|exact Es]. unfold dropped. apply filter_In. rewrite K. auto.
  - intros Z. lia.
  - intros Z. rewrite O, Z. reflexivity.
Qed.
Lemma room_covered : forall p, count p = length (slots p) -> covered p ->
  covered (make_mapping_capacity p) /\ length (slots (make_mapping_capacity p)) = length (slots p) /\ (os p = [] -> os (make_mapping_capacity p) = []).
Proof.
  intros p Hc K. unfold make_mapping_capacity. destruct (make_capacity_above p _) as (p1 & u) eqn:E1.
  destruct (capacity_covered _ _ _ _ Hc K E1) as (K1 & L1 & C1 & O1). destruct (Nat.ltb_spec 0 u) as [Hu|Hu]; [auto|].
  destruct (make_capacity_above p1 _) as (p2 & u2) eqn:E2. cbn [fst].
  assert (u = O) as U by lia. destruct (capacity_covered _ _ _ _ (C1 U) K1 E2) as (K2 & L2 & _ & O2). split; [exact K2|]. split; [lia|auto].
Qed.
(** A slot whose pointer stays. *)
Lemma slot_covered : forall p p' i s, covered p -> (i < count p)%nat -> s_ptr s = s_ptr (get_slot p i) -> slots p' = slots (set_slot p i s) -> count p' = count p -> os p' = os p -> covered p'.
Proof.
  intros p p' i s (Hc & Hm) Hi Es Sl Cn Os. destruct (split_mapped p i Hi Hc) as (a & c & M & La & Ms). specialize (Ms s).
  assert (mapped p' = a ++ s :: c) as M' by (rewrite <- Ms; unfold mapped; rewrite Sl, Cn; reflexivity).
  split; [rewrite Sl, Cn; cbn [set_slot slots]; rewrite set_nth_length; exact Hc|].
  rewrite Os. intros m I. destruct (Hm m I) as (x & Ix & Ex). rewrite M in Ix. apply in_mid in Ix. rewrite M'. destruct Ix as [->|Ix].
  - exists s. split; [apply in_mid; left; reflexivity|congruence].
  - exists x. split; [apply in_mid; right; exact Ix|exact Ex].
Qed.
Lemma new_covered : forall p pos ok, covered p -> (count p < length (slots p))%nat ->
  let p' := fst (map_new_page p (count p) pos ok) in
  covered p' /\ count p' = S (count p) /\ length (slots p') = length (slots p) /\ (ok = false -> os p' = os p).
Proof.
  intros p pos ok (Hc & Hm) Hl. unfold map_new_page, mmap.
  destruct (split_nth _ (slots p) (count p) no_slot) as (a & c & E & La); [lia|].
  assert (forall x q, slots q = set_nth (count p) x (slots p) -> count q = S (count p) -> mapped q = mapped p ++ [x]) as M.
  { intros x q Sq Cq. unfold mapped. rewrite Sq, Cq, firstn_set_nth, E.
    rewrite <- La at 2. replace (S (length a)) with (length a + 1)%nat by lia. rewrite firstn_app_2. cbn [firstn].
    rewrite <- La. rewrite set_nth_app. rewrite firstn_app, Nat.sub_diag, firstn_all. cbn [firstn]. rewrite app_nil_r. reflexivity. }
  destruct ok; cbn [fst]; (split; [split|]); cbn [add_lock set_total set_slot set_count count slots os]; rewrite ?set_nth_length; try lia; try (split; [reflexivity|]; split; [reflexivity|]; try discriminate; try reflexivity).
  - intros m [<-|I].
    + eexists. split; [erewrite M by reflexivity; apply in_app_iff; right; left; reflexivity|reflexivity].
    + destruct (Hm m I) as (s & Is & Es). exists s. split; [erewrite M by reflexivity; apply in_app_iff; left; exact Is|exact Es].
  - intros m I. destruct (Hm m I) as (s & Is & Es). exists s. split; [erewrite M by reflexivity; apply in_app_iff; left; exact Is|exact Es].
Qed.
Lemma optimize_covered : forall p i, covered p -> (i < count p)%nat -> covered (optimize_mapped_page p i) /\ os (optimize_mapped_page p i) = os p.
Proof.
  intros p i K Hi. destruct (optimize_perm i p O i ltac:(lia) Hi (proj1 K)) as (Pm & Ls & Cn & Os & _). fold (optimize_mapped_page p i) in *.
  split; [eapply covered_perm; eassumption|exact Os].
Qed.
Lemma lock_covered : forall p pos ok p' ptr, covered p -> lock_page p pos ok = (p', ptr) -> covered p' /\ (ok = false -> os p = [] -> os p' = []).
Proof.
  intros p pos ok p' ptr K E. unfold lock_page in E. destruct (find_mapped_page p pos) as (i & f) eqn:F.
  pose proof (find_spec p pos i f (proj1 K) F) as Fs. destruct f; cbn [negb andb] in E.
  - destruct Fs as (Hi & _). rewrite (proj2 (Nat.ltb_lt _ _) Hi) in E. unfold lock_mapped_page in E. injection E as <- _.
    match goal with |- covered (optimize_mapped_page ?q _) /\ _ => set (q0 := q) end.
    assert (covered q0) as K0 by (eapply (slot_covered p q0 i); [exact K|exact Hi| |reflexivity|reflexivity|reflexivity]; reflexivity).
    destruct (optimize_covered q0 i K0 Hi) as (A & B). split; [exact A|]. intros _ Z. rewrite B. exact Z.
  - set (p1 := if negb (has_mapping_capacity p) then make_mapping_capacity p else p) in *.
    assert (covered p1 /\ (os p = [] -> os p1 = [])) as (K1 & O1).
    { unfold p1. destruct (has_mapping_capacity p) eqn:H; cbn [negb]; [auto|]. unfold has_mapping_capacity in H. apply Nat.ltb_ge in H.
      destruct (room_covered p ltac:(destruct K; lia) K) as (A & _ & B). auto. }
    destruct (has_mapping_capacity p1) eqn:H1; cbn [negb] in E.
    + rewrite Nat.ltb_irrefl in E. unfold has_mapping_capacity in H1. apply Nat.ltb_lt in H1.
      destruct (new_covered p1 pos ok K1 H1) as (A & B & C & D). destruct (map_new_page p1 (count p1) pos ok) as (p2 & q) eqn:En. cbn [fst] in *. injection E as <- _.
      destruct (optimize_covered p2 (count p1) A ltac:(lia)) as (A' & B'). split; [exact A'|]. intros Ok Z. rewrite B', (D Ok). auto.
    + injection E as <- _. auto.
Qed.
Lemma unlock_covered : forall p pos, covered p -> covered (unlock_page p pos) /\ os (unlock_page p pos) = os p.
Proof.
  intros p pos K. unfold unlock_page. destruct (find_mapped_page p pos) as (i & f) eqn:F. pose proof (find_spec p pos i f (proj1 K) F) as Fs. destruct f; [|auto].
  split; [|reflexivity]. eapply (slot_covered p _ i); [exact K|exact (proj1 Fs)| |reflexivity|reflexivity|reflexivity]; reflexivity.
Qed.
Lemma destroy_covered : forall p, covered p -> os (destroy_pool p) = [].
Proof.
  intros p (Hc & Hm). unfold destroy_pool. cbn [set_count os]. destruct (os (destroy_loop _ _ _)) as [|m r] eqn:Eo; [reflexivity|exfalso].
  assert (In m (os (destroy_loop (count p) p 0))) as Im by (rewrite Eo; left; reflexivity).
  apply destroy_loop_os in Im; [|lia|lia]. destruct Im as (A & B). destruct (Hm m A) as (s & Is & Es).
  apply (In_nth _ _ no_slot) in Is. destruct Is as (k & Hk & <-). rewrite mapped_length in Hk by assumption. rewrite <- get_mapped in Es by assumption. exact (B k ltac:(lia) Es).
Qed.

(** ** Every file has one owner *)
Definition fine (x : option owner) : Prop :=
  match x with
  | Some o => covered (p_cache o) /\ (p_ready o = true /\ 0 <= p_fd o \/ p_ready o = false /\ p_fd o = -1 /\ os (p_cache o) = [])
  | None => True
  end.
Definition fd_of (x : option owner) : list Z := match x with Some o => if p_ready o then [p_fd o] else [] | None => [] end.
Definition fds (l : list (option owner)) : list Z := flat_map fd_of l.
Record inv (w : world) : Prop := {
  iv_fine : Forall fine (w_pools w);
  iv_perm : Permutation (w_opened w) (fds (w_pools w) ++ w_closed w);
  iv_nodup : NoDup (w_opened w);
  iv_range : forall x, In x (w_opened w) -> 0 <= x < Z.of_nat (length (w_opened w));
  iv_left : w_left w = [] }.

Lemma at_split : forall w k o, pool_at w k = Some o -> exists a c, w_pools w = a ++ Some o :: c /\ length a = k.
Proof.
  intros w k o H. unfold pool_at in H. destruct (nth_error (w_pools w) k) as [[x|]|] eqn:E; try discriminate. injection H as ->. apply nth_error_split in E. destruct E as (a & c & E & L). eauto.
Qed.
Lemma inv_same : forall w w', w_pools w' = w_pools w -> w_opened w' = w_opened w -> w_closed w' = w_closed w -> w_left w' = w_left w -> inv w -> inv w'.
Proof. intros w w' A B C D [F P N R L]. constructor; rewrite ?A, ?B, ?C, ?D; assumption. Qed.
Lemma inv_cache : forall w k o p, inv w -> pool_at w k = Some o -> fine (Some (mkP p (p_fd o) (p_ready o))) -> inv (set_pool w k (Some (mkP p (p_fd o) (p_ready o)))).
Proof.
  intros w k o p [F P N R L] Hk Hf. destruct (at_split _ _ _ Hk) as (a & c & E & La). rewrite E in F, P.
  constructor; cbn [set_pool w_pools w_opened w_closed w_left]; try assumption; rewrite E, <- La, set_nth_app.
  - apply Forall_app in F. destruct F as (Fa & Fc). inversion Fc; subst. apply Forall_app. split; [exact Fa|]. constructor; assumption.
  - unfold fds in *. rewrite flat_map_app in *. exact P.
Qed.
Lemma fine_at : forall w k o, inv w -> pool_at w k = Some o -> fine (Some o).
Proof. intros w k o I H. destruct (at_split _ _ _ H) as (a & c & E & _). pose proof (iv_fine _ I) as F. rewrite E in F. apply Forall_app in F. destruct F as (_ & F). inversion F; assumption. Qed.
Lemma lock_inv : forall w g ok w' g', inv w -> h_lock w g ok = Some (w', g') -> inv w'.
Proof.
  intros w g ok w' g' I E. unfold h_lock in E. destruct (pool_at w (g_of g)) as [o|] eqn:Eo; [|discriminate].
  unfold page_lock in E. destruct (lock_page _ _ _) as (p & ptr) eqn:Ep. injection E as <- _.
  pose proof (fine_at _ _ _ I Eo) as (K & S). destruct (lock_covered _ _ _ _ _ K Ep) as (K' & O'). apply inv_cache; [exact I|exact Eo|].
  cbn [fine p_cache p_ready p_fd]. split; [exact K'|]. destruct S as [S|(A & B & C)]; [left; exact S|right]. split; [exact A|]. split; [exact B|]. apply O'; [|exact C].
  rewrite B. apply andb_false_r.
Qed.
Lemma unlock_inv : forall w g w' g', inv w -> h_unlock w g = Some (w', g') -> inv w'.
Proof.
  intros w g w' g' I E. unfold h_unlock in E. destruct (h_pool (g_h g) && _ && _) eqn:C; [|injection E as <- _; exact I].
  destruct (pool_at w (g_of g)) as [o|] eqn:Eo; [|discriminate]. unfold page_unlock in E. rewrite C in E. injection E as <- _.
  pose proof (fine_at _ _ _ I Eo) as (K & S). destruct (unlock_covered _ (h_pos (g_h g)) K) as (K' & O'). apply inv_cache; [exact I|exact Eo|].
  cbn [fine p_cache p_ready p_fd]. rewrite O'. auto.
Qed.
Lemma copy_inv : forall w g ok w' g', inv w -> h_copy w g ok = Some (w', g') -> inv w'.
Proof. intros w g ok w' g' I E. unfold h_copy in E. destruct (_ && _); [eapply lock_inv; eassumption|injection E as <- _; exact I]. Qed.
Lemma hset_inv : forall w i g, inv w -> inv (set_hvar w i g).
Proof. intros w i g I. apply (inv_same w); try reflexivity; exact I. Qed.
Lemma hadd_inv : forall w g, inv w -> inv (add_hvar w g).
Proof. intros w g I. apply (inv_same w); try reflexivity; exact I. Qed.
Lemma free_inv : forall w g w', inv w -> h_free_page w g = Some w' -> inv w'.
Proof.
  intros w g w' I E. unfold h_free_page in E. destruct (_ =? _); [injection E as <-; exact I|]. destruct (h_pool _); [|discriminate]. destruct (pool_at _ _) as [o|]; [|discriminate].
  injection E as <-. destruct (p_ready o); [|exact I]. apply (inv_same w); try reflexivity; exact I.
Qed.
Lemma step_inv : forall w e w', inv w -> step w e = Some w' -> inv w'.
Proof.
  intros w e w' I E. destruct e as [max|k|k|k pos ok|i ok|i|i j ok|i j ok|i|i]; cbn [step] in E.
  - injection E as <-. destruct I as [F P N R L]. constructor; cbn [pool_open w_pools w_opened w_closed w_left]; try assumption.
    + apply Forall_app. split; [exact F|]. constructor; [|constructor]. cbn [fine p_cache p_ready p_fd]. split; [|left; split; [reflexivity|lia]].
      split; cbn [new_pool count slots os]; [rewrite repeat_length; lia|intros m []].
    + unfold fds in *. rewrite flat_map_app. cbn [flat_map fd_of p_ready p_fd]. rewrite app_nil_r, <- app_assoc. cbn [app]. apply Permutation_cons_app. exact P.
    + constructor; [|exact N]. intros H. specialize (R _ H). lia.
    + cbn [length]. intros x [<-|H]; [lia|]. specialize (R _ H). lia.
  - unfold pool_move in E. destruct (pool_at w k) as [o|] eqn:Eo; [|discriminate]. injection E as <-. pose proof (fine_at _ _ _ I Eo) as Fo.
    destruct I as [F P N R L]. destruct (at_split _ _ _ Eo) as (a & c & Ep & La). rewrite Ep in F, P.
    constructor; cbn [set_pool w_pools w_opened w_closed w_left]; try assumption; rewrite Ep, <- La, set_nth_app.
    + apply Forall_app in F. destruct F as (Fa & Fc). inversion Fc; subst. apply Forall_app. split; [|constructor; [assumption|constructor]]. apply Forall_app. split; [exact Fa|]. constructor; [|assumption].
      cbn [fine p_cache p_ready p_fd pool_emptied os]. split; [|right; auto]. split; cbn [pool_emptied count slots os]; [lia|intros m []].
    + unfold fds in *. rewrite !flat_map_app in *. cbn [flat_map] in *. cbn [fd_of p_ready app] in *. rewrite app_nil_r.
      eapply perm_trans; [exact P|]. rewrite <- !app_assoc. apply Permutation_app_head. rewrite !app_assoc. apply Permutation_app_tail. rewrite <- ?app_assoc. apply Permutation_app_comm.
  - unfold pool_end in E. destruct (pool_at w k) as [o|] eqn:Eo; [|discriminate]. pose proof (fine_at _ _ _ I Eo) as (K & S).
    destruct I as [F P N R L]. destruct (at_split _ _ _ Eo) as (a & c & Ep & La). rewrite Ep in F, P.
    assert (Forall fine (a ++ None :: c)) as F' by (apply Forall_app in F; destruct F as (Fa & Fc); inversion Fc; subst; apply Forall_app; split; [exact Fa|constructor; [exact Logic.I|assumption]]).
    unfold fds in *. rewrite flat_map_app in P. cbn [flat_map fd_of] in P.
    destruct S as [(Sr & Sf)|(Sr & Sf & So)]; rewrite Sr in E, P; cbn [andb] in E.
    + rewrite (proj2 (Z.leb_le _ _) Sf) in E. injection E as <-.
      constructor; cbn [set_pool w_pools w_opened w_closed w_left]; try assumption; try (rewrite Ep, <- La, set_nth_app).
      * exact F'.
      * unfold fds. rewrite flat_map_app. cbn [flat_map fd_of app]. eapply perm_trans; [exact P|]. cbn [app]. rewrite <- !app_assoc. apply Permutation_app_head. cbn [app]. apply Permutation_middle.
      * rewrite L, app_nil_r. apply destroy_covered, K.
    + injection E as <-. constructor; cbn [set_pool w_pools w_opened w_closed w_left]; try assumption; try (rewrite Ep, <- La, set_nth_app).
      * exact F'.
      * unfold fds. rewrite flat_map_app. cbn [flat_map fd_of app] in *. exact P.
      * rewrite L, app_nil_r. exact So.
  - destruct (pool_at w k); [|discriminate]. destruct (pos =? page_nil); [injection E as <-; apply hadd_inv, I|]. destruct (h_lock _ _ _) as [(w1 & g1)|] eqn:El; [|discriminate]. injection E as <-. apply hadd_inv. eapply lock_inv; eassumption.
  - destruct (hvar w i) as [g|]; [|discriminate]. destruct (h_copy _ _ _) as [(w1 & g1)|] eqn:El; [|discriminate]. injection E as <-. apply hadd_inv. eapply copy_inv; eassumption.
  - destruct (hvar w i) as [g|]; [|discriminate]. injection E as <-. apply hadd_inv, hset_inv, I.
  - destruct (hvar w i) as [g|]; [|discriminate]. destruct (hvar w j) as [g0|]; [|discriminate]. destruct (h_unlock w g) as [(w1 & g1)|] eqn:Eu; [|discriminate].
    destruct (hvar (set_hvar w1 i (Some g1)) j) as [o|]; [|discriminate]. destruct (h_copy _ _ _) as [(w2 & g2)|] eqn:Ec; [|discriminate]. injection E as <-.
    apply hset_inv. eapply copy_inv; [|exact Ec]. apply hset_inv. eapply unlock_inv; eassumption.
  - destruct (hvar w i) as [g|]; [|discriminate]. destruct (hvar w j) as [g0|]; [|discriminate]. destruct (h_unlock w g) as [(w1 & g1)|] eqn:Eu; [|discriminate].
    destruct (hvar (set_hvar w1 i (Some g1)) j) as [o|]; [|discriminate]. destruct (h_copy _ _ _) as [(w2 & g2)|] eqn:Ec; [|discriminate].
    destruct (hvar (set_hvar w2 i (Some g2)) j) as [o2|]; [|discriminate]. destruct (h_unlock (set_hvar w2 i (Some g2)) o2) as [(w3 & g3)|] eqn:Ev; [|discriminate]. injection E as <-.
    apply hset_inv. eapply unlock_inv; [|exact Ev]. apply hset_inv. eapply copy_inv; [|exact Ec]. apply hset_inv. eapply unlock_inv; eassumption.
  - destruct (hvar w i) as [g|]; [|discriminate]. destruct (h_unlock w g) as [(w1 & g1)|] eqn:Eu; [|discriminate]. destruct (h_free_page w1 g1) as [w2|] eqn:Ef; [|discriminate]. injection E as <-.
    apply hset_inv. eapply free_inv; [|exact Ef]. eapply unlock_inv; eassumption.
  - destruct (hvar w i) as [g|]; [|discriminate]. destruct (h_unlock w g) as [(w1 & g1)|] eqn:Eu; [|discriminate]. injection E as <-. apply hset_inv. eapply unlock_inv; eassumption.
Qed.
Lemma run_inv : forall l w w', inv w -> run w l = Some w' -> inv w'.
Proof.
  induction l as [|e l IH]; intros w w' I E; cbn [run] in E; [injection E as <-; exact I|]. destruct (step w e) as [w1|] eqn:E1; [|discriminate]. eapply IH; [|exact E]. eapply step_inv; eassumption.
Qed.
Lemma nothing_inv : inv nothing.
Proof. split; [constructor|constructor|constructor|intros x []|reflexivity]. Qed.
Lemma gone_fds : forall l, Forall (fun o : option owner => o = None) l -> fds l = [].
Proof. induction 1 as [|x l Hx _ IH]; [reflexivity|]. subst x. exact IH. Qed.
Lemma run_released : forall l w, run nothing l = Some w -> all_gone w -> released w.
Proof.
  intros l w E G. destruct (run_inv _ _ _ nothing_inv E) as [_ P N _ L]. rewrite (gone_fds _ G) in P. split; [exact N|]. split; [exact P|exact L].
Qed.

(** ** A pool that is moved when there are no handles *)
Definition good (c : nat) (g : hnd) : Prop := h_pool (g_h g) = true /\ g_of g = c \/ h_pool (g_h g) = false /\ h_pos (g_h g) = page_nil.
Record sim (c : nat) (ended : list nat) (w : world) (p : pool) (vs : list (option handle)) : Prop := {
  sm_len : length (w_pools w) = S c;
  sm_pool : exists o, pool_at w c = Some o /\ p_cache o = p /\ 0 <= p_fd o;
  sm_old : forall k, (k < c)%nat -> existsb (Nat.eqb k) ended = false -> exists o, pool_at w k = Some o;
  sm_seen : seen w = vs;
  sm_good : forall i g, hvar w i = Some g -> good c g }.

Lemma set_at : forall w k o x, pool_at w k = Some o -> pool_at (set_pool w k (Some x)) k = Some x /\ (forall j, j <> k -> pool_at (set_pool w k (Some x)) j = pool_at w j) /\
  length (w_pools (set_pool w k (Some x))) = length (w_pools w).
Proof.
  intros w k o x H. destruct (at_split _ _ _ H) as (a & c & E & L). unfold pool_at, set_pool. cbn [w_pools]. rewrite set_nth_length. split; [|split; [|reflexivity]].
  - rewrite E, <- L, set_nth_app, nth_error_app2, Nat.sub_diag by lia. reflexivity.
  - intros j Hj. rewrite E, <- L, set_nth_app. destruct (Nat.lt_ge_cases j (length a)) as [Hl|Hl]; [rewrite !nth_error_app1 by lia; reflexivity|].
    rewrite !nth_error_app2 by lia. destruct (j - length a)%nat as [|n] eqn:En; [lia|]. reflexivity.
Qed.
Lemma sim_cache : forall c ended w p vs o q, sim c ended w p vs -> pool_at w c = Some o -> sim c ended (set_pool w c (Some (mkP q (p_fd o) (p_ready o)))) q vs.
Proof.
  intros c ended w p vs o q [L (o' & A & B & F) D S G] H. rewrite A in H. injection H as ->. destruct (set_at w c o (mkP q (p_fd o) (p_ready o)) A) as (X & Y & Z).
  constructor; [lia|eexists; split; [exact X|split; [reflexivity|exact F]]| |exact S|exact G].
  intros k Hk Ek. rewrite Y by lia. apply D; assumption.
Qed.
Lemma sim_lock : forall c ended w p vs g ok, sim c ended w p vs -> g_of g = c -> exists w', h_lock w g ok = Some (w', mkG (snd (page_lock p (g_h g) ok)) c) /\ sim c ended w' (fst (page_lock p (g_h g) ok)) vs.
Proof.
  intros c ended w p vs g ok S Hg. destruct (sm_pool _ _ _ _ _ S) as (o & A & B & F). unfold h_lock. rewrite Hg, A, B, (proj2 (Z.leb_le _ _) F), andb_true_r.
  destruct (page_lock p (g_h g) ok) as (q & h) eqn:E. cbn [fst snd]. eexists. split; [reflexivity|]. eapply sim_cache; eassumption.
Qed.
Lemma sim_copy : forall c ended w p vs g ok, sim c ended w p vs -> good c g -> exists w' g', h_copy w g ok = Some (w', g') /\ page_copy p (g_h g) ok = (fst (page_copy p (g_h g) ok), g_h g') /\
  sim c ended w' (fst (page_copy p (g_h g) ok)) vs /\ good c g'.
Proof.
  intros c ended w p vs g ok S G. unfold h_copy, page_copy. destruct (h_pool (g_h g) && negb (h_pos (g_h g) =? page_nil)) eqn:E.
  - assert (g_of g = c) as Gc. { destruct G as [(_ & G)|(G & _)]; [exact G|]. rewrite G in E. discriminate. }
    destruct (sim_lock c ended w p vs g ok S Gc) as (w' & El & S'). rewrite El. do 2 eexists. split; [reflexivity|]. cbn [g_h]. split; [destruct (page_lock p (g_h g) ok); reflexivity|]. split; [exact S'|].
    left. split; [|reflexivity]. cbn [g_h]. unfold page_lock. destruct (lock_page _ _ _). cbn [snd h_pool]. apply andb_prop in E. apply E.
  - exists w, g. cbn [fst]. auto.
Qed.
Lemma sim_unlock : forall c ended w p vs g, sim c ended w p vs -> good c g -> exists w' g', h_unlock w g = Some (w', g') /\ page_unlock p (g_h g) = (fst (page_unlock p (g_h g)), g_h g') /\
  sim c ended w' (fst (page_unlock p (g_h g))) vs /\ good c g' /\ h_pos (g_h g') = h_pos (g_h g) /\ h_pool (g_h g') = h_pool (g_h g).
Proof.
  intros c ended w p vs g S G. unfold h_unlock, page_unlock. destruct (h_pool (g_h g) && _ && _) eqn:E.
  - assert (g_of g = c) as Gc. { destruct G as [(_ & G)|(G & _)]; [exact G|]. rewrite G in E. discriminate. }
    destruct (sm_pool _ _ _ _ _ S) as (o & A & B & F). rewrite Gc, A, B. do 2 eexists. split; [reflexivity|]. cbn [g_h fst h_pos h_pool]. split; [reflexivity|]. split; [eapply sim_cache; eassumption|].
    split; [|auto]. destruct G as [(G1 & _)|(G & _)]; [|rewrite G in E; discriminate]. left. split; [exact G1|reflexivity].
  - exists w, g. cbn [fst]. auto 10.
Qed.
Lemma map_set_nth : forall A B (f : A -> B) l i x, map f (set_nth i x l) = set_nth i (f x) (map f l).
Proof. induction l as [|y l IH]; intros [|i] x; cbn [set_nth map]; try reflexivity. f_equal. apply IH. Qed.
Lemma nth_set : forall A (l : list A) i j x, nth_error (set_nth i x l) j = if Nat.eqb j i then (if Nat.ltb i (length l) then Some x else None) else nth_error l j.
Proof.
  induction l as [|y l IH]; intros i j x.
  - cbn [set_nth length]. replace (Nat.ltb i 0) with false by reflexivity. destruct (Nat.eqb j i); destruct i, j; reflexivity.
  - destruct i as [|i], j as [|j]; cbn [set_nth nth_error Nat.eqb length]; try reflexivity. rewrite IH. reflexivity.
Qed.
Lemma sim_set : forall c ended w p vs i g, sim c ended w p vs -> match g with Some g => good c g | None => True end -> sim c ended (set_hvar w i g) p (set_nth i (option_map g_h g) vs).
Proof.
  intros c ended w p vs i g [L P D S G] Hg. constructor; try assumption.
  - unfold seen in *. cbn [set_hvar w_vars]. rewrite map_set_nth, S. reflexivity.
  - intros j x. unfold hvar. cbn [set_hvar w_vars]. rewrite nth_set. destruct (Nat.eqb_spec j i) as [->|Hn].
    + destruct (Nat.ltb i _); [|discriminate]. destruct g as [g|]; [|discriminate]. intros X. injection X as <-. exact Hg.
    + apply G.
Qed.
Lemma sim_add : forall c ended w p vs g, sim c ended w p vs -> good c g -> sim c ended (add_hvar w g) p (vs ++ [Some (g_h g)]).
Proof.
  intros c ended w p vs g [L P D S G] Hg. constructor; try assumption.
  - unfold seen in *. cbn [add_hvar w_vars]. rewrite map_app, S. reflexivity.
  - intros j x. unfold hvar. cbn [add_hvar w_vars]. destruct (Nat.lt_ge_cases j (length (w_vars w))) as [Hl|Hl].
    + rewrite nth_error_app1 by exact Hl. apply G.
    + rewrite nth_error_app2 by exact Hl. destruct (j - _)%nat as [|n]; [|destruct n; discriminate]. intros X. injection X as <-. exact Hg.
Qed.
Lemma sim_var : forall c ended w p vs i h, sim c ended w p vs -> var {| w_pool := p; Cache_Model.w_vars := vs |} i = Some h -> exists g, hvar w i = Some g /\ g_h g = h /\ good c g.
Proof.
  intros c ended w p vs i h S H. unfold var in H. cbn [Cache_Model.w_vars] in H. rewrite <- (sm_seen _ _ _ _ _ S) in H. unfold seen in H. rewrite nth_error_map in H.
  destruct (nth_error (w_vars w) i) as [[g|]|] eqn:E; cbn [option_map] in H; try discriminate. injection H as <-. exists g. assert (hvar w i = Some g) as Hv by (unfold hvar; rewrite E; reflexivity).
  split; [exact Hv|]. split; [reflexivity|]. exact (sm_good _ _ _ _ _ S i g Hv).
Qed.
Lemma empty_good : forall c k, good c (mkG no_handle k).
Proof. intros. right. split; reflexivity. Qed.
Lemma sim_freed : forall c ended w p vs g, sim c ended w p vs -> good c g -> exists w', h_free_page w g = Some w' /\ sim c ended w' p vs.
Proof.
  intros c ended w p vs g S G. unfold h_free_page. destruct (Z.eqb_spec (h_pos (g_h g)) page_nil) as [E|E]; [eauto|].
  destruct G as [(G1 & G2)|(_ & G)]; [|contradiction]. rewrite G1, G2. destruct (sm_pool _ _ _ _ _ S) as (o & A & B & F). rewrite A. eexists. split; [reflexivity|].
  destruct (p_ready o); [|exact S]. destruct S. constructor; assumption.
Qed.
(** An operation on handles. *)
Definition on_handles (c : nat) (e : op) : option Cache_Model.op :=
  match e with
  | HNew k pos ok => if Nat.eqb k c then Some (New pos ok) else None
  | HCopy i ok => Some (Copy i ok) | HMove i => Some (Move i) | HAssign i j ok => Some (Assign i j ok)
  | HMoveAssign i j ok => Some (MoveAssign i j ok) | HFree i => Some (Free i) | HDestroy i => Some (Destroy i)
  | _ => None
  end.
Lemma sim_step : forall c ended w v e e' v', sim c ended w (w_pool v) (Cache_Model.w_vars v) -> on_handles c e = Some e' -> Cache_Model.step v e' = Some v' ->
  exists w', step w e = Some w' /\ sim c ended w' (w_pool v') (Cache_Model.w_vars v').
Proof.
  intros c ended w [p vs] e e' v' S He Es. cbn [w_pool Cache_Model.w_vars] in S.
  destruct e as [max|k|k|k pos ok|i ok|i|i j ok|i j ok|i|i]; cbn [on_handles] in He; try discriminate; [destruct (Nat.eqb_spec k c) as [->|]; [|discriminate]|..]; injection He as <-; cbn [Cache_Model.step w_pool step] in *.
  - destruct (sm_pool _ _ _ _ _ S) as (o & A & _). rewrite A. unfold page_new in Es. destruct (pos =? page_nil).
    + injection Es as <-. eexists. split; [reflexivity|]. cbn [add_var w_pool Cache_Model.w_vars]. apply (sim_add _ _ _ _ _ (mkG _ c)); [exact S|]. left. split; reflexivity.
    + match goal with |- context [h_lock w ?g ok] => destruct (sim_lock c ended w p vs g ok S eq_refl) as (w' & El & S') end. cbn [g_h] in *.
      destruct (page_lock p _ ok) as (q & h) eqn:Eq. cbn [fst snd] in *. injection Es as <-. rewrite El. eexists. split; [reflexivity|]. cbn [add_var w_pool Cache_Model.w_vars].
      apply (sim_add _ _ _ _ _ (mkG h c)); [exact S'|]. left. split; [|reflexivity]. cbn [g_h]. unfold page_lock in Eq. destruct (lock_page _ _ _). injection Eq as _ <-. reflexivity.
  - destruct (var _ i) as [h|] eqn:Ev; [|discriminate]. destruct (sim_var _ _ _ _ _ _ _ S Ev) as (g & Hv & <- & G). rewrite Hv.
    destruct (sim_copy c ended w p vs g ok S G) as (w' & g' & Ec & Ep & S' & G'). rewrite Ec. rewrite Ep in Es. injection Es as <-. eexists. split; [reflexivity|]. cbn [add_var w_pool Cache_Model.w_vars]. apply sim_add; assumption.
  - destruct (var _ i) as [h|] eqn:Ev; [|discriminate]. destruct (sim_var _ _ _ _ _ _ _ S Ev) as (g & Hv & <- & G). rewrite Hv. cbn [page_move] in Es. injection Es as <-.
    eexists. split; [reflexivity|]. cbn [add_var set_var w_pool Cache_Model.w_vars]. apply sim_add; [|exact G]. apply (sim_set _ _ _ _ _ i (Some (mkG no_handle (g_of g)))); [exact S|apply empty_good].
  - destruct (var _ i) as [h|] eqn:Ev; [|discriminate]. destruct (var _ j) as [h0|] eqn:Ev0; [|discriminate].
    destruct (sim_var _ _ _ _ _ _ _ S Ev) as (g & Hv & <- & G). destruct (sim_var _ _ _ _ _ _ _ S Ev0) as (g0 & Hv0 & _ & _). rewrite Hv, Hv0.
    destruct (sim_unlock c ended w p vs g S G) as (w1 & g1 & Eu & Ep & S1 & G1 & _). rewrite Eu. rewrite Ep in Es. unfold set_var in Es. cbn [Cache_Model.w_vars w_pool] in Es.
    set (p1 := fst (page_unlock p (g_h g))) in *.
    pose proof (sim_set _ _ _ _ _ i (Some g1) S1 G1) as S2. cbn [option_map] in S2.
    destruct (var _ j) as [h2|] eqn:Ev2 in Es; [|discriminate]. destruct (sim_var _ _ _ _ _ _ _ S2 Ev2) as (g2 & Hv2 & <- & G2). rewrite Hv2.
    destruct (sim_copy _ _ _ _ _ g2 ok S2 G2) as (w3 & g3 & Ec & Eq & S3 & G3). rewrite Ec. rewrite Eq in Es. injection Es as <-. eexists. split; [reflexivity|]. cbn [w_pool Cache_Model.w_vars].
    apply (sim_set _ _ _ _ _ i (Some g3)); assumption.
  - destruct (var _ i) as [h|] eqn:Ev; [|discriminate]. destruct (var _ j) as [h0|] eqn:Ev0; [|discriminate].
    destruct (sim_var _ _ _ _ _ _ _ S Ev) as (g & Hv & <- & G). destruct (sim_var _ _ _ _ _ _ _ S Ev0) as (g0 & Hv0 & _ & _). rewrite Hv, Hv0.
    destruct (sim_unlock c ended w p vs g S G) as (w1 & g1 & Eu & Ep & S1 & G1 & _). rewrite Eu. rewrite Ep in Es. unfold set_var in Es. cbn [Cache_Model.w_vars w_pool] in Es.
    set (p1 := fst (page_unlock p (g_h g))) in *.
    pose proof (sim_set _ _ _ _ _ i (Some g1) S1 G1) as S2. cbn [option_map] in S2.
    destruct (var _ j) as [h2|] eqn:Ev2 in Es; [|discriminate]. destruct (sim_var _ _ _ _ _ _ _ S2 Ev2) as (g2 & Hv2 & <- & G2). rewrite Hv2.
    destruct (sim_copy _ _ _ _ _ g2 ok S2 G2) as (w3 & g3 & Ec & Eq & S3 & G3). rewrite Ec. rewrite Eq in Es. cbn [Cache_Model.w_vars w_pool] in Es.
    pose proof (sim_set _ _ _ _ _ i (Some g3) S3 G3) as S4. cbn [option_map] in S4.
    destruct (var _ j) as [h4|] eqn:Ev4 in Es; [|discriminate]. destruct (sim_var _ _ _ _ _ _ _ S4 Ev4) as (g4 & Hv4 & <- & G4). rewrite Hv4.
    destruct (sim_unlock _ _ _ _ _ g4 S4 G4) as (w5 & g5 & Eu5 & Ep5 & S5 & G5 & _). rewrite Eu5. rewrite Ep5 in Es. injection Es as <-. eexists. split; [reflexivity|]. cbn [w_pool Cache_Model.w_vars].
    apply (sim_set _ _ _ _ _ j (Some (mkG no_handle (g_of g5)))); [exact S5|apply empty_good].
  - destruct (var _ i) as [h|] eqn:Ev; [|discriminate]. destruct (sim_var _ _ _ _ _ _ _ S Ev) as (g & Hv & <- & G). rewrite Hv.
    destruct (sim_unlock c ended w p vs g S G) as (w1 & g1 & Eu & Ep & S1 & G1 & _). rewrite Eu. destruct (sim_freed _ _ _ _ _ g1 S1 G1) as (w2 & Ef & S2). rewrite Ef. unfold page_free in Es. injection Es as <-.
    eexists. split; [reflexivity|]. unfold set_var. cbn [w_pool Cache_Model.w_vars]. apply (sim_set _ _ _ _ _ i (Some (mkG no_handle (g_of g1)))); [exact S2|apply empty_good].
  - destruct (var _ i) as [h|] eqn:Ev; [|discriminate]. destruct (sim_var _ _ _ _ _ _ _ S Ev) as (g & Hv & <- & G). rewrite Hv.
    destruct (sim_unlock c ended w p vs g S G) as (w1 & g1 & Eu & Ep & S1 & G1 & _). rewrite Eu. injection Es as <-. eexists. split; [reflexivity|]. unfold set_var, page_destroy. cbn [w_pool Cache_Model.w_vars].
    apply (sim_set _ _ _ _ _ i None); [exact S1|exact Logic.I].
Qed.
Lemma sim_move : forall c ended w p vs, sim c ended w p vs -> no_handles w -> exists w', pool_move w c = Some w' /\ sim (S c) ended w' p vs.
Proof.
  intros c ended w p vs [L (o & A & B & F) D Sn G] N. unfold pool_move. rewrite A. eexists. split; [reflexivity|].
  destruct (set_at w c o (mkP (pool_emptied (p_cache o)) (-1) false) A) as (X & Y & Z). set (w1 := set_pool w c _) in *.
  assert (forall k, (k < S c)%nat -> pool_at (mkW (w_pools w1 ++ [Some o]) (w_vars w1) (w_opened w1) (w_closed w1) (w_left w1) (w_freed w1)) k = pool_at w1 k) as Q.
  { intros k Hk. unfold pool_at. cbn [w_pools]. rewrite nth_error_app1 by lia. reflexivity. }
  constructor.
  - cbn [w_pools]. rewrite app_length. cbn [length]. lia.
  - exists o. split; [|auto]. unfold pool_at. cbn [w_pools]. rewrite nth_error_app2 by lia. rewrite Z, L, Nat.sub_diag. reflexivity.
  - intros k Hk Ek. rewrite Q by exact Hk. destruct (Nat.eq_dec k c) as [->|Hn]; [eauto|]. rewrite Y by exact Hn. apply D; [lia|exact Ek].
  - exact Sn.
  - intros i g Hg. change (hvar w i = Some g) in Hg. destruct (G i g Hg) as [(G1 & _)|G2]; [|right; exact G2]. rewrite (N i g Hg) in G1. discriminate.
Qed.
Lemma sim_end : forall c ended w p vs k, sim c ended w p vs -> (k < c)%nat -> existsb (Nat.eqb k) ended = false -> exists w', pool_end w k = Some w' /\ sim c (k :: ended) w' p vs.
Proof.
  intros c ended w p vs k S Hk Ek. destruct (sm_old _ _ _ _ _ S k Hk Ek) as (o & Eo). unfold pool_end. rewrite Eo.
  assert (forall w', w_pools w' = w_pools (set_pool w k None) -> w_vars w' = w_vars w -> sim c (k :: ended) w' p vs) as X.
  { intros w' Ep Ev. destruct S as [L (o' & A & B & F) D S G]. cbn [set_pool w_pools] in Ep.
    assert (forall j, j <> k -> pool_at w' j = pool_at w j) as Q by (intros j Hj; unfold pool_at; rewrite Ep, nth_set; rewrite (proj2 (Nat.eqb_neq _ _) Hj); reflexivity).
    constructor.
    - rewrite Ep, set_nth_length. exact L.
    - exists o'. rewrite Q by lia. auto.
    - intros j Hj Ej. cbn [existsb] in Ej. apply orb_false_elim in Ej. destruct Ej as (Ej & Ej'). apply Nat.eqb_neq in Ej. rewrite Q by exact Ej. apply D; assumption.
    - unfold seen in *. rewrite Ev. exact S.
    - intros i g. unfold hvar. rewrite Ev. apply G. }
  destruct (p_ready o && _); (eexists; split; [reflexivity|]; apply X; reflexivity).
Qed.
Lemma idle_tail : forall w e l w1, idle_moves w (e :: l) -> step w e = Some w1 -> idle_moves w1 l.
Proof. intros w e l w1 H E l1 k l2 w2 -> R. apply (H (e :: l1) k l2 w2); [reflexivity|]. cbn [run]. rewrite E. exact R. Qed.
Lemma sim_run : forall l c ended w v l' v', sim c ended w (w_pool v) (Cache_Model.w_vars v) -> unmoved c ended l = Some l' -> idle_moves w l -> Cache_Model.run v l' = Some v' ->
  exists w', run w l = Some w' /\ seen w' = Cache_Model.w_vars v'.
Proof.
  induction l as [|e l IH]; intros c ended w v l' v' S U I R.
  - injection U as <-. injection R as <-. exists w. split; [reflexivity|]. exact (sm_seen _ _ _ _ _ S).
  - assert (forall e', on_handles c e = Some e' -> forall l0, unmoved c ended l = Some l0 -> l' = e' :: l0 -> exists w', run w (e :: l) = Some w' /\ seen w' = Cache_Model.w_vars v') as X.
    { intros e' He l0 U0 ->. cbn [Cache_Model.run] in R. destruct (Cache_Model.step v e') as [v1|] eqn:Ev; [|discriminate]. destruct (sim_step _ _ _ _ _ _ _ S He Ev) as (w1 & Ew & S1).
      cbn [run]. rewrite Ew. eapply IH; [exact S1|exact U0|eapply idle_tail; eassumption|exact R]. }
    destruct e as [max|k|k|k pos ok|i ok|i|i j ok|i j ok|i|i]; cbn [unmoved] in U.
    1: discriminate.
    1: { destruct (Nat.eqb_spec k c) as [->|]; [|discriminate]. destruct (sim_move _ _ _ _ _ S (I [] c l w eq_refl eq_refl)) as (w1 & Ew & S1).
         cbn [run step]. rewrite Ew. eapply IH; [exact S1|exact U|eapply idle_tail; [exact I|exact Ew]|exact R]. }
    1: { destruct (Nat.ltb_spec k c) as [Hk|]; [|discriminate]. destruct (existsb _ ended) eqn:Ek; [discriminate|]. cbn [andb negb] in U. destruct (sim_end _ _ _ _ _ _ S Hk Ek) as (w1 & Ew & S1).
         cbn [run step]. rewrite Ew. eapply IH; [exact S1|exact U|eapply idle_tail; [exact I|exact Ew]|exact R]. }
    1: destruct (Nat.eqb_spec k c) as [->|]; [|discriminate].
    all: destruct (unmoved c ended l) as [l0|] eqn:U0; [|discriminate]; injection U as <-; (eapply X; [|reflexivity|reflexivity]); cbn [on_handles]; rewrite ?Nat.eqb_refl; reflexivity.
Qed.
Lemma sim_start : forall max, sim O [] (pool_open nothing max) (new_pool max) [].
Proof.
  intros max. constructor; [reflexivity| | |reflexivity|].
  - eexists. split; [reflexivity|]. split; [reflexivity|]. cbn. lia.
  - intros k Hk. lia.
  - intros i g. unfold hvar. cbn. destruct i; discriminate.
Qed.
