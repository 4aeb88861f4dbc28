(** Proofs for C96-C98. *)

From Coq Require Import ZArith List Bool Lia.
From Verif Require Import Base Connect4_Model Connect4_Spec Connect4_Calls Connect4_Proofs Slow4_Model Slow4_Spec.
Import ListNotations.
Open Scope Z_scope.

(** ** Facts about the rules *)
Lemma turn_S : forall n, turn (S n) = 1 - turn n.
Proof. reflexivity. Qed.
Lemma forces_end : forall p n ms, finished ms -> forces p n ms -> four ms p.
Proof. intros p n ms F H. destruct H as [n ms H|n ms m T (_ & _ & N)|n ms T N]; [exact H|contradiction|contradiction]. Qed.
Lemma forces_0 : forall p ms, forces p 0 ms -> four ms p.
Proof. intros p ms H. inversion H; subst; assumption. Qed.
Lemma four_finished : forall ms p, p = 0 \/ p = 1 -> four ms p -> finished ms.
Proof. intros ms p [ -> | -> ] F; unfold finished; tauto. Qed.
(** who completes a row has made the last move *)
Lemma four_last : forall ms m p, p = 0 \/ p = 1 -> ~ finished ms -> four (m :: ms) p -> p = turn (length ms).
Proof.
  intros ms m p Hp N F. destruct (four_mono ms m p) as (E & _); [|exact F|symmetry; exact E].
  intro F'. apply N. exact (four_finished ms p Hp F').
Qed.
Definition heights (ms : list move) : Z := height ms 0 + height ms 1 + height ms 2 + height ms 3 + height ms 4 + height ms 5 + height ms 6.
Lemma heights_length : forall ms, played ms -> heights ms = Z.of_nat (length ms).
Proof.
  induction 1 as [|m ms P IH (O & _ & _)]; [reflexivity|]. unfold heights in *. cbn [height length]. unfold on_board in O.
  assert (C : snd m = 0 \/ snd m = 1 \/ snd m = 2 \/ snd m = 3 \/ snd m = 4 \/ snd m = 5 \/ snd m = 6) by lia.
  rewrite Nat2Z.inj_succ. destruct C as [E|[E|[E|[E|[E|[E|E]]]]]]; rewrite E; cbn [Z.eqb Pos.eqb]; lia.
Qed.
Lemma move_exists : forall ms, played ms -> ~ finished ms -> exists m, legal ms m.
Proof.
  intros ms P N. pose proof (heights_length ms P) as H. pose proof (played_unfinished ms P N) as L.
  assert (E : exists c, 0 <= c <= 6 /\ height ms c <= 5).
  { unfold heights in H.
    destruct (Z_le_dec (height ms 0) 5); [exists 0; lia|]. destruct (Z_le_dec (height ms 1) 5); [exists 1; lia|].
    destruct (Z_le_dec (height ms 2) 5); [exists 2; lia|]. destruct (Z_le_dec (height ms 3) 5); [exists 3; lia|].
    destruct (Z_le_dec (height ms 4) 5); [exists 4; lia|]. destruct (Z_le_dec (height ms 5) 5); [exists 5; lia|].
    destruct (Z_le_dec (height ms 6) 5); [exists 6; lia|]. lia. }
  destruct E as (c & C & Hc). exists (height ms c, c). pose proof (height_nonneg ms c). split; [unfold on_board; cbn [fst snd]; lia|]. split; [reflexivity|exact N].
Qed.
Lemma legal_col : forall ms m, legal ms m -> m = (height ms (snd m), snd m).
Proof. intros ms [r c] (_ & E & _). cbn [fst snd] in *. congruence. Qed.

(** ** The search *)
(** what a score says about a position in which [q] moves next and the engine looks [d] moves beyond that one *)
Definition verdict (d : nat) (q : Z) (ms : list move) (s : Z) : Prop :=
  - (Z.of_nat d + 1) <= s <= Z.of_nat d + 2 /\
  forall n, (n <= S d)%nat -> (forces q n ms <-> Z.of_nat d + 3 - Z.of_nat n <= s) /\ (forces (1 - q) n ms <-> Z.of_nat d + 3 - Z.of_nat n <= - s).
(** the same after the move of [q], from the point of view of [q] *)
Definition child (d : nat) (q : Z) (ms : list move) (s : Z) : Prop :=
  - (Z.of_nat d + 1) <= s <= Z.of_nat d + 2 /\
  forall n, (n <= d)%nat -> (forces q n ms <-> Z.of_nat d + 2 - Z.of_nat n <= s) /\ (forces (1 - q) n ms <-> Z.of_nat d + 2 - Z.of_nat n <= - s).

Lemma child_won : forall d q ms, q = 0 \/ q = 1 -> four ms q -> ~ four ms (1 - q) -> child d q ms (Z.of_nat d + 2).
Proof.
  intros d q ms Q F N. split; [lia|]. intros n Hn. split; split; intro H; try lia; [apply forces_won, F|].
  exfalso. apply N. apply (forces_end _ n); [|exact H]. exact (four_finished ms q Q F).
Qed.
Lemma child_drawn : forall d q ms, finished ms -> ~ four ms q -> ~ four ms (1 - q) -> child d q ms 0.
Proof.
  intros d q ms F N1 N2. split; [lia|]. intros n Hn. split; (split; [intro H; exfalso|lia]).
  - exact (N1 (forces_end _ n ms F H)).
  - exact (N2 (forces_end _ n ms F H)).
Qed.
Lemma child_leaf : forall q ms, q = 0 \/ q = 1 -> ~ finished ms -> child 0 q ms (-1).
Proof.
  intros q ms Q N. split; [cbn; lia|]. intros n Hn. assert (n = 0%nat) by lia. subst n. cbn [Z.of_nat].
  split; (split; [intro H; exfalso; apply N|lia]).
  - exact (four_finished ms q Q (forces_0 _ _ H)).
  - apply (four_finished ms (1 - q)); [lia|exact (forces_0 _ _ H)].
Qed.
Lemma child_deeper : forall d q ms s, verdict d (1 - q) ms s -> child (S d) q ms (- s).
Proof.
  intros d q ms s (R & V). split; [lia|]. intros n Hn. destruct (V n Hn) as (V1 & V2). replace (1 - (1 - q)) with q in V2 by lia.
  rewrite V1, V2. rewrite Nat2Z.inj_succ. split; split; lia.
Qed.

Definition found (d : nat) (q : Z) (ms : list move) (b0 : Z) (done : list Z) (best : Z) (bm : option move) : Prop :=
  (bm = None /\ best = b0 /\ forall m, legal ms m -> ~ In (snd m) done) \/
  (exists m, bm = Some m /\ legal ms m /\ child d q (m :: ms) best /\
     forall m', legal ms m' -> In (snd m') done -> exists s, child d q (m' :: ms) s /\ s <= best).
Lemma found_skip : forall d q ms b0 done best bm c, found d q ms b0 done best bm -> (forall m, legal ms m -> snd m <> c) -> found d q ms b0 (c :: done) best bm.
Proof.
  intros d q ms b0 done best bm c [(E1 & E2 & H)|(m & E & L & C & H)] N.
  - left. repeat (split; [assumption|]). intros m L [I|I]; [exact (N m L (eq_sym I))|exact (H m L I)].
  - right. exists m. repeat (split; [assumption|]). intros m' L' [I|I]; [destruct (N m' L' (eq_sym I))|exact (H m' L' I)].
Qed.
Lemma found_step : forall d q ms b0 done best bm m s, b0 < - (Z.of_nat d + 1) -> found d q ms b0 done best bm -> legal ms m -> child d q (m :: ms) s ->
  if best <? s then found d q ms b0 (snd m :: done) s (Some m) else found d q ms b0 (snd m :: done) best bm.
Proof.
  intros d q ms b0 done best bm m s B F L C. destruct (best <? s) eqn:E; [apply Z.ltb_lt in E|apply Z.ltb_ge in E].
  - right. exists m. repeat (split; [auto|]). intros m' L' [I|I].
    + rewrite (legal_col ms m' L'), <- I, <- (legal_col ms m L). exists s. split; [exact C|lia].
    + destruct F as [(_ & _ & H)|(m0 & _ & _ & _ & H)]; [destruct (H m' L' I)|]. destruct (H m' L' I) as (s' & C' & Hs). exists s'. split; [exact C'|lia].
  - destruct F as [(_ & -> & _)|(m0 & Em & L0 & C0 & H)]; [destruct C as (R & _); lia|].
    right. exists m0. repeat (split; [assumption|]). intros m' L' [I|I]; [|exact (H m' L' I)].
    rewrite (legal_col ms m' L'), <- I, <- (legal_col ms m L). exists s. split; [exact C|lia].
Qed.
Lemma found_verdict : forall d q ms b0 done best bm, q = turn (length ms) -> played ms -> ~ finished ms -> (forall c, 0 <= c <= 6 -> In c done) ->
  found d q ms b0 done best bm -> verdict d q ms best /\ exists m, bm = Some m /\ legal ms m /\ child d q (m :: ms) best.
Proof.
  intros d q ms b0 done best bm Q P N A F. assert (Q2 : q = 0 \/ q = 1) by (rewrite Q; apply turn_cases).
  assert (A' : forall m, legal ms m -> In (snd m) done) by (intros m ((_ & O) & _); apply A, O).
  destruct F as [(_ & _ & H)|(m & E & L & C & H)].
  { destruct (move_exists ms P N) as (m & L). destruct (H m L (A' m L)). }
  split; [|exists m; repeat (split; [assumption|]); exact C].
  split; [exact (proj1 C)|]. intros n Hn. destruct n as [|n].
  { cbn [Z.of_nat]. split; split; intro X; try (destruct C as (R & _); lia); exfalso; apply N.
    - exact (four_finished ms q Q2 (forces_0 _ _ X)).
    - apply (four_finished ms (1 - q)); [lia|exact (forces_0 _ _ X)]. }
  assert (Hn' : (n <= d)%nat) by lia. rewrite Nat2Z.inj_succ. split; split; intro X.
  - inversion X as [? ? F|? ? m' T L' F|? ? T N' F]; subst n0 ms0.
    + destruct N. exact (four_finished ms q Q2 F).
    + destruct (H m' L' (A' m' L')) as (s & (_ & Cs) & Hs). apply (Cs n Hn') in F. lia.
    + exfalso. lia.
  - apply forces_own with m; [lia|exact L|]. apply (proj2 C n Hn'). lia.
  - inversion X as [? ? F|? ? m' T L' F|? ? T N' F]; subst n0 ms0.
    + destruct N. apply (four_finished ms (1 - q)); [lia|exact F].
    + exfalso. lia.
    + specialize (F m L). apply (proj2 C n Hn') in F. lia.
  - apply forces_other; [lia|exact N|]. intros m' L'. destruct (H m' L' (A' m' L')) as (s & (_ & Cs) & Hs). apply (Cs n Hn'). lia.
Qed.

(** the columns in the order of the loop *)
Fixpoint cols (n : nat) (i sign : Z) : list Z :=
  match n with O => [] | S n => (Z.quot col_count 2 + Z.quot (sign * (i + 1)) 2) :: cols n (i + 1) (- sign) end.
Lemma cols_all : cols 7 0 (-1) = [3; 4; 2; 5; 1; 6; 0].
Proof. reflexivity. Qed.

Lemma loop_ok : forall (d : nat) rec ms b b0, rep b ms -> ~ finished ms -> b0 < - (Z.of_nat d + 1) ->
  (forall m b', legal ms m -> rep b' (m :: ms) -> ~ finished (m :: ms) -> (0 < d)%nat ->
     exists s bm, rec b' = Some (s, bm, b') /\ verdict (d - 1) (1 - turn (length ms)) (m :: ms) s) ->
  forall n i sign done best bm, Forall (fun c => 0 <= c <= 6) (cols n i sign) ->
  found d (turn (length ms)) ms b0 done best bm ->
  exists best' bm', slow_loop (Z.of_nat d) rec n i sign best bm b = Some (best', bm', b) /\
    found d (turn (length ms)) ms b0 (rev (cols n i sign) ++ done) best' bm'.
Proof.
  intros d rec ms b b0 R N B IH. induction n as [|n IHn]; intros i sign done best bm Fc F.
  { exists best, bm. split; [reflexivity|exact F]. }
  cbn [cols] in Fc |- *. cbn [slow_loop]. set (c := Z.quot col_count 2 + Z.quot (sign * (i + 1)) 2) in *. clearbody c.
  inversion Fc as [|? ? C Fc']; subst. cbn [rev]. rewrite <- app_assoc. cbn [app].
  destruct R as (S & P & Pk) eqn:ER. clear ER. rewrite (shows_heights _ _ S c C).
  set (mv := (height ms c, c)). destruct (is_valid mv) eqn:V.
  - apply valid_iff in V. assert (L : legal ms mv) by (split; [exact V|split; [reflexivity|exact N]]).
    destruct (accept_legal b ms mv R L) as (b' & -> & R' & U).
    assert (CH : exists sc tb2, (if over b' then Some (if negb (winner b' =? p_none) then Z.of_nat d + 2 else 0, b')
       else if (0 <? Z.of_nat d) && (count b' <? row_count * col_count)
       then match rec b' with Some (s, _, tb2) => Some (- s, tb2) | None => None end else Some (-1, b')) = Some (sc, tb2) /\ tb2 = b' /\
       child d (turn (length ms)) (mv :: ms) sc).
    { destruct R' as (S' & P' & Pk') eqn:ER'. clear ER'. pose proof (turn_cases (length ms)) as TC. destruct (over b') eqn:Ov.
      - apply (shows_over _ _ S') in Ov. destruct (winner b' =? p_none) eqn:W; cbn [negb].
        + apply Z.eqb_eq in W. apply (shows_nobody _ _ S') in W. exists 0, b'. split; [reflexivity|]. split; [reflexivity|].
          apply child_drawn; [exact Ov| |]; destruct TC as [ -> | -> ]; cbn; tauto.
        + apply Z.eqb_neq in W. exists (Z.of_nat d + 2), b'. split; [reflexivity|]. split; [reflexivity|].
          assert (W2 : winner b' = turn (length ms) /\ four (mv :: ms) (turn (length ms))).
          { destruct (Z.eq_dec (winner b') (turn (length ms))) as [E|E]; [split; [exact E|apply (shows_winner _ _ S'); [exact TC|exact E]]|].
            exfalso. apply W. apply (shows_nobody _ _ S'). split; intro F4.
            - assert (X := four_last ms mv 0 (or_introl eq_refl) N F4). apply E. apply (shows_winner _ _ S'); [exact TC|]. rewrite <- X. exact F4.
            - assert (X := four_last ms mv 1 (or_intror eq_refl) N F4). apply E. apply (shows_winner _ _ S'); [exact TC|]. rewrite <- X. exact F4. }
          apply child_won; [exact TC|apply W2|]. intro F4. apply four_last in F4; [lia|lia|exact N].
      - apply (over_false _ _ S') in Ov. destruct (0 <? Z.of_nat d) eqn:D.
        + apply Z.ltb_lt in D. rewrite (shows_count _ _ S'). pose proof (played_unfinished _ P' Ov) as Le.
          assert (E : Z.of_nat (length (mv :: ms)) <? row_count * col_count = true) by (apply Z.ltb_lt; change (row_count * col_count) with 42; lia).
          rewrite E. cbn [andb]. destruct (IH mv b' L (conj S' (conj P' Pk')) Ov ltac:(lia)) as (s & bm2 & -> & V2).
          exists (- s), b'. split; [reflexivity|]. split; [reflexivity|]. destruct d as [|d]; [lia|]. replace (Datatypes.S d - 1)%nat with d in V2 by lia.
          apply child_deeper, V2.
        + apply Z.ltb_ge in D. assert (d = 0%nat) by lia. subst d. cbn [andb]. exists (-1), b'. split; [reflexivity|]. split; [reflexivity|].
          apply child_leaf; [exact TC|exact Ov]. }
    destruct CH as (sc & tb2 & -> & -> & CH). rewrite U. cbn [snd].
    pose proof (found_step d _ ms b0 done best bm mv sc B F L CH) as F2. cbn [snd] in F2.
    destruct (best <? sc); apply (IHn _ _ _ _ _ Fc' F2).
  - apply (IHn _ _ _ _ _ Fc'). apply found_skip; [exact F|]. intros m L E. rewrite (legal_col ms m L), E in L. apply (proj1 (valid_iff _)) in V || idtac.
    destruct L as (O & _). apply valid_iff in O. unfold mv in V. congruence.
Qed.

Lemma all_done : forall c, 0 <= c <= 6 -> In c (rev [3; 4; 2; 5; 1; 6; 0] ++ []).
Proof. intros c C. cbn [rev app In]. lia. Qed.
Lemma slow_find_ok : forall (D : Z) d b ms, 2 <= D -> Z.of_nat d <= D -> rep b ms -> ~ finished ms ->
  exists s m, slow_find D d b = Some (s, Some m, b) /\ verdict d (turn (length ms)) ms s /\ legal ms m /\ child d (turn (length ms)) (m :: ms) s.
Proof.
  intros D. induction d as [|d IH]; intros b ms HD Hd R N.
  - assert (B : - (2 * D) < - (Z.of_nat 0 + 1)) by (change (Z.of_nat 0) with 0; lia).
    cbn [slow_find]. destruct (loop_ok 0 (fun _ => None) ms b (- (2 * D)) R N B) with (n := 7%nat) (i := 0) (sign := -1) (done := @nil Z) (best := - (2 * D)) (bm := @None move) as (best & bm & E & F).
    + intros; lia.
    + rewrite cols_all. repeat constructor; lia.
    + left. repeat split. intros m _ [].
    + change (Z.to_nat col_count) with 7%nat. rewrite E. rewrite cols_all in F.
      destruct (found_verdict _ _ _ _ _ _ _ eq_refl (proj1 (proj2 R)) N all_done F) as (V & m & -> & L & Ch).
      exists best, m. auto.
  - assert (B : - (2 * D) < - (Z.of_nat (S d) + 1)) by lia.
    cbn [slow_find]. destruct (loop_ok (S d) (slow_find D d) ms b (- (2 * D)) R N B) with (n := 7%nat) (i := 0) (sign := -1) (done := @nil Z) (best := - (2 * D)) (bm := @None move) as (best & bm & E & F).
    + intros m b' L R' N' _. destruct (IH b' (m :: ms) HD ltac:(lia) R' N') as (s & m2 & E & V & _). exists s, (Some m2). split; [exact E|].
      replace (S d - 1)%nat with d by lia. exact V.
    + rewrite cols_all. repeat constructor; lia.
    + left. repeat split. intros m _ [].
    + change (Z.to_nat col_count) with 7%nat. rewrite E. rewrite cols_all in F.
      destruct (found_verdict _ _ _ _ _ _ _ eq_refl (proj1 (proj2 R)) N all_done F) as (V & m & -> & L & Ch).
      exists best, m. auto.
Qed.

(** ** The engine *)
Lemma rep_shows : forall b ms ms', rep b ms' -> shows b ms -> played ms -> rep b ms.
Proof.
  intros b ms ms' (S' & P' & Pk) S P. split; [exact S|]. split; [exact P|]. destruct Pk as (R & H & B). split; [exact R|]. split.
  - intros c C. rewrite (H c C). rewrite <- (shows_heights _ _ S c C). apply eq_sym, (shows_heights _ _ S' c C).
  - intros r c O. rewrite (B r c O). assert (E : owner ms' (r, c) = owner ms (r, c)).
    { rewrite <- (shows_cells _ _ S' _ O). apply (shows_cells _ _ S _ O). }
    rewrite E. reflexivity.
Qed.
Lemma ahead_depth : forall b ms, shows b ms -> S (slow_choose_max_depth b) = ahead (length ms).
Proof.
  intros b ms S. unfold slow_choose_max_depth, ahead. rewrite (shows_count _ _ S).
  destruct (Nat.ltb_spec (length ms) 12); [rewrite (proj2 (Z.ltb_lt _ _)) by lia; reflexivity|rewrite (proj2 (Z.ltb_ge _ _)) by lia].
  destruct (Nat.ltb_spec (length ms) 18); [rewrite (proj2 (Z.ltb_lt _ _)) by lia; reflexivity|rewrite (proj2 (Z.ltb_ge _ _)) by lia].
  destruct (Nat.ltb_spec (length ms) 24); [rewrite (proj2 (Z.ltb_lt _ _)) by lia; reflexivity|rewrite (proj2 (Z.ltb_ge _ _)) by lia].
  destruct (Nat.ltb_spec (length ms) 30); [rewrite (proj2 (Z.ltb_lt _ _)) by lia; reflexivity|rewrite (proj2 (Z.ltb_ge _ _)) by lia].
  reflexivity.
Qed.
Lemma ahead_mono : forall n k, (n <= k)%nat -> (ahead n <= ahead k)%nat.
Proof.
  intros n k H. unfold ahead.
  destruct (Nat.ltb_spec n 12), (Nat.ltb_spec k 12), (Nat.ltb_spec n 18), (Nat.ltb_spec k 18), (Nat.ltb_spec n 24), (Nat.ltb_spec k 24), (Nat.ltb_spec n 30), (Nat.ltb_spec k 30); lia.
Qed.
Lemma ahead_least : forall n, (7 <= ahead n)%nat.
Proof. intro n. apply (ahead_mono 0 n). lia. Qed.
Lemma engine_ok : forall s b ms, rep b ms -> ~ finished ms -> (4 <= length ms)%nat ->
  exists m, slow_best s b = Some (Some m) /\ legal ms m /\
    (forall n, (S n <= ahead (length ms))%nat -> forces (turn (length ms)) (S n) ms -> forces (turn (length ms)) n (m :: ms)) /\
    (forall n, (S n <= ahead (length ms))%nat -> forces (1 - turn (length ms)) n (m :: ms) -> forces (1 - turn (length ms)) (S n) ms).
Proof.
  intros s b ms R N Le. assert (Sh := proj1 R). unfold slow_best, slow_make_first_move. rewrite (shows_count _ _ Sh), (proj2 (Z.leb_le _ _)) by lia.
  set (D := slow_choose_max_depth b). assert (A := ahead_depth b ms Sh). fold D in A. pose proof (ahead_least (length ms)) as A7.
  destruct (slow_find_ok (Z.of_nat D) D b ms ltac:(lia) ltac:(lia) R N) as (sc & m & -> & (_ & V) & L & (_ & C)).
  exists m. split; [reflexivity|]. split; [exact L|]. split; intros n Hn F.
  - apply C; [lia|]. apply V in F; lia.
  - apply V; [lia|]. apply C in F; lia.
Qed.
Lemma accept_true : forall b ms m b', rep b ms -> accept_move b m = Some (true, b') -> legal ms m /\ rep b' (m :: ms).
Proof.
  intros b ms m b' R A. destruct (legal_dec b ms m (proj1 R)) as [L|L].
  - destruct (accept_legal b ms m R L) as (b2 & A2 & R2 & _). rewrite A in A2. injection A2 as <-. split; assumption.
  - rewrite (accept_illegal b ms m R L) in A. discriminate.
Qed.
Lemma carries_ok : forall n b ms s, rep b ms -> (4 <= length ms)%nat -> s = 0 \/ s = 1 -> (n <= ahead (length ms))%nat -> forces s n ms -> carries s n b.
Proof.
  induction n as [|n IH]; intros b ms s R Le Hs Hn F; assert (Sh := proj1 R).
  { apply forces_0 in F. apply carries_won; [apply (shows_over _ _ Sh), (four_finished _ _ Hs F)|apply (shows_winner _ _ Sh s Hs), F]. }
  destruct (over b) eqn:Ov.
  { apply (shows_over _ _ Sh) in Ov. apply (forces_end _ _ _ Ov) in F. apply carries_won; [apply (shows_over _ _ Sh), Ov|apply (shows_winner _ _ Sh s Hs), F]. }
  assert (N := proj1 (over_false _ _ Sh) Ov). assert (Cu := current_turn _ _ Sh N). destruct (Z.eq_dec (turn (length ms)) s) as [T|T].
  - subst s. destruct (engine_ok (turn (length ms)) b ms R N Le) as (m & E & L & W & _). destruct (accept_legal b ms m R L) as (b' & A & R' & _).
    apply carries_engine with m b'; auto. apply (IH b' (m :: ms)); [exact R'|cbn [length]; lia|exact Hs| |apply W; [exact Hn|exact F]].
    pose proof (ahead_mono (length ms) (length (m :: ms)) ltac:(cbn [length]; lia)). lia.
  - apply carries_other; [exact Ov|congruence|]. intros m b' A. destruct (accept_true b ms m b' R A) as (L & R').
    apply (IH b' (m :: ms)); [exact R'|cbn [length]; lia|exact Hs| |].
    + pose proof (ahead_mono (length ms) (length (m :: ms)) ltac:(cbn [length]; lia)). lia.
    + inversion F as [? ? F4|? ? m' T' L' F'|? ? T' N' F']; subst; [destruct N; exact (four_finished _ _ Hs F4)|congruence|apply F', L].
Qed.


(** ** The first moves *)
Definition firsts (s : Z) (ms : list move) : Prop :=
  forall pre m post, ms = pre ++ m :: post -> turn (length post) = s -> (length post < 2)%nat -> m = (height post 3, 3).
Lemma firsts_cons : forall s m ms, firsts s ms -> (turn (length ms) = s -> (length ms < 2)%nat -> m = (height ms 3, 3)) -> firsts s (m :: ms).
Proof.
  intros s m ms F H pre m' post E T L. destruct pre as [|x pre]; cbn [app] in E; injection E as <- E; [destruct E; exact (H T L)|].
  exact (F pre m' post E T L).
Qed.
Lemma first_move_short : forall s b ms, shows b ms -> (length ms < 2)%nat -> slow_best s b = Some (Some (height ms 3, 3)).
Proof.
  intros s b ms S L. unfold slow_best, slow_make_first_move. rewrite (shows_count _ _ S), (proj2 (Z.leb_gt _ _)), (proj2 (Z.ltb_lt _ _)) by lia.
  change (Z.quot col_count 2) with 3. rewrite (shows_heights _ _ S 3) by lia. reflexivity.
Qed.
Lemma height_short : forall ms c, height ms c <= Z.of_nat (length ms).
Proof. induction ms as [|m ms IH]; intro c; [cbn; lia|]. cbn [height length]. specialize (IH c). destruct (snd m =? c); lia. Qed.
Lemma mid_legal : forall ms, ~ finished ms -> (length ms < 4)%nat -> legal ms (height ms 3, 3).
Proof.
  intros ms N L. pose proof (height_short ms 3). pose proof (height_nonneg ms 3). split; [unfold on_board; cbn [fst snd]; lia|]. split; [reflexivity|exact N].
Qed.
Lemma first_moves_legal : forall s b ms, rep b ms -> ~ finished ms -> (length ms < 4)%nat -> turn (length ms) = s -> firsts s ms ->
  exists m, slow_best s b = Some (Some m) /\ legal ms m.
Proof.
  intros s b ms R N L T F. destruct R as (S & P & _). destruct (Nat.ltb_spec (length ms) 2) as [L2|L2].
  { exists (height ms 3, 3). split; [exact (first_move_short s b ms S L2)|exact (mid_legal ms N L)]. }
  unfold slow_best, slow_make_first_move. rewrite (shows_count _ _ S), (proj2 (Z.leb_gt _ _)), (proj2 (Z.ltb_ge _ _)) by lia.
  change (Z.quot col_count 2) with 3. rewrite (shows_heights _ _ S 3) by lia. change (3 + 1) with 4. change (3 - 1) with 2.
  rewrite !(shows_cells _ _ S) by (unfold on_board; cbn [fst snd]; lia).
  destruct (owner ms (0, 3) =? s) eqn:E; [exists (height ms 3, 3); split; [reflexivity|exact (mid_legal ms N L)]|]. apply Z.eqb_neq in E.
  destruct ms as [|a [|m1 [|m0 [|? ?]]]]; cbn [length] in *; try lia.
  - (* two moves: X has the middle *)
    exfalso. assert (E0 := F [a] m1 [] eq_refl (eq_trans (eq_refl : turn (length (@nil move)) = turn 2) T) ltac:(cbn; lia)). cbn [height] in E0. subst m1.
    inversion P as [|? ? P1 La]; subst. destruct La as (_ & Ha & _). destruct a as [r c]. cbn [fst snd] in Ha. cbn [height snd] in Ha.
    apply E. cbn [owner]. destruct (same_cell (0, 3) (r, c)) eqn:Sm; [|reflexivity].
    apply same_eq in Sm. injection Sm as <- <-. cbn in Ha. lia.
  - (* three moves *)
    assert (Ts : turn (length [m0]) = s) by (cbn in T |- *; lia).
    assert (E1 := F [a] m1 [m0] eq_refl Ts ltac:(cbn; lia)). inversion P as [|? ? P1 La]; subst ms m. inversion P1 as [|? ? P0 L1]; subst ms m.
    inversion P0 as [|? ? _ L0]; subst ms m. destruct m0 as [r0 c0], a as [r c]. destruct L0 as (O0 & H0 & _). cbn [height fst snd] in H0. subst r0.
    destruct La as (Oa & Ha & _). cbn [fst snd] in Ha. unfold on_board in Oa, O0. cbn [fst snd] in Oa, O0.
    assert (C0 : c0 = 3).
    { destruct (Z.eq_dec c0 3) as [X|X]; [exact X|]. exfalso. apply E. subst m1. cbn [height snd]. rewrite (proj2 (Z.eqb_neq c0 3) X).
      cbn [owner]. cbn [height snd] in Ha. destruct (same_cell (0, 3) (r, c)) eqn:Sm.
      - apply same_eq in Sm. injection Sm as <- <-. rewrite (proj2 (Z.eqb_neq c0 3) X) in Ha. cbn in Ha. lia.
      - cbn. exact T. }
    subst c0. cbn [height snd Z.eqb Pos.eqb Z.add] in E1. subst m1. cbn [height snd] in Ha.
    assert (s = 1) by (cbn in T; lia). subst s. clear F E P P1 P0 L1 O0 S.
    change (opponent 1) with 0. destruct (Z.eq_dec c 4) as [C4|C4].
    + subst c. cbn in Ha. subst r. cbn [owner same_cell fst snd Z.eqb Pos.eqb andb turn length Z.sub Z.opp Z.add Z.pos_sub Pos.pred_double].
      exists (0, 2). split; [reflexivity|]. split; [unfold on_board; cbn [fst snd]; lia|]. split; [reflexivity|exact N].
    + assert (Eo : owner [(r, c); (1, 3); (0, 3)] (0, 4) = 2).
      { cbn [owner]. unfold same_cell. cbn [fst snd]. rewrite (proj2 (Z.eqb_neq 4 c)) by lia. rewrite andb_false_r. reflexivity. }
      rewrite Eo. cbn [Z.eqb]. exists (0, 4). split; [reflexivity|]. split; [unfold on_board; cbn [fst snd]; lia|].
      split; [|exact N]. cbn [fst snd height]. rewrite (proj2 (Z.eqb_neq c 4)) by lia. reflexivity.
Qed.

Lemma reached_rep : forall s b, reached s b -> exists ms, rep b ms /\ firsts s ms.
Proof.
  intros s b R. induction R as [|b m b' R (ms & Rp & F) Cu A|b m b' R (ms & Rp & F) Cu Ov E A].
  - exists []. split; [exact reset_rep|]. intros pre m post H. destruct pre; discriminate.
  - destruct (accept_true b ms m b' Rp A) as (L & R'). exists (m :: ms). split; [exact R'|]. apply firsts_cons; [exact F|].
    intros T _. destruct L as (_ & _ & N). exfalso. apply Cu. rewrite (current_turn b ms (proj1 Rp) N). exact T.
  - destruct (accept_true b ms m b' Rp A) as (L & R'). exists (m :: ms). split; [exact R'|]. apply firsts_cons; [exact F|].
    intros _ L2. rewrite (first_move_short s b ms (proj1 Rp) L2) in E. congruence.
Qed.
Lemma engine_moves : forall s b, reached s b -> over b = false -> current b = s ->
  exists m b', slow_best s b = Some (Some m) /\ accept_move b m = Some (true, b').
Proof.
  intros s b R Ov Cu. destruct (reached_rep s b R) as (ms & Rp & F). assert (N := proj1 (over_false _ _ (proj1 Rp)) Ov).
  assert (T : turn (length ms) = s) by (rewrite <- Cu; symmetry; exact (current_turn _ _ (proj1 Rp) N)).
  destruct (Nat.ltb_spec (length ms) 4) as [L4|L4].
  - destruct (first_moves_legal s b ms Rp N L4 T F) as (m & E & L). destruct (accept_legal b ms m Rp L) as (b' & A & _). exists m, b'. split; assumption.
  - destruct (engine_ok s b ms Rp N L4) as (m & E & L & _). destruct (accept_legal b ms m Rp L) as (b' & A & _). exists m, b'. split; assumption.
Qed.

(** ** Deciding small forced wins, for the examples *)
Definition columns : list Z := [0; 1; 2; 3; 4; 5; 6].
Fixpoint forces_b (p : Z) (n : nat) (b : board) : bool :=
  if over b then winner b =? p
  else match n with
       | O => false
       | S n =>
           if current b =? p
           then existsb (fun c => match accept_move b (col_size b c, c) with Some (true, b') => forces_b p n b' | _ => false end) columns
           else forallb (fun c => match accept_move b (col_size b c, c) with Some (true, b') => forces_b p n b' | Some (false, _) => true | None => false end) columns
       end.
Lemma in_columns : forall c, In c columns <-> 0 <= c <= 6.
Proof. intro c. unfold columns. cbn [In]. lia. Qed.
Lemma forces_b_ok : forall p n b ms, p = 0 \/ p = 1 -> rep b ms -> forces_b p n b = true <-> forces p n ms.
Proof.
  intros p n. induction n as [|n IH]; intros b ms Hp R; assert (Sh := proj1 R); cbn [forces_b]; destruct (over b) eqn:Ov.
  1,3: apply (shows_over _ _ Sh) in Ov; rewrite Z.eqb_eq, (shows_winner _ _ Sh p Hp); split; [apply forces_won|apply forces_end, Ov].
  - split; [discriminate|]. intro F. apply forces_0 in F. apply (over_false _ _ Sh) in Ov. destruct Ov. exact (four_finished _ _ Hp F).
  - assert (N := proj1 (over_false _ _ Sh) Ov). rewrite (current_turn _ _ Sh N).
    assert (NF : ~ four ms p) by (intro F; exact (N (four_finished _ _ Hp F))). pose proof (turn_cases (length ms)) as TC.
    destruct (turn (length ms) =? p) eqn:T.
    + apply Z.eqb_eq in T. rewrite existsb_exists. split.
      * intros (c & C & H). apply in_columns in C. destruct (accept_move b (col_size b c, c)) as [[[] b']|] eqn:A; try discriminate.
        destruct (accept_true _ _ _ _ R A) as (L & R'). apply forces_own with (col_size b c, c); [exact T|exact L|]. apply (IH b' _ Hp R'), H.
      * intro F. inversion F as [? ? F4|? ? m T' L F'|? ? T' N' F']; subst; [contradiction| |lia]. exists (snd m). assert (L' := L). destruct L' as ((_ & O) & _).
        split; [apply in_columns, O|]. rewrite (shows_heights _ _ Sh _ O), <- (legal_col ms m L). destruct (accept_legal b ms m R L) as (b' & -> & R' & _).
        apply (IH b' _ Hp R'), F'.
    + apply Z.eqb_neq in T. rewrite forallb_forall. split.
      * intro H. apply forces_other; [lia|exact N|]. intros m L. assert (L' := L). destruct L' as ((_ & O) & _). specialize (H (snd m) (proj2 (in_columns _) O)).
        rewrite (shows_heights _ _ Sh _ O), <- (legal_col ms m L) in H. destruct (accept_legal b ms m R L) as (b' & A & R' & _). rewrite A in H.
        apply (IH b' _ Hp R'), H.
      * intros F c C. apply in_columns in C. rewrite (shows_heights _ _ Sh _ C). destruct (legal_dec b ms (height ms c, c) Sh) as [L|L].
        -- destruct (accept_legal b ms _ R L) as (b' & -> & R' & _). apply (IH b' _ Hp R').
           inversion F as [? ? F4|? ? m T' L' F'|? ? T' N' F']; subst; [contradiction|contradiction|apply F', L].
        -- rewrite (accept_illegal b ms _ R L). reflexivity.
Qed.
(** the board after moves that are all accepted *)
Fixpoint all_accepted (b : board) (l : list move) : option board :=
  match l with
  | [] => Some b
  | m :: l => match accept_move b m with Some (true, b') => all_accepted b' l | _ => None end
  end.
Lemma all_accepted_rep : forall l b ms b', rep b ms -> all_accepted b l = Some b' -> attempts b l = Some b' /\ rep b' (rev l ++ ms).
Proof.
  induction l as [|m l IH]; intros b ms b' R H; cbn [all_accepted attempts] in *; [injection H as <-; split; [reflexivity|exact R]|].
  destruct (accept_move b m) as [[[] b2]|] eqn:A; try discriminate. destruct (accept_true _ _ _ _ R A) as (L & R').
  cbn [rev]. rewrite <- app_assoc. apply (IH b2 (m :: ms) b' R' H).
Qed.
Lemma position : forall l b, all_accepted reset l = Some b -> attempts reset l = Some b /\ rep b (rev l).
Proof. intros l b H. rewrite <- (app_nil_r (rev l)). exact (all_accepted_rep l reset [] b reset_rep H). Qed.
Lemma reached_attempts : forall s b, reached s b -> exists ms, played ms /\ shows b ms.
Proof. intros s b R. destruct (reached_rep s b R) as (ms & (S & P & _) & _). exists ms. split; assumption. Qed.
Lemma attempts_shown : forall l b ms, attempts reset l = Some b -> shows b ms -> played ms -> rep b ms.
Proof.
  intros l b ms E S P. destruct (attempts_rep l reset [] reset_rep) as (b2 & ms' & E2 & R). rewrite E in E2. injection E2 as <-.
  exact (rep_shows b ms ms' R S P).
Qed.
