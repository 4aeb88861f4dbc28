(** Proofs about the slow engine (C52). *)

From Coq Require Import ZArith List Bool Lia ZifyBool.
From Verif Require Import Base Ttt_Model Ttt_Spec Ttt_Calls Ttt_Proofs.
Import ListNotations.
Open Scope Z_scope.

Lemma safe_no_three : forall s ms, s = X \/ s = O -> safe s ms -> ~ three ms (other s).
Proof.
  intros s ms Hs H. destruct H as [ms F N|ms m T (_ & _ & NF) H|ms NF T H]; [exact N| |];
    intro T3; apply NF; (eapply three_XO; [|exact T3]); apply other_player, Hs.
Qed.
Lemma not_safe : forall s ms, s = X \/ s = O -> three ms s -> ~ safe (other s) ms.
Proof. intros s ms Hs T H. apply safe_no_three in H; [|apply other_player, Hs]. rewrite other_other in H by exact Hs. contradiction. Qed.

(** What a score says of a position, for the player [p]. *)
Definition verdict (p : Z) (ms : list move) (sc : Z) : Prop :=
  -1 <= sc <= 1 /\ (0 <= sc -> safe p ms) /\ (sc <= 0 -> safe (other p) ms) /\ (sc = -1 -> ~ safe p ms) /\ (sc = 1 -> ~ safe (other p) ms).
Lemma verdict_other : forall p ms sc, p = X \/ p = O -> verdict (other p) ms sc -> verdict p ms (- sc).
Proof.
  intros p ms sc Hp (R & A & B & C & D). rewrite other_other in * by exact Hp.
  split; [lia|]. split; [intro; apply B; lia|]. split; [intro; apply A; lia|]. split; [intro; apply D; lia|intro; apply C; lia].
Qed.
Lemma cells_all : forall m, on_board m -> In m cells.
Proof.
  intros (r, c) (A & B). cbn [fst snd] in *. unfold cells. cbn [In].
  assert (r = 0 \/ r = 1 \/ r = 2) as [->|[->| ->]] by lia; assert (c = 0 \/ c = 1 \/ c = 2) as [->|[->| ->]] by lia; tauto.
Qed.
Lemma cells_board : forall m, In m cells -> on_board m.
Proof. intros m H. unfold cells in H. cbn [In] in H. unfold on_board. repeat (destruct H as [<-|H]; [cbn; lia|]). destruct H. Qed.

(** The best move so far, after the moves [done]. *)
Definition found (p : Z) (ms : list move) (done : move -> Prop) (best : Z) (bm : option move) : Prop :=
  -1 <= best <= 1 /\
  (best = -1 -> bm = None) /\
  (0 <= best -> exists m, bm = Some m /\ legal ms m /\ safe p (m :: ms) /\ (best = 1 -> ~ safe (other p) (m :: ms))) /\
  (best <= 0 -> forall m, legal ms m -> done m -> safe (other p) (m :: ms)) /\
  (best = -1 -> forall m, legal ms m -> done m -> ~ safe p (m :: ms)).
Lemma found_verdict : forall p ms best bm, p = X \/ p = O -> ~ finished ms -> turn (length ms) = p ->
  found p ms (fun _ => True) best bm -> verdict p ms best.
Proof.
  intros p ms best bm Hp NF T (R & _ & A & B & C). split; [exact R|]. split; [|split; [|split]].
  - intro H. destruct (A H) as (m & _ & L & S & _). exact (safe_own p ms m T L S).
  - intro H. apply safe_other; [exact NF|rewrite other_other; assumption|]. intros m L. apply B; auto.
  - intros H S. destruct S as [ms F N|ms m T' L S|ms NF' T' S]; [contradiction|exact (C H m L I S)|].
    apply (other_ne p). congruence.
  - intros H S. destruct (A ltac:(lia)) as (m & _ & L & _ & N). specialize (N H).
    destruct S as [ms F N'|ms m' T' L' S|ms NF' T' S]; [contradiction|apply (other_ne p); congruence|]. exact (N (S m L)).
Qed.

(** What a call of the engine gives. *)
Definition engine_result (p : Z) (ms : list move) (b : board) (r : option (Z * option move * board)) : Prop :=
  exists sc bm, r = Some (sc, bm, b) /\ found p ms (fun _ => True) sc bm.

Lemma found_step : forall p ms (done : move -> Prop) best bm mv sc (Hp : p = X \/ p = O),
  found p ms done best bm -> legal ms mv -> verdict p (mv :: ms) sc ->
  found p ms (fun m => m = mv \/ done m) (if best <? sc then sc else best) (if best <? sc then Some mv else bm).
Proof.
  intros p ms done best bm mv sc Hp (R & A0 & A & B & C) L (R' & V1 & V2 & V3 & V4). destruct (best <? sc) eqn:E.
  - split; [exact R'|]. split; [lia|]. split; [|split].
    + intro H. exists mv. auto.
    + intros H m Lm [->|D]; [auto|]. apply B; auto. lia.
    + lia.
  - split; [exact R|]. split; [exact A0|]. split; [|split].
    + exact A.
    + intros H m Lm [->|D]; [apply V2; lia|]. auto.
    + intros H m Lm [->|D]; [apply V3; lia|]. auto.
Qed.
Lemma found_skip : forall p ms (done done' : move -> Prop) best bm, found p ms done best bm ->
  (best < 1 -> forall m, legal ms m -> done' m -> done m) -> found p ms done' best bm.
Proof.
  intros p ms done done' best bm (R & A0 & A & B & C) H. split; [exact R|]. split; [exact A0|]. split; [exact A|].
  split; intros H' m L D; [apply B|apply C]; auto; apply H; auto; lia.
Qed.

Lemma slow_loop_ok : forall fuel ms b p, rep b ms -> ~ finished ms -> turn (length ms) = p ->
  (forall b' ms', rep b' ms' -> ~ finished ms' -> length ms' = S (length ms) -> engine_result (turn (length ms')) ms' b' (slow fuel (turn (length ms')) b')) ->
  forall l done best bm, (forall m, In m l -> on_board m) -> found p ms done best bm ->
  exists sc bm', slow_loop (slow fuel) p l best bm b = Some (sc, bm', b) /\ found p ms (fun m => In m l \/ done m) sc bm'.
Proof.
  intros fuel ms b p R NF T Rec. assert (Hp : p = X \/ p = O) by (rewrite <- T; apply turn_cases).
  induction l as [|mv l IH]; intros done best bm Hl F.
  - exists best, bm. split; [reflexivity|]. eapply found_skip; [exact F|]. intros _ m _ [[]|D]; exact D.
  - cbn [slow_loop].
    assert (Bm : on_board mv) by (apply Hl; left; reflexivity).
    assert (Hl' : forall m, In m l -> on_board m) by (intros m I; apply Hl; right; exact I).
    destruct ((best <? 1) && (get_move b mv =? p_none)) eqn:Cond.
    + apply andb_true_iff in Cond. destruct Cond as (C1 & C2).
      assert (L : legal ms mv).
      { split; [exact Bm|]. split; [|exact NF]. apply owner_free. rewrite <- (shows_cells _ _ (proj1 R) mv Bm). apply Z.eqb_eq, C2. }
      destruct (accept_legal b ms mv R L) as (b' & E & R' & U & Ov & Wn). rewrite E. rewrite T in Ov, Wn.
      assert (V : exists sc, (if over b' then Some (if winner b' =? p then 1 else 0, b')
                 else match slow fuel (opponent p) b' with Some (s, _, tb2) => Some (- s, tb2) | None => None end) = Some (sc, b') /\ verdict p (mv :: ms) sc).
      { destruct (over b') eqn:Ob.
        - eexists. split; [reflexivity|]. assert (Fi := proj1 (shows_over _ _ (proj1 R')) Ob).
          assert (NT : ~ three (mv :: ms) (other p)).
          { rewrite <- T. intro H. apply three_mover in H. rewrite T in H. apply NF. exact (three_XO _ _ (other_player _ Hp) H). }
          destruct (three_b (mv :: ms) p) eqn:T3.
          + rewrite Wn, Z.eqb_refl. apply three_iff in T3. split; [lia|]. split; [intros _; apply safe_end; assumption|].
            split; [lia|]. split; [lia|]. intros _. apply not_safe; assumption.
          + rewrite Wn. replace (p_none =? p) with false by (destruct Hp as [->| ->]; reflexivity).
            assert (NT' : ~ three (mv :: ms) p) by (rewrite <- three_iff; congruence).
            split; [lia|]. split; [intros _; apply safe_end; assumption|]. split; [|lia].
            intros _. apply safe_end; [assumption|]. rewrite other_other by exact Hp. exact NT'.
        - assert (NF' : ~ finished (mv :: ms)) by (apply (over_false b' _ (proj1 R')), Ob).
          destruct (Rec b' (mv :: ms) R' NF' eq_refl) as (sc & bm' & Es & Fs). cbn [length turn] in Es, Fs. rewrite T in Es, Fs.
          rewrite opponent_other by exact Hp. rewrite Es. eexists. split; [reflexivity|]. apply verdict_other; [exact Hp|].
          eapply found_verdict; [apply other_player, Hp|exact NF'|cbn [length turn]; rewrite T; reflexivity|exact Fs]. }
      destruct V as (sc & -> & V). rewrite U. cbn [snd].
      assert (F' := found_step p ms done best bm mv sc Hp F L V).
      destruct (best <? sc); destruct (IH _ _ _ Hl' F') as (sc' & bm' & E' & F''); exists sc', bm'; (split; [exact E'|]);
        (eapply found_skip; [exact F''|]); intros _ m _ [[<-|I]|D]; auto.
    + destruct (IH done best bm Hl' F) as (sc' & bm' & E' & F'). exists sc', bm'. split; [exact E'|].
      eapply found_skip; [exact F'|]. intros Lt m Lm [[<-|I]|D]; auto.
      exfalso. apply andb_false_iff in Cond. destruct Cond as [C1|C2].
      * (* the score only grows: best was 1 *)
        clear - C1 E' Lt. revert best bm C1 E'.
        assert (G : forall l best bm, (best <? 1) = false -> slow_loop (slow fuel) p l best bm b = Some (best, bm, b)).
        { induction l0 as [|x l0 IH0]; intros best bm C; [reflexivity|]. cbn [slow_loop]. rewrite C. cbn [andb]. apply IH0, C. }
        intros best bm C1 E'. rewrite (G l best bm C1) in E'. injection E' as <- _. lia.
      * rewrite (shows_cells _ _ (proj1 R) mv Bm) in C2. rewrite (legal_free ms mv Lm) in C2. discriminate.
Qed.

Lemma found_start : forall p ms, found p ms (fun _ => False) (-1) None.
Proof. intros p ms. split; [lia|]. split; [reflexivity|]. split; [lia|]. split; intros _ m _ []. Qed.
Lemma slow_ok : forall fuel ms b, rep b ms -> ~ finished ms -> (9 - length ms < fuel)%nat ->
  engine_result (turn (length ms)) ms b (slow fuel (turn (length ms)) b).
Proof.
  induction fuel as [|fuel IH]; intros ms b R NF Fu; [lia|]. cbn [slow].
  assert (Len := played_unfinished ms (proj1 (proj2 R)) NF).
  destruct (slow_loop_ok fuel ms b (turn (length ms)) R NF eq_refl) with (l := cells) (done := fun _ : move => False) (best := -1) (bm := @None move) as (sc & bm & E & F).
  - intros b' ms' R' NF' L'. apply IH; [exact R'|exact NF'|lia].
  - apply cells_board.
  - apply found_start.
  - exists sc, bm. split; [exact E|]. eapply found_skip; [exact F|]. intros _ m L _. left. apply cells_all, L.
Qed.
Lemma engine_ok : forall ms b, rep b ms -> ~ finished ms -> exists sc bm, slow_best (turn (length ms)) b = Some bm /\ found (turn (length ms)) ms (fun _ => True) sc bm.
Proof.
  intros ms b R NF. destruct (slow_ok slow_fuel ms b R NF) as (sc & bm & E & F); [unfold slow_fuel; lia|].
  exists sc, bm. unfold slow_best. rewrite E. split; [reflexivity|exact F].
Qed.

(** ** Neither player can be beaten from the start: a strategy, checked *)
Fixpoint check (fuel : nat) (s : Z) (ms : list move) (l : list move) : option (list move) :=
  match fuel with
  | 0%nat => None
  | S f =>
      if finished_b ms then (if three_b ms (other s) then None else Some l)
      else if turn (length ms) =? s then
        match l with
        | m :: l' => if is_valid m && (owner ms m =? 0) then check f s (m :: ms) l' else None
        | [] => None
        end
      else fold_left (fun acc m => match acc with
                                   | Some l => if owner ms m =? 0 then check f s (m :: ms) l else Some l
                                   | None => None
                                   end) cells (Some l)
  end.
Lemma fold_none : forall (f : list move -> move -> option (list move)) cs,
  fold_left (fun acc m => match acc with Some l => f l m | None => None end) cs None = None.
Proof. induction cs as [|c cs IH]; [reflexivity|exact IH]. Qed.
Lemma check_sound : forall fuel s ms l l', s = X \/ s = O -> check fuel s ms l = Some l' -> safe s ms.
Proof.
  induction fuel as [|f IH]; intros s ms l l' Hs H; [discriminate|]. cbn [check] in H.
  destruct (finished_b ms) eqn:F.
  - destruct (three_b ms (other s)) eqn:T; [discriminate|]. apply safe_end; [apply finished_iff, F|rewrite <- three_iff; congruence].
  - assert (NF : ~ finished ms) by (rewrite <- finished_iff; congruence). destruct (turn (length ms) =? s) eqn:T.
    + apply Z.eqb_eq in T. destruct l as [|m l]; [discriminate|]. destruct (is_valid m && (owner ms m =? 0)) eqn:V; [|discriminate].
      apply andb_true_iff in V. destruct V as (V & W). apply valid_iff in V. apply Z.eqb_eq, owner_free in W.
      apply safe_own with m; [exact T|split; auto|]. eapply IH; [exact Hs|exact H].
    + apply safe_other; [exact NF| |].
      { apply Z.eqb_neq in T. destruct (turn_cases (length ms)) as [E|E]; rewrite E in T |- *; destruct Hs as [->| ->]; try reflexivity; exfalso; apply T; reflexivity. }
      intros m L. assert (I := cells_all m (proj1 L)). assert (Fr := legal_free ms m L). clear L.
      revert l H I. generalize cells. intro cs. induction cs as [|c cs IHc]; intros l H I; [destruct I|].
      cbn [fold_left] in H. destruct I as [->|I].
      * rewrite Fr in H. cbn [Z.eqb] in H. destruct (check f s (m :: ms) l) as [l1|] eqn:E; [eapply IH; [exact Hs|exact E]|].
        rewrite (fold_none (fun l m => if owner ms m =? 0 then check f s (m :: ms) l else Some l)) in H. discriminate.
      * destruct (if owner ms c =? 0 then check f s (c :: ms) l else Some l) as [l1|]; [eapply IHc; [exact H|exact I]|].
        rewrite (fold_none (fun l m => if owner ms m =? 0 then check f s (m :: ms) l else Some l)) in H. discriminate.
Qed.
Definition at_ (k : Z) : move := (k / 3, k mod 3).
(** The moves of X, in the order in which [check] asks for them; written by a search, checked below. *)
Definition strategy_X : list Z :=
  [0; 3; 6; 6; 6; 4; 5; 8; 5; 5; 6; 6; 3; 6; 6; 6; 4; 5; 8; 5; 5; 6; 6; 1; 4; 7; 7; 8; 7; 2; 2; 2; 2; 2; 1; 6; 5; 8; 7; 3; 3; 3; 2; 2; 2; 2;
   2; 2; 4; 6; 8; 6; 6; 1; 1; 1; 1; 1; 1; 4; 7; 7; 8; 7; 2; 2; 2; 2; 2; 2; 4; 6; 6; 8; 6; 1; 1; 1; 1; 1; 2; 6; 4; 3; 3; 3; 1; 1; 1; 1; 1].
(** The moves of O, in the order in which [check] asks for them; written by a search, checked below. *)
Definition strategy_O : list Z :=
  [4; 2; 6; 6; 3; 7; 5; 5; 6; 6; 1; 7; 7; 7; 3; 8; 5; 5; 7; 6; 2; 1; 7; 5; 5; 2; 2; 2; 1; 7; 7; 7; 6; 8; 2; 2; 7; 3; 5; 5; 1; 7; 8; 7; 5; 5;
   3; 5; 5; 2; 6; 8; 6; 5; 5; 1; 7; 7; 7; 7; 6; 5; 2; 2; 4; 2; 6; 6; 3; 7; 5; 5; 6; 6; 0; 8; 8; 8; 8; 5; 6; 3; 3; 0; 8; 8; 8; 8; 2; 6; 7; 6;
   0; 8; 8; 8; 8; 2; 6; 7; 6; 0; 8; 8; 8; 8; 7; 5; 2; 2; 0; 8; 8; 8; 8; 6; 3; 2; 2; 2; 6; 6; 6; 7; 3; 0; 0; 6; 4; 1; 7; 7; 7; 3; 8; 5; 5; 7;
   0; 8; 8; 8; 8; 5; 6; 3; 3; 0; 8; 8; 8; 8; 5; 6; 7; 6; 8; 1; 6; 3; 3; 0; 0; 0; 0; 1; 7; 7; 7; 8; 3; 0; 0; 7; 3; 5; 5; 8; 1; 0; 0; 5; 5; 5;
   3; 3; 0; 6; 7; 6; 3; 3; 4; 6; 2; 1; 7; 5; 5; 2; 2; 2; 0; 8; 8; 8; 8; 2; 6; 7; 6; 0; 8; 8; 8; 8; 5; 6; 7; 6; 0; 8; 8; 8; 8; 2; 6; 1; 1; 0;
   8; 8; 8; 8; 7; 2; 1; 1; 0; 8; 8; 8; 8; 6; 2; 5; 2; 1; 7; 7; 7; 7; 6; 2; 5; 2; 0; 7; 6; 5; 3; 3; 5; 6; 2; 2; 3; 6; 2; 2; 2; 5; 3; 3; 2; 5;
   3; 3; 6; 3; 5; 7; 1; 1; 3; 3; 3; 5; 7; 6; 2; 2; 6; 7; 1; 1; 2; 7; 1; 1; 1; 6; 2; 2; 1; 6; 2; 2; 3; 6; 6; 2; 7; 1; 1; 6; 6; 2; 7; 5; 3; 3;
   1; 1; 1; 1; 1; 6; 5; 3; 3; 2; 2; 2; 2; 2; 7; 5; 3; 3; 1; 1; 1; 1; 4; 1; 7; 7; 7; 6; 8; 2; 2; 7; 0; 8; 8; 8; 8; 2; 6; 7; 6; 8; 1; 6; 3; 3;
   0; 0; 0; 0; 0; 8; 8; 8; 8; 2; 6; 1; 1; 1; 7; 7; 7; 8; 3; 0; 0; 7; 2; 6; 6; 6; 8; 3; 0; 0; 6; 2; 6; 6; 6; 7; 1; 0; 0; 6; 4; 3; 5; 5; 1; 7;
   8; 7; 5; 5; 0; 8; 8; 8; 8; 7; 5; 2; 2; 1; 7; 7; 7; 8; 3; 0; 0; 7; 0; 8; 8; 8; 8; 7; 2; 1; 1; 1; 7; 7; 7; 8; 3; 0; 0; 7; 8; 3; 2; 1; 1; 0;
   0; 0; 0; 7; 1; 0; 5; 2; 2; 1; 1; 1; 4; 3; 5; 5; 2; 6; 8; 6; 5; 5; 0; 8; 8; 8; 8; 6; 3; 2; 2; 3; 5; 5; 8; 1; 0; 0; 5; 5; 0; 8; 8; 8; 8; 6;
   2; 5; 2; 2; 6; 6; 6; 8; 3; 0; 0; 6; 8; 3; 2; 1; 1; 0; 0; 0; 0; 6; 2; 2; 5; 1; 0; 0; 2; 2; 4; 1; 7; 7; 7; 7; 6; 5; 2; 2; 2; 6; 6; 6; 7; 3;
   0; 0; 6; 5; 3; 3; 0; 6; 7; 6; 3; 3; 1; 7; 7; 7; 7; 6; 2; 5; 2; 2; 6; 6; 6; 7; 1; 0; 0; 6; 7; 1; 0; 5; 2; 2; 1; 1; 1; 6; 2; 2; 5; 1; 0; 0;
   2; 2].
Lemma safe_X : safe X [].
Proof. apply (check_sound 10 X [] (map at_ strategy_X) [] (or_introl eq_refl)). vm_compute. reflexivity. Qed.
Lemma safe_O : safe O [].
Proof. apply (check_sound 10 O [] (map at_ strategy_O) [] (or_intror eq_refl)). vm_compute. reflexivity. Qed.

(** ** The games of the engine *)
Lemma accept_true : forall b ms m b', rep b ms -> accept_move b m = (true, b') -> legal ms m /\ rep b' (m :: ms).
Proof.
  intros b ms m b' R E. destruct (legal_dec ms m) as [L|L].
  - destruct (accept_legal b ms m R L) as (b'' & E' & R' & _). rewrite E in E'. injection E' as <-. auto.
  - rewrite (accept_illegal b ms m R L) in E. discriminate.
Qed.
Lemma reached_rep : forall s b, s = X \/ s = O -> reached s b -> exists ms, rep b ms /\ safe s ms.
Proof.
  intros s b Hs H. induction H as [|b m b' H (ms & R & Sf) C E|b m b' H (ms & R & Sf) C Ov Eb E].
  - exists []. split; [exact rep_reset|]. destruct Hs as [->| ->]; [exact safe_X|exact safe_O].
  - destruct (accept_true b ms m b' R E) as (L & R'). exists (m :: ms). split; [exact R'|].
    rewrite (current_turn b ms (proj1 R) (proj2 (proj2 L))) in C.
    destruct Sf as [ms F N|ms m' T L' Sf|ms NF T Sf]; [exfalso; apply L, F|contradiction|apply Sf, L].
  - destruct (accept_true b ms m b' R E) as (L & R'). exists (m :: ms). split; [exact R'|].
    assert (NF := proj2 (proj2 L)). rewrite (current_turn b ms (proj1 R) NF) in C.
    destruct (engine_ok ms b R NF) as (sc & bm & Eb' & Fo). rewrite C in Eb', Fo. rewrite Eb in Eb'. injection Eb' as <-.
    destruct (Z_lt_dec sc 0) as [N|N].
    + exfalso. assert (V := found_verdict s ms sc (Some m) Hs NF C Fo). destruct V as (R1 & _ & _ & V & _). apply V; [lia|exact Sf].
    + destruct Fo as (_ & _ & A & _). destruct (A ltac:(lia)) as (m' & Em & _ & S' & _). injection Em as <-. exact S'.
Qed.
Lemma engine_never_loses : forall s b, s = X \/ s = O -> reached s b -> winner b <> other s.
Proof.
  intros s b Hs H W. destruct (reached_rep s b Hs H) as (ms & R & Sf). apply (safe_no_three s ms Hs Sf).
  apply (shows_winner _ _ (proj1 R)); [apply other_player, Hs|exact W].
Qed.
Lemma engine_moves : forall s b, s = X \/ s = O -> reached s b -> over b = false -> current b = s ->
  exists m b', slow_best s b = Some (Some m) /\ accept_move b m = (true, b').
Proof.
  intros s b Hs H Ov C. destruct (reached_rep s b Hs H) as (ms & R & Sf). assert (NF := proj1 (over_false b ms (proj1 R)) Ov).
  rewrite (current_turn b ms (proj1 R) NF) in C. destruct (engine_ok ms b R NF) as (sc & bm & Eb & Fo). rewrite C in Eb, Fo.
  assert (0 <= sc).
  { destruct (found_verdict s ms sc bm Hs NF C Fo) as (R1 & _ & _ & V & _). destruct (Z.eq_dec sc (-1)) as [E|E]; [destruct (V E Sf)|lia]. }
  destruct Fo as (_ & _ & A & _). destruct (A H0) as (m & -> & L & _). destruct (accept_legal b ms m R L) as (b' & E & _). exists m, b'. auto.
Qed.
(** A won position stays won. *)
Lemma engine_wins : forall l ms, shows (attempts reset l) ms -> played ms -> ~ finished ms -> ~ safe (other (turn (length ms))) ms ->
  exists m, slow_best (turn (length ms)) (attempts reset l) = Some (Some m) /\ legal ms m /\ ~ safe (other (turn (length ms))) (m :: ms).
Proof.
  intros l ms S P NF NS. destruct (attempts_rep l reset [] rep_reset) as (ms' & (_ & _ & W)).
  assert (R : rep (attempts reset l) ms) by (split; [exact S|split; [exact P|exact W]]).
  destruct (engine_ok ms _ R NF) as (sc & bm & Eb & Fo). assert (Hp := turn_cases (length ms)).
  assert (V := found_verdict _ ms sc bm Hp NF eq_refl Fo). destruct V as (R1 & _ & V & _).
  assert (sc = 1) by (destruct (Z_le_dec sc 0) as [L|L]; [destruct (NS (V L))|lia]). subst sc.
  destruct Fo as (_ & _ & A & _). destruct (A ltac:(lia)) as (m & -> & L & _ & N). exists m. auto.
Qed.

(** ** Concrete positions *)
Definition legal_b (ms : list move) (m : move) : bool := is_valid m && (owner ms m =? 0) && negb (finished_b ms).
Lemma legal_b_ok : forall ms m, legal_b ms m = true -> legal ms m.
Proof.
  intros ms m H. unfold legal_b in H. apply andb_true_iff in H. destruct H as (H & C). apply andb_true_iff in H. destruct H as (A & B).
  split; [apply valid_iff, A|]. split; [apply owner_free, Z.eqb_eq, B|]. rewrite <- finished_iff. intro F. rewrite F in C. discriminate.
Qed.
Fixpoint played_b (ms : list move) : bool := match ms with [] => true | m :: ms => legal_b ms m && played_b ms end.
Lemma played_b_ok : forall ms, played_b ms = true -> played ms.
Proof. induction ms as [|m ms IH]; intro H; [constructor|]. cbn in H. apply andb_true_iff in H. constructor; [apply IH, H|apply legal_b_ok, H]. Qed.
Lemma attempts_app : forall l b m, attempts b (l ++ [m]) = snd (accept_move (attempts b l) m).
Proof. induction l as [|x l IH]; intros b m; [reflexivity|]. cbn [app attempts]. apply IH. Qed.
Lemma played_rep : forall ms, played ms -> rep (attempts reset (rev ms)) ms.
Proof.
  induction 1 as [|m ms P IH L]; [exact rep_reset|]. cbn [rev]. rewrite attempts_app.
  destruct (accept_legal _ ms m IH L) as (b' & -> & R & _). exact R.
Qed.
Lemma won_by_search : forall ms bm, played_b ms = true -> finished_b ms = false ->
  slow slow_fuel (turn (length ms)) (attempts reset (rev ms)) = Some (1, bm, attempts reset (rev ms)) -> ~ safe (other (turn (length ms))) ms.
Proof.
  intros ms bm P F E. assert (R := played_rep ms (played_b_ok ms P)). assert (NF : ~ finished ms) by (rewrite <- finished_iff; congruence).
  destruct (slow_ok slow_fuel ms _ R NF) as (sc & bm' & E' & Fo); [unfold slow_fuel; lia|]. rewrite E in E'. injection E' as <- <-.
  destruct (found_verdict _ ms 1 bm (turn_cases _) NF eq_refl Fo) as (_ & _ & _ & _ & V). apply V. reflexivity.
Qed.
