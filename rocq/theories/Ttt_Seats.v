(** Proofs about the seats of an endpoint game (C59). *)

From Coq Require Import ZArith List Bool Lia ZifyBool.
From Verif Require Import Base Ttt_Model Ttt_Spec Ttt_Calls Ttt_Proofs Ttt_Engine.
Import ListNotations.
Open Scope Z_scope.

Lemma store_ok : forall l i m, (i < length l)%nat -> exists l', store_move l i m = Some l' /\ length l' = length l.
Proof.
  induction l as [|x l IH]; intros i m H; cbn [length] in *; [lia|]. destruct i as [|i]; cbn [store_move].
  - eexists. split; [reflexivity|reflexivity].
  - destruct (IH i m) as (l' & -> & L); [lia|]. eexists. split; [reflexivity|]. cbn [length]. congruence.
Qed.
Definition game_ok (g : game) (ms : list move) : Prop := rep (g_board g) ms /\ length (g_moves g) = 9%nat.
Lemma game_accept_spec : forall g ms p m, game_ok g ms ->
  exists ok g', game_accept_move g p m = Some (ok, g') /\
    (ok = true <-> p = current (g_board g) /\ legal ms m) /\
    game_ok g' (if ok then m :: ms else ms) /\ (ok = false -> g_board g' = g_board g).
Proof.
  intros g ms p m (R & L9). unfold game_accept_move. destruct (p =? current (g_board g)) eqn:E; cbn [negb].
  - apply Z.eqb_eq in E. destruct (legal_dec ms m) as [L|L].
    + destruct (accept_legal _ ms m R L) as (b' & Ea & R' & _). rewrite Ea. assert (C := shows_count _ _ (proj1 R')). cbn [length] in C.
      assert (Len := played_unfinished ms (proj1 (proj2 R)) (proj2 (proj2 L))).
      replace (0 <=? count b' - 1) with true by lia.
      destruct (store_ok (g_moves g) (Z.to_nat (count b' - 1)) m) as (l' & -> & Ll); [lia|].
      eexists _, _. split; [reflexivity|]. split; [tauto|]. split; [|discriminate]. split; [exact R'|]. cbn [g_moves]. lia.
    + rewrite (accept_illegal _ ms m R L). eexists _, _. split; [reflexivity|]. split; [split; [discriminate|tauto]|].
      split; [|reflexivity]. split; assumption.
  - eexists _, _. split; [reflexivity|]. split; [split; [discriminate|lia]|]. split; [|reflexivity]. split; assumption.
Qed.

Definition seat_id (g : egame) (s : Z) : Z := if s =? X then x_id g else o_id g.
Definition seat_claimed (g : egame) (s : Z) : bool := if s =? X then x_claimed g else o_claimed g.
Definition started_ok (g : egame) : Prop := started g = if x_claimed g && o_claimed g then 1%nat else 0%nat.

Record seats_ok (x o : Z) (g : egame) : Prop := {
  so_x : x_id g = x; so_o : o_id g = o; so_start : started_ok g;
  so_x0 : x = 0 -> x_claimed g = true; so_o0 : o = 0 -> o_claimed g = true;
  so_game : exists ms, game_ok (e_game g) ms }.

Lemma game_start_ok : forall g ms, game_ok g ms -> game_ok (game_start g) ms.
Proof. intros g ms H. exact H. Qed.
Lemma start_full_game : forall g, (exists ms, game_ok (e_game g) ms) -> exists ms, game_ok (e_game (start_if_full g)) ms.
Proof. intros g (ms & H). exists ms. unfold start_if_full. destruct (x_claimed g && o_claimed g); exact H. Qed.
Lemma start_full_fields : forall g, x_id (start_if_full g) = x_id g /\ o_id (start_if_full g) = o_id g /\ x_claimed (start_if_full g) = x_claimed g /\
  o_claimed (start_if_full g) = o_claimed g /\ started (start_if_full g) = if x_claimed g && o_claimed g then S (started g) else started g.
Proof. intro g. unfold start_if_full. destruct (x_claimed g && o_claimed g); repeat split; reflexivity. Qed.
Lemma reset_ok : forall ms x o, length ms = 9%nat -> seats_ok x o (egame_reset ms x o).
Proof.
  intros ms x o L. unfold egame_reset. set (g := {| e_game := _ |}). destruct (start_full_fields g) as (A & B & C & D & E).
  constructor; [rewrite A; reflexivity|rewrite B; reflexivity| | | |].
  - unfold started_ok. rewrite C, D, E. reflexivity.
  - rewrite C. cbn. intros ->. reflexivity.
  - rewrite D. cbn. intros ->. reflexivity.
  - apply start_full_game. exists []. split; [exact rep_reset|exact L].
Qed.
(** One request. *)
Lemma serve_step : forall x o g r, seats_ok x o g ->
  exists a g', serve g r = Some (a, g') /\ seats_ok x o g' /\
  forall s, s = X \/ s = O ->
    (given s (r, a) = [] /\ seat_claimed g' s = seat_claimed g s) \/
    (given s (r, a) = [if s =? X then x else o] /\ seat_claimed g s = false /\ seat_claimed g' s = true).
Proof.
  intros x o g r H. destruct H as [Hx Ho Hst Hx0 Ho0 (ms & Hg)]. destruct r as [i|id m|p m]; cbn [serve].
  - unfold claim_player. destruct (i =? 0) eqn:E0.
    + destruct (x_claimed g) eqn:Cx.
      * eexists _, _. split; [reflexivity|]. split; [constructor; eauto|]. intros s Hs. left. cbn. auto.
      * set (g1 := {| e_game := e_game g |}). destruct (start_full_fields g1) as (A & B & C & D & E).
        eexists _, _. split; [reflexivity|]. split.
        -- constructor; [rewrite A; exact Hx|rewrite B; exact Ho| | | |].
           ++ unfold started_ok in *. rewrite C, D, E. cbn. rewrite Hst, Cx. cbn. destruct (o_claimed g); reflexivity.
           ++ rewrite C. reflexivity.
           ++ rewrite D. exact Ho0.
           ++ apply start_full_game. eauto.
        -- intros s Hs. cbn [given]. unfold seat_of. rewrite E0. unfold seat_claimed. rewrite C, D. cbn.
           destruct Hs as [->| ->]; cbn; [right|left]; auto. rewrite Hx. auto.
    + destruct (o_claimed g) eqn:Co.
      * eexists _, _. split; [reflexivity|]. split; [constructor; eauto|]. intros s Hs. left. cbn. auto.
      * set (g1 := {| e_game := e_game g |}). destruct (start_full_fields g1) as (A & B & C & D & E).
        eexists _, _. split; [reflexivity|]. split.
        -- constructor; [rewrite A; exact Hx|rewrite B; exact Ho| | | |].
           ++ unfold started_ok in *. rewrite C, D, E. cbn. rewrite Hst, Co. cbn. destruct (x_claimed g); reflexivity.
           ++ rewrite C. exact Hx0.
           ++ rewrite D. reflexivity.
           ++ apply start_full_game. eauto.
        -- intros s Hs. cbn [given]. unfold seat_of. rewrite E0. unfold seat_claimed. rewrite C, D. cbn.
           destruct Hs as [->| ->]; cbn; [left|right]; auto. rewrite Ho. auto.
  - destruct ((id =? 0) || (player_of g id =? p_none)).
    + eexists _, _. split; [reflexivity|]. split; [constructor; eauto|]. intros s Hs. left. cbn. auto.
    + destruct (game_accept_spec (e_game g) ms (player_of g id) m Hg) as (ok & g' & -> & _ & G & _).
      eexists _, _. split; [reflexivity|]. split; [constructor; cbn; eauto|]. intros s Hs. left. cbn. auto.
  - destruct (game_accept_spec (e_game g) ms p m Hg) as (ok & g' & -> & _ & G & _).
    eexists _, _. split; [reflexivity|]. split; [constructor; cbn; eauto|]. intros s Hs. left. cbn. auto.
Qed.
Lemma serve_all_ok : forall x o l g, seats_ok x o g ->
  exists al g', serve_all g l = Some (al, g') /\ seats_ok x o g' /\
  forall s, s = X \/ s = O ->
    (flat_map (given s) (combine l al) = [] /\ seat_claimed g' s = seat_claimed g s) \/
    (flat_map (given s) (combine l al) = [if s =? X then x else o] /\ seat_claimed g s = false /\ seat_claimed g' s = true).
Proof.
  intros x o. induction l as [|r l IH]; intros g H.
  - eexists _, _. split; [reflexivity|]. split; [exact H|]. intros s Hs. left. auto.
  - destruct (serve_step x o g r H) as (a & g1 & E1 & H1 & S1). destruct (IH g1 H1) as (al & g2 & E2 & H2 & S2).
    cbn [serve_all]. rewrite E1, E2. eexists _, _. split; [reflexivity|]. split; [exact H2|]. intros s Hs. cbn [combine flat_map].
    destruct (S1 s Hs) as [(A & B)|(A & B & C)], (S2 s Hs) as [(A' & B')|(A' & B' & C')]; rewrite A, A'; cbn [app].
    + left. split; [reflexivity|congruence].
    + right. split; [reflexivity|]. split; congruence.
    + right. split; [reflexivity|]. split; congruence.
    + congruence.
Qed.
Lemma reset_claimed : forall ms x o s, s = X \/ s = O -> seat_claimed (egame_reset ms x o) s = ((if s =? X then x else o) =? 0).
Proof.
  intros ms x o s Hs. unfold egame_reset. set (g := {| e_game := _ |}). destruct (start_full_fields g) as (_ & _ & C & D & _).
  unfold seat_claimed. rewrite C, D. destruct Hs as [->| ->]; reflexivity.
Qed.

Lemma seats_once : forall ms x o l, length ms = 9%nat ->
  exists al g, serve_all (egame_reset ms x o) l = Some (al, g) /\
    (forall s, s = X \/ s = O -> handed s l al = [] \/ handed s l al = [if s =? X then x else o] /\ (if s =? X then x else o) <> 0) /\
    started g = if ((x =? 0) || negb (Nat.eqb (length (handed X l al)) 0)) && ((o =? 0) || negb (Nat.eqb (length (handed O l al)) 0)) then 1%nat else 0%nat.
Proof.
  intros ms x o l L9. destruct (serve_all_ok x o l _ (reset_ok ms x o L9)) as (al & g & E & H & S). exists al, g. split; [exact E|]. split.
  - intros s Hs. destruct (S s Hs) as [(A & B)|(A & B & C)]; [left; exact A|right; split; [exact A|]]. rewrite reset_claimed in B by exact Hs. lia.
  - rewrite (so_start _ _ _ H).
    assert (G : forall s, s = X \/ s = O -> seat_claimed g s = (((if s =? X then x else o) =? 0) || negb (Nat.eqb (length (handed s l al)) 0))).
    { intros s Hs. destruct (S s Hs) as [(A & B)|(A & B & C)]; unfold handed; rewrite A; rewrite reset_claimed in B by exact Hs.
      - rewrite B. cbn. rewrite orb_false_r. reflexivity.
      - rewrite C. cbn. rewrite orb_true_r. reflexivity. }
    assert (GX := G X (or_introl eq_refl)). assert (GO := G O (or_intror eq_refl)). cbn in GX, GO. unfold seat_claimed in GX, GO. cbn in GX, GO.
    rewrite GX, GO. reflexivity.
Qed.
Lemma moves_by_turn : forall ms x o l al g, length ms = 9%nat -> serve_all (egame_reset ms x o) l = Some (al, g) ->
  exists gm, played gm /\ shows (g_board (e_game g)) gm /\
  forall id m, exists a g', serve g (Move id m) = Some (Moved a, g') /\
    (a = true <-> id <> 0 /\ (id = x /\ turn (length gm) = X \/ id = o /\ id <> x /\ turn (length gm) = O) /\ legal gm m) /\
    (if a then shows (g_board (e_game g')) (m :: gm) else g_board (e_game g') = g_board (e_game g)).
Proof.
  intros ms x o l al g L9 E. destruct (serve_all_ok x o l _ (reset_ok ms x o L9)) as (al' & g1 & E' & H & _). rewrite E in E'. injection E' as <- <-.
  destruct (so_game _ _ _ H) as (gm & G). exists gm. split; [apply G|]. split; [apply G|]. intros id m. cbn [serve].
  assert (P : forall p, p = X \/ p = O -> (player_of g id = p <-> (p = X /\ id = x) \/ (p = O /\ id = o /\ id <> x))).
  { intros p Hp. unfold player_of. rewrite (so_x _ _ _ H), (so_o _ _ _ H). unfold p_x, p_o, p_none, X, O in *.
    destruct (id =? x) eqn:Ex; [lia|]. destruct (id =? o) eqn:Eo; lia. }
  destruct ((id =? 0) || (player_of g id =? p_none)) eqn:C.
  - eexists _, _. split; [reflexivity|]. split; [|reflexivity]. split; [discriminate|]. intros (N & Q & _). exfalso.
    assert (P1 : player_of g id = p_none) by lia. unfold player_of in P1. rewrite (so_x _ _ _ H), (so_o _ _ _ H) in P1. unfold p_x, p_o, p_none in P1.
    destruct (id =? x) eqn:Ex; [lia|]. destruct (id =? o) eqn:Eo; [lia|]. destruct Q as [(Q & _)|(Q & _)]; lia.
  - destruct (game_accept_spec (e_game g) gm (player_of g id) m G) as (ok & g' & -> & I & G' & NB).
    eexists _, _. split; [reflexivity|]. split.
    + rewrite I. assert (Nz : id <> 0) by lia. split.
      * intros (A & B). split; [exact Nz|]. split; [|exact B]. rewrite (current_turn _ _ (proj1 (proj1 G)) (proj2 (proj2 B))) in A.
        destruct (turn_cases (length gm)) as [T|T]; rewrite T in A |- *.
        -- apply (proj1 (P X (or_introl eq_refl))) in A. destruct A as [(_ & A)|(A & _)]; [left; auto|discriminate].
        -- apply (proj1 (P O (or_intror eq_refl))) in A. destruct A as [(A & _)|(_ & A)]; [discriminate|right; tauto].
      * intros (_ & A & B). split; [|exact B]. rewrite (current_turn _ _ (proj1 (proj1 G)) (proj2 (proj2 B))).
        destruct A as [(-> & T)|(A1 & A2 & T)]; rewrite T; apply P; auto.
    + cbn [set_game e_game]. destruct ok; [apply G'|apply NB; reflexivity].
Qed.
