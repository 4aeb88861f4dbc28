(** C99-C101: the fast engines: which moves they give, what learning does, and how a move is chosen. *)

From Coq Require Import ZArith List Bool Lia.
From Verif Require Import Base Fast_Model Fast_Spec Fast_Pick.
From Verif Require Ttt_Model Ttt_Spec Ttt_Calls Ttt_Proofs Ttt_Engine Fast_Ttt.
From Verif Require Connect4_Model Connect4_Spec Connect4_Calls Connect4_Proofs Slow4_Proofs Fast_C4.
Import ListNotations.
Open Scope Z_scope.

(** ** C99: the engine gives a legal move *)
(** Tic-tac-toe: a move that may be played, if some move that may be played has a score that is not the least. *)
Theorem C99_t_partial : forall room k ms rand, Ttt_Spec.played ms -> ~ Ttt_Spec.finished ms -> t_known k -> available room k (t_key ms) -> 0 <= rand ->
  (exists m, Ttt_Spec.legal ms m /\ t_score k ms m <> 1) ->
  exists m k', t_fast room k (t_at ms) rand = (Chosen m, k') /\ Ttt_Spec.legal ms m.
Proof.
  intros room k ms rand P N K A R H. destruct (Fast_Ttt.fast_eq room k ms rand P K A) as (k' & E & _). destruct (Fast_Ttt.legal_choice k ms rand K N R H) as (m & C & L).
  exists m, k'. rewrite E, C. auto.
Qed.
(** If all of them have the least score, and the board is not empty: a division by zero. *)
Theorem C99_t_zero : forall room k ms rand, Ttt_Spec.played ms -> ~ Ttt_Spec.finished ms -> ms <> [] -> t_known k -> available room k (t_key ms) -> 0 <= rand ->
  (forall m, Ttt_Spec.legal ms m -> t_score k ms m = 1) -> fst (t_fast room k (t_at ms) rand) = DivZero.
Proof.
  intros room k ms rand P N Z K A R H. destruct (Fast_Ttt.fast_eq room k ms rand P K A) as (k' & E & _). rewrite E. apply Fast_Ttt.zero_choice; assumption.
Qed.
(** On the empty board the rows are counted from (0, 1) to (3, 0). *)
Theorem C99_t_empty : forall room k rand, t_known k -> available room k (t_key []) -> 0 <= rand -> (forall m, Ttt_Spec.on_board m -> t_score k [] m = 1) ->
  fst (t_fast room k (t_at []) rand) = Chosen ((1 + rand mod 9) / 3, (1 + rand mod 9) mod 3).
Proof.
  intros room k rand K A R H. destruct (Fast_Ttt.fast_eq room k [] rand Ttt_Spec.played_none K A) as (k' & E & _). rewrite E. apply Fast_Ttt.empty_choice; assumption.
Qed.
(** Connect four: the same; *)
Theorem C99_c_partial : forall room k ms b rand, Connect4_Spec.played ms -> ~ Connect4_Spec.finished ms -> c_at ms b -> c_known k -> available room k (c_key ms) -> 0 <= rand ->
  (exists m, Connect4_Spec.legal ms m /\ c_score k ms m <> 1) ->
  exists m k', c_fast room k b rand = (Chosen m, k') /\ Connect4_Spec.legal ms m.
Proof.
  intros room k ms b rand P N At K A R H. destruct (Fast_C4.fast_eq room k ms b rand P At K A) as (k' & E & _). destruct (Fast_C4.legal_choice k ms b rand K N R H) as (m & C & L).
  exists m, k'. rewrite E, C. auto.
Qed.
(** if all have the least score, a column is taken that may be full. *)
Theorem C99_c_least : forall room k ms b rand, Connect4_Spec.played ms -> ~ Connect4_Spec.finished ms -> c_at ms b -> c_known k -> available room k (c_key ms) -> 0 <= rand ->
  (forall m, Connect4_Spec.legal ms m -> c_score k ms m = 1) ->
  let c := (1 + rand mod Z.of_nat (length (c_free ms))) mod 7 in fst (c_fast room k b rand) = Chosen (Connect4_Spec.height ms c, c).
Proof.
  intros room k ms b rand P N At K A R H c. destruct (Fast_C4.fast_eq room k ms b rand P At K A) as (k' & E & _). rewrite E. apply Fast_C4.least_choice; assumption.
Qed.
(** No room for the position: the variable that is returned was not set. *)
Theorem C99_unset : (forall room k ms rand, ~ available room k (t_key ms) -> fst (t_fast room k (t_at ms) rand) = Unset) /\
  (forall room k ms b rand, Connect4_Spec.played ms -> c_at ms b -> ~ available room k (c_key ms) -> fst (c_fast room k b rand) = Unset).
Proof.
  split; [intros room k ms rand N; rewrite (Fast_Ttt.unavailable room k ms rand N)|intros room k ms b rand P At N; rewrite (Fast_C4.unavailable room k ms b rand P At N)]; reflexivity.
Qed.

(** The games of a session in which the fast engine (X) loses again and again to the slow one: it plays (0, 0), (0, 1), (2, 1)
    and then the cell that the last number picks. *)
Definition lost (n : nat) (r : Z) : list Z := concat (repeat [0; 0; 0; 0; 30; 0; r; 0; 0] n).
Definition answers : list (Ttt_Model.board * move) := map (fun e => (t_at (rev (fst e)), snd e))
  [([(0, 0)], (1, 1)); ([(0, 0); (1, 1); (0, 1)], (0, 2)); ([(0, 0); (1, 1); (0, 1); (0, 2); (2, 1)], (1, 0));
   ([(0, 0); (1, 1); (0, 1); (0, 2); (2, 1); (1, 0); (1, 2)], (2, 0)); ([(0, 0); (1, 1); (0, 1); (0, 2); (2, 1); (1, 0); (2, 0)], (1, 2));
   ([(0, 0); (1, 1); (0, 1); (0, 2); (2, 1); (1, 0); (2, 2)], (1, 2))].
Lemma answers_ok : Forall (fun e => Ttt_Model.slow_best Ttt_Spec.O (fst e) = Some (Some (snd e))) answers.
Proof. unfold answers. repeat (apply Forall_cons; [vm_compute; reflexivity|]). apply Forall_nil. Qed.
Definition trap : list move := [(1, 0); (2, 1); (0, 2); (0, 1); (1, 1); (0, 0)].
Definition to_trap (n : nat) : list Z := lost n 20 ++ lost 9 10 ++ lost 9 0 ++ [0; 0; 0; 0; 30; 0].
Lemma lost_pos : forall n r, 0 <= r -> Forall (fun x => 0 <= x) (lost n r).
Proof. intros n r R. unfold lost. induction n as [|n IH]; [constructor|]. simpl. repeat (apply Forall_cons; [lia|]). exact IH. Qed.
Lemma to_trap_pos : forall n, Forall (fun x => 0 <= x) (to_trap n).
Proof. intros n. unfold to_trap. rewrite !Forall_app. repeat split; try (apply lost_pos; lia). repeat (apply Forall_cons; [lia|]). apply Forall_nil. Qed.
Definition after (n : nat) : option (t_game * knowledge) := Fast_Ttt.sim answers (to_trap n) t_new [].
Lemma trap_played : Ttt_Spec.played trap.
Proof. apply Ttt_Engine.played_b_ok. reflexivity. Qed.
Lemma trap_open : ~ Ttt_Spec.finished trap.
Proof. rewrite <- Ttt_Proofs.finished_iff. discriminate. Qed.
Lemma trap_legal : forall m, Ttt_Spec.legal trap m <-> m = (1, 2) \/ m = (2, 0) \/ m = (2, 2).
Proof.
  intros m. rewrite <- (Fast_Ttt.free_in trap m trap_open). change (t_free trap) with [(1, 2); (2, 0); (2, 2)]. simpl.
  split; [intros [H|[H|[H|[]]]]; auto|intros [H|[H|H]]; auto].
Qed.
Definition shown (g : t_game) (k : knowledge) (s1 s2 s3 : Z) : bool :=
  Fast_Ttt.board_eqb (t_board g) (t_at trap) && (t_score k trap (1, 2) =? s1) && (t_score k trap (2, 0) =? s2) && (t_score k trap (2, 2) =? s3).
Lemma after_session : forall n s1 s2 s3, (match after n with Some (g, k) => shown g k s1 s2 s3 | None => false end) = true ->
  exists g k, t_session plenty Ttt_Spec.X g k /\ t_board g = t_at trap /\ t_score k trap (1, 2) = s1 /\ t_score k trap (2, 0) = s2 /\ t_score k trap (2, 2) = s3.
Proof.
  intros n s1 s2 s3 H. destruct (after n) as [[g k]|] eqn:E; [|discriminate H]. exists g, k. unfold shown in H.
  apply andb_prop in H. destruct H as [H H3]. apply andb_prop in H. destruct H as [H H2]. apply andb_prop in H. destruct H as [H H1].
  apply Z.eqb_eq in H1, H2, H3. apply Fast_Ttt.board_eqb_ok in H. unfold after in E.
  split; [exact (Fast_Ttt.sim_ok answers (to_trap n) t_new [] g k answers_ok (to_trap_pos n) (ts_start _ _) E)|auto].
Qed.
(** The division by zero is reached in games that are only played by the two engines. *)
Theorem C99_zero_refuted : exists g k, t_session plenty Ttt_Spec.X g k /\ Ttt_Model.over (t_board g) = false /\ Ttt_Model.current (t_board g) = Ttt_Spec.X /\
  forall rand, 0 <= rand -> fst (t_fast plenty k (t_board g) rand) = DivZero.
Proof.
  assert (H : (match after 9 with Some (g, k) => shown g k 1 1 1 | None => false end) = true) by (vm_compute; reflexivity).
  destruct (after_session 9 1 1 1 H) as (g & k & S & B & V1 & V2 & V3). exists g, k. split; [exact S|].
  rewrite B. split; [reflexivity|]. split; [reflexivity|]. intros rand R.
  apply C99_t_zero; [exact trap_played|exact trap_open|discriminate|exact (proj1 (Fast_Ttt.session_ok _ _ _ _ S))|right; reflexivity|exact R|].
  intros m L. apply trap_legal in L. destruct L as [-> | [-> | ->]]; assumption.
Qed.
(** With the least score everywhere the first move can be off the board; and it is never (0, 0). *)
Definition first_lost (c : move) : list move :=
  if fst c =? 0 then [c; (1, 0); (2, 0); (1, 1); (2, 2); (1, 2)] else if fst c =? 1 then [c; (0, 0); (2, 0); (0, 1); (2, 2); (0, 2)] else [c; (0, 0); (1, 0); (0, 1); (1, 2); (0, 2)].
Definition all_lost : list (list move) := concat (repeat (map first_lost Ttt_Model.cells) 9).
Theorem C99_empty_refuted : exists gs k, Forall (fun ms => Ttt_Spec.played (rev ms) /\ Ttt_Spec.three (rev ms) Ttt_Spec.O) gs /\ t_study Ttt_Spec.X gs [] = Some k /\
  (forall m, Ttt_Spec.on_board m -> t_score k [] m = 1) /\
  fst (t_fast plenty k (t_at []) 8) = Chosen (3, 0) /\ ~ Ttt_Spec.legal [] (3, 0) /\ (forall rand, 0 <= rand -> fst (t_fast plenty k (t_at []) rand) <> Chosen (0, 0)).
Proof.
  assert (F : Forall (fun ms => Ttt_Spec.played (rev ms) /\ Ttt_Spec.three (rev ms) Ttt_Spec.O) all_lost).
  { apply Forall_forall. intros ms I. unfold all_lost in I. apply in_concat in I. destruct I as (x & Hx & I). apply repeat_spec in Hx. subst x.
    rewrite <- Ttt_Proofs.three_iff. assert (Q : forall b1 b2 : bool, b1 && b2 = true -> b1 = true /\ b2 = true) by (intros; apply andb_prop; assumption).
    assert (A : forallb (fun ms => Ttt_Engine.played_b (rev ms) && Ttt_Proofs.three_b (rev ms) Ttt_Spec.O) (map first_lost Ttt_Model.cells) = true) by (vm_compute; reflexivity).
    apply (proj1 (forallb_forall _ _) A) in I. apply Q in I. destruct I as [I1 I2]. split; [apply Ttt_Engine.played_b_ok; exact I1|exact I2]. }
  assert (K : forall gs k k', Forall (fun ms => Ttt_Spec.played (rev ms) /\ Ttt_Spec.three (rev ms) Ttt_Spec.O) gs -> t_known k -> t_study Ttt_Spec.X gs k = Some k' -> t_known k').
  { induction gs as [|ms gs IH]; intros k k' Fg Kk E; cbn [t_study] in E; [injection E as <-; exact Kk|]. inversion Fg as [|? ? [Pm _] Fg']; subst.
    replace (Ttt_Calls.attempts Ttt_Model.reset ms) with (t_at (rev ms)) in E by (unfold t_at; rewrite rev_involutive; reflexivity).
    rewrite <- (rev_involutive ms) in E at 2. destruct (t_learn plenty Ttt_Spec.X (t_at (rev ms)) (rev (rev ms)) k) as [k1|] eqn:L; [|discriminate].
    exact (IH k1 k' Fg' (proj1 (Fast_Ttt.learn_ok _ _ _ _ _ Pm Kk L)) E). }
  assert (H : (match t_study Ttt_Spec.X all_lost [] with Some k => forallb (fun m => t_score k [] m =? 1) Ttt_Model.cells | None => false end) = true) by (vm_compute; reflexivity).
  destruct (t_study Ttt_Spec.X all_lost []) as [k|] eqn:E; [|discriminate H]. exists all_lost, k. split; [exact F|]. split; [exact E|].
  assert (V : forall m, Ttt_Spec.on_board m -> t_score k [] m = 1).
  { intros m B. apply Z.eqb_eq. apply (proj1 (forallb_forall _ _) H). apply Fast_Ttt.in_cells. exact B. }
  assert (Kn : t_known k) by exact (K _ _ _ F (Forall_nil _) E).
  split; [exact V|]. split; [rewrite (C99_t_empty plenty k 8 Kn (or_intror eq_refl) ltac:(lia) V); reflexivity|]. split; [intros [[H1 _] _]; simpl in H1; lia|].
  intros rand R. rewrite (C99_t_empty plenty k rand Kn (or_intror eq_refl) R V). pose proof (Z.mod_pos_bound rand 9 ltac:(lia)) as M.
  revert M. generalize (rand mod 9). intros r M E0. set (q := 1 + r) in E0.
  assert (E1 : q / 3 = 0) by congruence. assert (E2 : q mod 3 = 0) by congruence. pose proof (Z.div_mod q 3 ltac:(lia)). subst q. lia.
Qed.
(** Connect four: the second column is full, all the others have the least score: a disc is dropped into the full one. *)
Definition drop (cs : list Z) : list move := rev (fold_left (fun ms c => (Connect4_Spec.height ms c, c) :: ms) cs []).
Definition column_lost : list (list move) :=
  map (fun cs => drop ([1; 1; 1; 1; 1; 1] ++ cs))
    [[0; 2; 6; 2; 3; 2; 5; 2]; [2; 0; 6; 0; 3; 0; 5; 0]; [3; 0; 6; 0; 5; 0; 2; 0]; [4; 0; 6; 0; 2; 0; 5; 0]; [5; 0; 6; 0; 3; 0; 2; 0]; [6; 0; 3; 0; 5; 0; 2; 0]].
Definition columns_lost : list (list move) := concat (repeat column_lost 49).
Definition full_column : list move := rev (drop [1; 1; 1; 1; 1; 1]).
Definition lost_b (ms : list move) : bool :=
  match Slow4_Proofs.all_accepted Connect4_Model.reset ms with Some b => Connect4_Model.winner b =? 1 | None => false end.
Lemma lost_b_ok : forall ms, lost_b ms = true -> Connect4_Spec.played (rev ms) /\ Connect4_Spec.four (rev ms) 1.
Proof.
  intros ms H. unfold lost_b in H. destruct (Slow4_Proofs.all_accepted Connect4_Model.reset ms) as [b|] eqn:E; [|discriminate]. apply Z.eqb_eq in H.
  destruct (Slow4_Proofs.position ms b E) as (_ & S & P & _). split; [exact P|]. apply (Connect4_Calls.shows_winner _ _ S 1); auto.
Qed.
Theorem C99_column_refuted : exists gs k b ms, Forall (fun ms => Connect4_Spec.played (rev ms) /\ Connect4_Spec.four (rev ms) 1) gs /\ c_study 0 gs [] = Some k /\
  Connect4_Spec.played ms /\ ~ Connect4_Spec.finished ms /\ c_at ms b /\
  fst (c_fast plenty k b 0) = Chosen (6, 1) /\ ~ Connect4_Spec.legal ms (6, 1).
Proof.
  assert (F : Forall (fun ms => Connect4_Spec.played (rev ms) /\ Connect4_Spec.four (rev ms) 1) columns_lost).
  { apply Forall_forall. intros ms I. unfold columns_lost in I. apply in_concat in I. destruct I as (x & Hx & I). apply repeat_spec in Hx. subst x.
    apply lost_b_ok. assert (A : forallb lost_b column_lost = true) by (vm_compute; reflexivity). exact (proj1 (forallb_forall _ _) A ms I). }
  destruct (Slow4_Proofs.all_accepted Connect4_Model.reset (rev full_column)) as [b|] eqn:E; [|vm_compute in E; discriminate].
  destruct (Slow4_Proofs.position _ b E) as (At & S & P & _). rewrite rev_involutive in P, S.
  assert (H : (match c_study 0 columns_lost [], Slow4_Proofs.all_accepted Connect4_Model.reset (rev full_column) with
               | Some k, Some b => match fst (c_fast plenty k b 0) with Chosen m => same m (6, 1) | _ => false end | _, _ => false end) = true) by (vm_compute; reflexivity).
  rewrite E in H. destruct (c_study 0 columns_lost []) as [k|] eqn:Ek; [|discriminate H].
  exists columns_lost, k, b, full_column. split; [exact F|]. split; [exact Ek|]. split; [exact P|]. split.
  { apply (Connect4_Proofs.over_false b full_column S). vm_compute in E. injection E as <-. reflexivity. }
  split; [exact At|]. split.
  - destruct (fst (c_fast plenty k b 0)) as [m| |]; try discriminate H. apply same_iff in H. rewrite H. reflexivity.
  - intros [[H1 _] _]. simpl in H1. lia.
Qed.

(** Cases: scores for the three moves of the trap; a position with a full column; no room. *)
Definition t_case (a b c : Z) : knowledge := [(t_key trap, [-1; -1; -1; -1; -1; a; b; -1; c])].
Lemma t_case_known : forall a b c, score_ok 1 20 a -> score_ok 1 20 b -> score_ok 1 20 c -> t_known (t_case a b c).
Proof. intros a b c A B C. constructor; [|constructor]. split; [reflexivity|]. unfold t_case, snd. repeat (constructor; [first [assumption | left; reflexivity]|]). constructor. Qed.
Example C99_t_case : Ttt_Spec.played trap /\ ~ Ttt_Spec.finished trap /\ t_known (t_case 7 3 1) /\ available plenty (t_case 7 3 1) (t_key trap) /\
  (exists m, Ttt_Spec.legal trap m /\ t_score (t_case 7 3 1) trap m <> 1) /\ fst (t_fast plenty (t_case 7 3 1) (t_at trap) 8) = Chosen (2, 0).
Proof.
  split; [exact trap_played|]. split; [exact trap_open|]. split; [apply t_case_known; right; lia|]. split; [right; reflexivity|].
  split; [exists (1, 2); split; [apply trap_legal; auto|vm_compute; discriminate]|]. vm_compute. reflexivity.
Qed.
Example C99_t_zero_case : t_known (t_case 1 1 1) /\ (forall m, Ttt_Spec.legal trap m -> t_score (t_case 1 1 1) trap m = 1) /\ fst (t_fast plenty (t_case 1 1 1) (t_at trap) 8) = DivZero.
Proof.
  split; [apply t_case_known; right; lia|]. split; [|vm_compute; reflexivity]. intros m L. apply trap_legal in L. destruct L as [-> | [-> | ->]]; vm_compute; reflexivity.
Qed.
Example C99_t_empty_case : fst (t_fast plenty [(t_key [], repeat 1 9)] (t_at []) 30) = Chosen (1, 1).
Proof. vm_compute. reflexivity. Qed.
Definition c_case (l : list Z) : knowledge := [(c_key full_column, l)].
Lemma full_column_open : exists b, Connect4_Spec.played full_column /\ ~ Connect4_Spec.finished full_column /\ c_at full_column b.
Proof.
  destruct (Slow4_Proofs.all_accepted Connect4_Model.reset (rev full_column)) as [b|] eqn:E; [|vm_compute in E; discriminate].
  destruct (Slow4_Proofs.position _ b E) as (At & S & P & _). rewrite rev_involutive in P, S. exists b. split; [exact P|]. split; [|exact At].
  apply (Connect4_Proofs.over_false b full_column S). vm_compute in E. injection E as <-. reflexivity.
Qed.
Example C99_c_case : c_known (c_case [30; -1; 20; 1; 1; 1; 1]) /\ c_free full_column = [(0, 0); (0, 2); (0, 3); (0, 4); (0, 5); (0, 6)] /\ c_score (c_case [30; -1; 20; 1; 1; 1; 1]) full_column (0, 2) = 20 /\
  match Connect4_Calls.attempts Connect4_Model.reset (rev full_column) with Some b => fst (c_fast plenty (c_case [30; -1; 20; 1; 1; 1; 1]) b 30) = Chosen (0, 2) | None => False end.
Proof.
  split; [constructor; [|constructor]; split; [reflexivity|]; unfold c_case, snd; repeat (constructor; [first [left; reflexivity | right; lia]|]); constructor|].
  split; [reflexivity|]. split; [vm_compute; reflexivity|]. vm_compute. reflexivity.
Qed.
Example C99_unset_case : ~ available (fun _ _ => false) [] (t_key trap) /\ fst (t_fast (fun _ _ => false) [] (t_at trap) 5) = Unset.
Proof. split; [intros [H|H]; [apply H; reflexivity|discriminate]|vm_compute; reflexivity]. Qed.

(** ** C100: what learning does *)
(** Tic-tac-toe.  After a game only the learner's moves have new scores, in the positions they were made in: 3 more (at most 20)
    when the game was won, 1 more when it was drawn, 1 less (at least 1) when it was lost; an unknown score counts as 10. *)
Theorem C100_t_learns : forall room pid ms k k', Ttt_Spec.played ms -> Ttt_Spec.finished ms -> pid = Ttt_Spec.X \/ pid = Ttt_Spec.O -> t_known k ->
  t_learn room pid (t_at ms) (rev ms) k = Some k' ->
  t_known k' /\
  (forall pre m q, ms = pre ++ m :: q -> Ttt_Spec.turn (length q) = pid ->
    (Ttt_Spec.three ms pid -> t_score k' q m = Z.min 20 (weight 10 (t_score k q m) + 3)) /\
    (Ttt_Spec.three ms (Ttt_Spec.other pid) -> t_score k' q m = Z.max 1 (weight 10 (t_score k q m) - 1)) /\
    (~ Ttt_Spec.three ms Ttt_Spec.X -> ~ Ttt_Spec.three ms Ttt_Spec.O -> t_score k' q m = Z.min 20 (weight 10 (t_score k q m) + 1))) /\
  (forall key i, 0 <= i < 9 -> (forall pre m q, ms = pre ++ m :: q -> Ttt_Spec.turn (length q) = pid -> t_key q = key -> fst m * 3 + snd m <> i) ->
    score k' key i = score k key i).
Proof.
  intros room pid ms k k' P F Hp K E. destruct (Fast_Ttt.learn_ok room pid ms k k' P K E) as (K' & A & B). split; [exact K'|]. split; [|exact B].
  destruct (Fast_Ttt.at_rep ms P) as [S _]. intros pre m q Q T. rewrite (A pre m q Q T). unfold Fast_Ttt.gained.
  assert (O' : Ttt_Spec.other pid = Ttt_Spec.X \/ Ttt_Spec.other pid = Ttt_Spec.O) by (apply Ttt_Proofs.other_player; exact Hp).
  split; [|split].
  - intros H. apply (Ttt_Calls.shows_winner _ _ S pid Hp) in H. rewrite H, Z.eqb_refl. reflexivity.
  - intros H. apply (Ttt_Calls.shows_winner _ _ S _ O') in H. rewrite H. destruct (Z.eqb_spec (Ttt_Spec.other pid) pid) as [e|]; [exfalso; exact (Ttt_Proofs.other_ne pid e)|].
    destruct (Z.eqb_spec (Ttt_Spec.other pid) 0) as [e|]; [exfalso; destruct O' as [-> | ->] in e; discriminate|reflexivity].
  - intros H1 H2. pose proof (proj2 (Ttt_Calls.shows_nobody _ _ S) (conj H1 H2)) as H. rewrite H. change Ttt_Model.p_none with 0.
    destruct (Z.eqb_spec 0 pid) as [e|]; [exfalso; destruct Hp; subst; discriminate|]. reflexivity.
Qed.
(** Positions with the same marks, and no others, have the same scores. *)
Theorem C100_t_keys : forall a b, Ttt_Spec.played a -> Ttt_Spec.played b ->
  (t_key a = t_key b <-> forall m, Ttt_Spec.on_board m -> Ttt_Spec.owner a m = Ttt_Spec.owner b m).
Proof. intros a b Pa Pb. split; [apply Fast_Ttt.key_owner|apply Fast_Ttt.owner_key]; assumption. Qed.
(** With room for everything there is something learnt. *)
Theorem C100_t_total : forall pid ms k, Ttt_Spec.played ms -> t_known k -> exists k', t_learn plenty pid (t_at ms) (rev ms) k = Some k'.
Proof. exact Fast_Ttt.learn_some. Qed.
(** In every session the scores are in their range, and the games are played by the rules. *)
Theorem C100_t_range : forall room s g k, t_session room s g k -> t_known k /\ exists ms, Ttt_Spec.played ms /\ t_board g = t_at ms /\ t_moves g = rev ms.
Proof. exact Fast_Ttt.session_ok. Qed.
(** Two games, one won by O and one drawn, and what X learns from them; the same marks made in two orders. *)
Definition t_lost : list move := rev (first_lost (0, 2)).
Definition t_drawn : list move := rev [(0, 0); (1, 1); (0, 1); (0, 2); (2, 0); (1, 0); (1, 2); (2, 1); (2, 2)].
Lemma t_games : Ttt_Spec.played t_lost /\ Ttt_Spec.three t_lost Ttt_Spec.O /\ Ttt_Spec.played t_drawn /\ Ttt_Spec.finished t_drawn /\ ~ Ttt_Spec.three t_drawn Ttt_Spec.X /\ ~ Ttt_Spec.three t_drawn Ttt_Spec.O.
Proof. rewrite <- !Ttt_Proofs.three_iff, <- Ttt_Proofs.finished_iff. repeat split; try (apply Ttt_Engine.played_b_ok; reflexivity); try reflexivity; discriminate. Qed.
Example C100_t_case : match t_study Ttt_Spec.X [rev t_lost; rev t_drawn; rev t_drawn] [] with
  | Some k => t_score k [] (0, 2) = 9 /\ t_score k [] (0, 0) = 12 /\ t_score k [(1, 1); (0, 0)] (0, 1) = 12 /\ t_score k [(1, 1); (0, 0)] (0, 2) = -1
  | None => False end.
Proof. vm_compute. repeat split. Qed.
Example C100_t_keys_case : t_key [(2, 2); (1, 1); (0, 0)] = t_key [(0, 0); (1, 1); (2, 2)] /\ t_key [(2, 2); (1, 1); (0, 0)] <> t_key [(1, 1); (2, 2); (0, 0)].
Proof. vm_compute. split; [reflexivity|discriminate]. Qed.
Example C100_t_session_case : exists g k, t_session plenty Ttt_Spec.X g k /\ t_board g = t_at trap /\ t_score k trap (2, 2) = 2.
Proof.
  assert (H : (match after 8 with Some (g, k) => shown g k 1 1 2 | None => false end) = true) by (vm_compute; reflexivity).
  destruct (after_session 8 1 1 2 H) as (g & k & S & B & _ & _ & V). exists g, k. auto.
Qed.
(** Connect four: 10 more when the game was won; otherwise 1 more (drawn) or 1 less (lost) and the bonus; always from 1 to 100. *)
Theorem C100_c_learns : forall room pid ms b k k', Connect4_Spec.played ms -> Connect4_Spec.finished ms -> c_at ms b -> pid = 0 \/ pid = 1 -> c_known k ->
  c_learn room pid b (rev ms) k = Some k' ->
  c_known k' /\
  (forall pre m q, ms = pre ++ m :: q -> Connect4_Spec.turn (length q) = pid ->
    (Connect4_Spec.four ms pid -> c_score k' q m = Z.min 100 (weight 50 (c_score k q m) + 10)) /\
    (Connect4_Spec.four ms (1 - pid) -> c_score k' q m = Z.max 1 (Z.min 100 (weight 50 (c_score k q m) - 1 + bonus (length ms)))) /\
    (~ Connect4_Spec.four ms 0 -> ~ Connect4_Spec.four ms 1 -> c_score k' q m = Z.min 100 (weight 50 (c_score k q m) + 1 + bonus (length ms)))) /\
  (forall key i, 0 <= i < 7 -> (forall pre m q, ms = pre ++ m :: q -> Connect4_Spec.turn (length q) = pid -> c_key q = key -> snd m <> i) ->
    score k' key i = score k key i).
Proof.
  intros room pid ms b k k' P F At Hp K E. destruct (Fast_C4.learn_ok room pid ms b k k' P At K E) as (K' & A & B). split; [exact K'|]. split; [|exact B].
  destruct (Fast_C4.at_fun ms b P At) as [[S _] _]. intros pre m q Q T. rewrite (A pre m q Q T). unfold Fast_C4.gained, c_gain, c_win, c_draw, c_loss.
  assert (Pq : Connect4_Spec.played (m :: q)) by (rewrite Q in P; exact (Fast_C4.played_tl pre (m :: q) P)). inversion Pq as [|? ? _ L]; subst m0 ms0.
  assert (W : 1 <= weight 50 (c_score k q m) <= 100).
  { unfold weight. destruct (Fast_C4.score_range k q m K ltac:(apply L)) as [-> | H]; [simpl; lia|]. destruct (Z.eqb_spec (c_score k q m) (-1)); lia. }
  assert (G : forall g, g = -1 \/ g = 1 -> (if 32 <? Z.of_nat (length ms) then wrap_s8 (g + 3) else if 24 <? Z.of_nat (length ms) then wrap_s8 (g + 2) else if 18 <? Z.of_nat (length ms) then wrap_s8 (g + 1) else g) = g + bonus (length ms)).
  { intros g Hg. rewrite !Fast_C4.wrap8 by lia. unfold bonus.
    destruct (Z.ltb_spec 32 (Z.of_nat (length ms))); destruct (Nat.ltb_spec 32 (length ms)); try lia.
    destruct (Z.ltb_spec 24 (Z.of_nat (length ms))); destruct (Nat.ltb_spec 24 (length ms)); try lia.
    destruct (Z.ltb_spec 18 (Z.of_nat (length ms))); destruct (Nat.ltb_spec 18 (length ms)); lia. }
  assert (Bn : 0 <= bonus (length ms) <= 3) by (unfold bonus; destruct (32 <? length ms)%nat, (24 <? length ms)%nat, (18 <? length ms)%nat; lia).
  split; [|split].
  - intros H. apply (Connect4_Calls.shows_winner _ _ S pid Hp) in H. rewrite H, Z.eqb_refl. cbn [negb]. lia.
  - intros H. assert (O' : 1 - pid = 0 \/ 1 - pid = 1) by lia. apply (Connect4_Calls.shows_winner _ _ S _ O') in H. rewrite H.
    destruct (Z.eqb_spec (1 - pid) pid) as [e|]; [lia|]. destruct (Z.eqb_spec (1 - pid) Connect4_Model.p_none) as [e|]; [unfold Connect4_Model.p_none in e; lia|].
    cbn [negb]. rewrite G by lia. f_equal. f_equal. lia.
  - intros H1 H2. pose proof (proj2 (Connect4_Calls.shows_nobody _ _ S) (conj H1 H2)) as H. rewrite H. change Connect4_Spec.nobody with 2. change Connect4_Model.p_none with 2.
    destruct (Z.eqb_spec 2 pid) as [e|]; [lia|]. cbn [negb Z.eqb Pos.eqb]. rewrite G by lia. lia.
Qed.
Theorem C100_c_keys : forall a b, Connect4_Spec.played a -> Connect4_Spec.played b ->
  (c_key a = c_key b <-> forall m, Connect4_Spec.on_board m -> Connect4_Spec.owner a m = Connect4_Spec.owner b m).
Proof. intros a b Pa Pb. split; [intros E; exact (proj2 (Fast_C4.key_same a b Pa Pb E))|apply Fast_C4.owner_key; assumption]. Qed.
Theorem C100_c_total : forall pid ms b k, Connect4_Spec.played ms -> c_at ms b -> c_known k -> exists k', c_learn plenty pid b (rev ms) k = Some k'.
Proof. exact Fast_C4.learn_some. Qed.
Theorem C100_c_range : forall room s g k, c_session room s g k -> c_known k /\ exists ms, Connect4_Spec.played ms /\ c_at ms (c_board g) /\ c_moves g = rev ms.
Proof. exact Fast_C4.session_ok. Qed.
(** A game that is lost early, one that is won, and one in two orders. *)
Example C100_c_case :
  (match c_study 0 [drop [0; 2; 6; 2; 3; 2; 5; 2]; drop [3; 0; 3; 0; 3; 0; 3]] [] with
   | Some k => c_score k [] (0, 0) = 49 /\ c_score k [] (0, 3) = 60 /\ c_score k [(0, 2); (0, 0)] (0, 6) = 49 /\ c_score k [(0, 2); (0, 0)] (0, 1) = -1
   | None => False end) /\ lost_b (drop [0; 2; 6; 2; 3; 2; 5; 2]) = true.
Proof. vm_compute. repeat split. Qed.
Example C100_c_keys_case : c_key (rev (drop [0; 1; 2])) = c_key (rev (drop [2; 1; 0])) /\ c_key (rev (drop [0; 1; 2])) <> c_key (rev (drop [1; 0; 2])).
Proof. vm_compute. split; [reflexivity|discriminate]. Qed.
Example C100_c_session_case : exists g k, c_session plenty 1 g k /\ c_moves g = [(0, 3); (1, 3)].
Proof.
  assert (H : exists g1 g2 k1 k2, Slow4_Model.slow_best 0 (c_board c_new) = Some (Some (0, 3)) /\ c_game_accept plenty Slow Fast c_new 0 (0, 3) [] = Some (true, g1, []) /\
    Connect4_Model.over (c_board g1) = false /\ Connect4_Model.current (c_board g1) = 1 /\
    c_fast plenty [] (c_board g1) 170 = (Chosen (1, 3), k1) /\ c_game_accept plenty Slow Fast g1 1 (1, 3) k1 = Some (true, g2, k2) /\ c_moves g2 = [(0, 3); (1, 3)]).
  { do 4 eexists. split; [reflexivity|]. split; [vm_compute; reflexivity|]. split; [reflexivity|]. split; [reflexivity|]. split; [vm_compute; reflexivity|]. split; [vm_compute; reflexivity|reflexivity]. }
  destruct H as (g1 & g2 & k1 & k2 & H1 & H2 & H3 & H4 & H5 & H6 & H7). exists g2, k2. split; [|exact H7].
  apply (cs_fast plenty 1 g1 [] 170 (1, 3) k1); [|exact H3|exact H4|lia|exact H5|exact H6].
  apply (cs_slow plenty 1 c_new [] (0, 3)); [constructor|reflexivity|reflexivity|exact H1|exact H2].
Qed.
(** When a move ends a game of the fast engine against the slow one, the fast one learns from that game, once; no other call
    changes what is known. *)
Theorem C100_t_game : forall room xt ot g ms pid m k, Ttt_Spec.played ms -> t_board g = t_at ms -> t_moves g = rev ms ->
  let g' := {| t_board := t_at (m :: ms); t_moves := rev (m :: ms) |} in
  let learns p := match t_learn room p (t_at (m :: ms)) (rev (m :: ms)) k with Some k' => Some (true, g', k') | None => None end in
  (Ttt_Spec.legal ms m -> pid = Ttt_Spec.turn (length ms) -> Ttt_Spec.finished (m :: ms) ->
    (xt = Fast -> ot = Slow -> t_game_accept room xt ot g pid m k = learns Ttt_Spec.X) /\
    (xt = Slow -> ot = Fast -> t_game_accept room xt ot g pid m k = learns Ttt_Spec.O) /\
    (~ (xt = Fast /\ ot = Slow) -> ~ (xt = Slow /\ ot = Fast) -> t_game_accept room xt ot g pid m k = Some (true, g', k))) /\
  (Ttt_Spec.legal ms m -> pid = Ttt_Spec.turn (length ms) -> ~ Ttt_Spec.finished (m :: ms) -> t_game_accept room xt ot g pid m k = Some (true, g', k)) /\
  (~ Ttt_Spec.finished ms -> ~ Ttt_Spec.legal ms m \/ pid <> Ttt_Spec.turn (length ms) -> t_game_accept room xt ot g pid m k = Some (false, g, k)).
Proof.
  intros room xt ot g ms pid m k P Bd Mv g' learns. pose proof (Fast_Ttt.at_rep ms P) as R. pose proof (proj1 R) as S. unfold t_game_accept. rewrite Bd, Mv.
  assert (Le : Ttt_Spec.legal ms m -> pid = Ttt_Spec.turn (length ms) ->
    negb (pid =? Ttt_Model.current (t_at ms)) = false /\ Ttt_Model.accept_move (t_at ms) m = (true, t_at (m :: ms)) /\
    firstn (Z.to_nat (Ttt_Model.count (t_at (m :: ms)) - 1)) (rev ms) ++ [m] = rev (m :: ms) /\
    (Ttt_Model.over (t_at (m :: ms)) = true <-> Ttt_Spec.finished (m :: ms))).
  { intros L ->. assert (P' : Ttt_Spec.played (m :: ms)) by (constructor; assumption). pose proof (proj1 (Fast_Ttt.at_rep _ P')) as S'.
    rewrite (Ttt_Proofs.current_turn _ _ S ltac:(apply L)), Z.eqb_refl. split; [reflexivity|].
    destruct (Ttt_Proofs.accept_legal _ ms m R L) as (b & A & _). split; [rewrite Fast_Ttt.at_cons, A; reflexivity|].
    split; [|apply (Ttt_Calls.shows_over _ _ S')].
    rewrite (Ttt_Calls.shows_count _ _ S'). cbn [length]. replace (Z.to_nat (Z.of_nat (Datatypes.S (length ms)) - 1)) with (length (rev ms)) by (rewrite rev_length; lia). rewrite firstn_all. reflexivity. }
  split; [|split].
  - intros L T F. destruct (Le L T) as (C & A & M & O). rewrite C, A, M, (proj2 O F). subst learns g'. split; [|split].
    + intros -> ->. reflexivity.
    + intros -> ->. reflexivity.
    + intros N1 N2. destruct xt, ot; try reflexivity; exfalso; tauto.
  - intros L T F. destruct (Le L T) as (C & A & M & O). rewrite C, A, M. destruct (Ttt_Model.over (t_at (m :: ms))); [exfalso; tauto|reflexivity].
  - intros F [N|N].
    + destruct (pid =? Ttt_Model.current (t_at ms)); cbn [negb]; [|reflexivity]. rewrite (Ttt_Proofs.accept_illegal _ ms m R N).
      rewrite (proj2 (Ttt_Proofs.over_false _ ms S) F). destruct g as [gb gm]. cbn in Bd, Mv. rewrite Bd, Mv. reflexivity.
    + rewrite (Ttt_Proofs.current_turn _ _ S F). destruct (Z.eqb_spec pid (Ttt_Spec.turn (length ms))); [contradiction|reflexivity].
Qed.
Theorem C100_c_game : forall room xt ot g ms b' pid m k, Connect4_Spec.played ms -> c_at ms (c_board g) -> c_moves g = rev ms -> c_at (m :: ms) b' ->
  let g' := {| c_board := b'; c_moves := rev (m :: ms) |} in
  let learns p := match c_learn room p b' (rev (m :: ms)) k with Some k' => Some (true, g', k') | None => None end in
  (Connect4_Spec.legal ms m -> pid = Connect4_Spec.turn (length ms) -> Connect4_Spec.finished (m :: ms) ->
    (xt = Fast -> ot = Slow -> c_game_accept room xt ot g pid m k = learns 0) /\
    (xt = Slow -> ot = Fast -> c_game_accept room xt ot g pid m k = learns 1) /\
    (~ (xt = Fast /\ ot = Slow) -> ~ (xt = Slow /\ ot = Fast) -> c_game_accept room xt ot g pid m k = Some (true, g', k))) /\
  (Connect4_Spec.legal ms m -> pid = Connect4_Spec.turn (length ms) -> ~ Connect4_Spec.finished (m :: ms) -> c_game_accept room xt ot g pid m k = Some (true, g', k)) /\
  (~ Connect4_Spec.finished ms -> ~ Connect4_Spec.legal ms m \/ pid <> Connect4_Spec.turn (length ms) -> c_game_accept room xt ot g pid m k = Some (false, g, k)).
Proof.
  intros room xt ot g ms b' pid m k P Bd Mv At g' learns. destruct (Fast_C4.at_fun ms _ P Bd) as [R _]. pose proof (proj1 R) as S. unfold c_game_accept. rewrite Mv.
  assert (Le : Connect4_Spec.legal ms m -> pid = Connect4_Spec.turn (length ms) ->
    negb (pid =? Connect4_Model.current (c_board g)) = false /\ Connect4_Model.accept_move (c_board g) m = Some (true, b') /\
    firstn (Z.to_nat (Connect4_Model.count b' - 1)) (rev ms) ++ [m] = rev (m :: ms) /\
    (Connect4_Model.over b' = true <-> Connect4_Spec.finished (m :: ms))).
  { intros L ->. assert (P' : Connect4_Spec.played (m :: ms)) by (constructor; assumption). destruct (Fast_C4.at_fun _ _ P' At) as [[S' _] _].
    rewrite (Connect4_Proofs.current_turn _ _ S ltac:(apply L)), Z.eqb_refl. split; [reflexivity|].
    destruct (Connect4_Proofs.accept_legal _ ms m R L) as (b & A & _).
    assert (b = b') by (unfold c_at in *; cbn [rev] in At; rewrite Fast_C4.attempts_app, Bd, A in At; congruence). subst b. split; [exact A|].
    split; [|apply (Connect4_Calls.shows_over _ _ S')].
    rewrite (Connect4_Calls.shows_count _ _ S'). cbn [length]. replace (Z.to_nat (Z.of_nat (Datatypes.S (length ms)) - 1)) with (length (rev ms)) by (rewrite rev_length; lia). rewrite firstn_all. reflexivity. }
  split; [|split].
  - intros L T F. destruct (Le L T) as (C & A & M & O). rewrite C, A, M, (proj2 O F). subst learns g'. split; [|split].
    + intros -> ->. reflexivity.
    + intros -> ->. reflexivity.
    + intros N1 N2. destruct xt, ot; try reflexivity; exfalso; tauto.
  - intros L T F. destruct (Le L T) as (C & A & M & O). rewrite C, A, M. destruct (Connect4_Model.over b'); [exfalso; tauto|reflexivity].
  - intros F [N|N].
    + destruct (pid =? Connect4_Model.current (c_board g)); cbn [negb]; [|reflexivity]. rewrite (Connect4_Proofs.accept_illegal _ ms m R N).
      rewrite (proj2 (Connect4_Proofs.over_false _ ms S) F). destruct g as [gb gm]. cbn in Mv |- *. rewrite Mv. reflexivity.
    + rewrite (Connect4_Proofs.current_turn _ _ S F). destruct (Z.eqb_spec pid (Connect4_Spec.turn (length ms))); [contradiction|reflexivity].
Qed.
Example C100_game_case : exists g' k', t_game_accept plenty Fast Slow {| t_board := t_at (tl t_lost); t_moves := rev (tl t_lost) |} Ttt_Spec.O (1, 2) [] = Some (true, g', k') /\ t_score k' [] (0, 2) = 9 /\
  t_game_accept plenty External Fast {| t_board := t_at (tl t_lost); t_moves := rev (tl t_lost) |} Ttt_Spec.O (1, 2) [] = Some (true, g', []).
Proof. do 2 eexists. split; [vm_compute; reflexivity|]. split; [vm_compute; reflexivity|vm_compute; reflexivity]. Qed.

(** A game that is lost late raises the scores of the moves that lost it. *)
Definition late_loss : list move :=
  [(0, 5); (0, 4); (0, 0); (0, 6); (0, 3); (0, 1); (1, 3); (1, 1); (1, 0); (0, 2); (1, 2); (1, 4); (1, 6); (2, 6); (2, 2); (2, 0); (2, 3); (1, 5); (3, 0); (3, 6); (2, 5); (3, 5); (4, 6); (2, 4); (5, 6); (3, 3)].
Theorem C100_loss_refuted : exists ms b k', Connect4_Spec.played ms /\ Connect4_Spec.four ms 1 /\ c_at ms b /\ c_learn plenty 0 b (rev ms) [] = Some k' /\
  forall pre m q, ms = pre ++ m :: q -> Connect4_Spec.turn (length q) = 0 -> c_score k' q m > weight 50 (c_score [] q m).
Proof.
  assert (L : lost_b late_loss = true) by (vm_compute; reflexivity). destruct (lost_b_ok late_loss L) as [P W].
  destruct (Fast_C4.at_rep _ P) as (b & At & _). destruct (C100_c_total 0 (rev late_loss) b [] P At (Forall_nil _)) as (k' & E).
  exists (rev late_loss), b, k'. split; [exact P|]. split; [exact W|]. split; [exact At|]. split; [exact E|]. intros pre m q Q T.
  destruct (C100_c_learns plenty 0 (rev late_loss) b [] k' P (or_intror (or_introl W)) At (or_introl eq_refl) (Forall_nil _) E) as (_ & A & _).
  destruct (A pre m q Q T) as (_ & H & _). specialize (H W). change (bonus (length (rev late_loss))) with 2 in H. rewrite H.
  change (c_score [] q m) with (-1). reflexivity.
Qed.

(** ** C101: how a move is chosen *)
(** If some move that may be played has the greatest score, one of those is played. *)
Theorem C101_t_best : forall room k ms rand, Ttt_Spec.played ms -> ~ Ttt_Spec.finished ms -> t_known k -> available room k (t_key ms) -> 0 <= rand ->
  (exists m, Ttt_Spec.legal ms m /\ t_score k ms m = 20) ->
  exists m k', t_fast room k (t_at ms) rand = (Chosen m, k') /\ Ttt_Spec.legal ms m /\ t_score k ms m = 20.
Proof.
  intros room k ms rand P N K A R H. destruct (Fast_Ttt.fast_eq room k ms rand P K A) as (k' & E & _). destruct (Fast_Ttt.max_choice k ms rand N R H) as (m & C & L).
  exists m, k'. rewrite E, C. auto.
Qed.
Theorem C101_c_best : forall room k ms b rand, Connect4_Spec.played ms -> ~ Connect4_Spec.finished ms -> c_at ms b -> c_known k -> available room k (c_key ms) -> 0 <= rand ->
  (exists m, Connect4_Spec.legal ms m /\ c_score k ms m = 100) ->
  exists m k', c_fast room k b rand = (Chosen m, k') /\ Connect4_Spec.legal ms m /\ c_score k ms m = 100.
Proof.
  intros room k ms b rand P N At K A R H. destruct (Fast_C4.fast_eq room k ms b rand P At K A) as (k' & E & _). destruct (Fast_C4.max_choice k ms b rand N R H) as (m & C & L).
  exists m, k'. rewrite E, C. auto.
Qed.
(** Otherwise the moves that may be played lie one after the other, each as long as its weight, and the number std::rand gives,
    reduced to the sum of the weights other than the least, points at the one that is played. *)
Theorem C101_t_weighted : forall room k ms rand m, Ttt_Spec.played ms -> ~ Ttt_Spec.finished ms -> t_known k -> available room k (t_key ms) -> 0 <= rand ->
  (forall m, Ttt_Spec.legal ms m -> t_score k ms m <> 20) ->
  let wt := fun m => weight 10 (t_score k ms m) in
  let sum := total wt (filter (fun m => negb (t_score k ms m =? 1)) (t_free ms)) in
  0 < sum ->
  (fst (t_fast room k (t_at ms) rand) = Chosen m <-> In m (t_free ms) /\ before wt (t_free ms) m <= rand mod sum < before wt (t_free ms) m + wt m).
Proof.
  intros room k ms rand m P N K A R H wt sum Pos. destruct (Fast_Ttt.fast_eq room k ms rand P K A) as (k' & E & _). rewrite E. cbn [fst].
  exact (Fast_Ttt.weighted_choice k ms rand m K P N R H Pos).
Qed.
Theorem C101_c_weighted : forall room k ms b rand m, Connect4_Spec.played ms -> ~ Connect4_Spec.finished ms -> c_at ms b -> c_known k -> available room k (c_key ms) -> 0 <= rand ->
  (forall m, Connect4_Spec.legal ms m -> c_score k ms m <> 100) ->
  let wt := fun m => weight 50 (c_score k ms m) in
  let sum := total wt (filter (fun m => negb (c_score k ms m =? 1)) (c_free ms)) in
  0 < sum ->
  (fst (c_fast room k b rand) = Chosen m <-> In m (c_free ms) /\ before wt (c_free ms) m <= rand mod sum < before wt (c_free ms) m + wt m).
Proof.
  intros room k ms b rand m P N At K A R H wt sum Pos. destruct (Fast_C4.fast_eq room k ms b rand P At K A) as (k' & E & _). rewrite E. cbn [fst].
  exact (Fast_C4.weighted_choice k ms b rand m K P N R H Pos).
Qed.
Example C101_t_cases : fst (t_fast plenty (t_case 20 3 20) (t_at trap) 0) = Chosen (1, 2) /\ fst (t_fast plenty (t_case 20 3 20) (t_at trap) 1) = Chosen (2, 2) /\
  t_free trap = [(1, 2); (2, 0); (2, 2)] /\
  map (fun r => fst (t_fast plenty (t_case 2 3 (-1)) (t_at trap) r)) [0; 1; 2; 4; 5; 14; 15] = map Chosen [(1, 2); (1, 2); (2, 0); (2, 0); (2, 2); (2, 2); (1, 2)].
Proof. vm_compute. repeat split. Qed.
Example C101_c_cases : match Connect4_Calls.attempts Connect4_Model.reset (rev full_column) with
  | Some b => fst (c_fast plenty (c_case [30; -1; 100; 1; 1; 1; 1]) b 17) = Chosen (0, 2) /\
      map (fun r => fst (c_fast plenty (c_case [30; -1; 20; 1; 1; 1; 2]) b r)) [0; 29; 30; 49; 50; 51; 52] = map Chosen [(0, 0); (0, 0); (0, 2); (0, 2); (0, 3); (0, 4); (0, 0)]
  | None => False end.
Proof. vm_compute. repeat split. Qed.
(** So the best move may never be played: here the others have the least score and come first. *)
Theorem C101_best_refuted : exists g k ms best, t_session plenty Ttt_Spec.X g k /\ t_board g = t_at ms /\ Ttt_Spec.legal ms best /\
  (forall m, Ttt_Spec.legal ms m -> m <> best -> t_score k ms m < t_score k ms best) /\
  forall rand, 0 <= rand -> fst (t_fast plenty k (t_board g) rand) <> Chosen best.
Proof.
  assert (H : (match after 8 with Some (g, k) => shown g k 1 1 2 | None => false end) = true) by (vm_compute; reflexivity).
  destruct (after_session 8 1 1 2 H) as (g & k & S & B & V1 & V2 & V3). exists g, k, trap, (2, 2). split; [exact S|]. split; [exact B|].
  split; [apply trap_legal; auto|]. split; [intros m L D; apply trap_legal in L; destruct L as [-> | [-> | ->]]; [lia|lia|contradiction]|].
  intros rand R. rewrite B. intros E.
  assert (Sum : total (fun m => weight 10 (t_score k trap m)) (filter (fun m => negb (t_score k trap m =? 1)) (t_free trap)) = 2).
  { change (t_free trap) with [(1, 2); (2, 0); (2, 2)]. cbn [filter]. rewrite V1, V2, V3. cbn [Z.eqb Pos.eqb negb total]. rewrite V3. reflexivity. }
  pose proof (C101_t_weighted plenty k trap rand (2, 2) trap_played trap_open (proj1 (C100_t_range _ _ _ _ S)) (or_intror eq_refl) R) as W. cbn zeta in W. rewrite Sum in W.
  destruct (proj1 (W ltac:(intros m L; apply trap_legal in L; destruct L as [-> | [-> | ->]]; lia) ltac:(lia)) E) as [_ C].
  change (t_free trap) with [(1, 2); (2, 0); (2, 2)] in C. cbn [before fst snd Z.eqb Pos.eqb andb] in C. rewrite V1, V2, V3 in C. unfold weight in C. cbn in C.
  pose proof (Z.mod_pos_bound rand 2 ltac:(lia)). lia.
Qed.

Print Assumptions C99_t_partial.
Print Assumptions C99_t_zero.
Print Assumptions C99_t_empty.
Print Assumptions C99_c_partial.
Print Assumptions C99_c_least.
Print Assumptions C99_unset.
Print Assumptions C99_zero_refuted.
Print Assumptions C99_empty_refuted.
Print Assumptions C99_column_refuted.
Print Assumptions C100_t_learns.
Print Assumptions C100_t_keys.
Print Assumptions C100_t_total.
Print Assumptions C100_t_range.
Print Assumptions C100_c_learns.
Print Assumptions C100_c_keys.
Print Assumptions C100_c_total.
Print Assumptions C100_c_range.
Print Assumptions C100_t_game.
Print Assumptions C100_c_game.
Print Assumptions C100_loss_refuted.
Print Assumptions C101_t_best.
Print Assumptions C101_c_best.
Print Assumptions C101_t_weighted.
Print Assumptions C101_c_weighted.
Print Assumptions C101_best_refuted.
