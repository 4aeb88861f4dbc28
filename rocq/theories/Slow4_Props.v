(** C96-C98: the slow engine of connect four. *)

From Coq Require Import ZArith List Bool Lia.
From Verif Require Import Base Connect4_Model Connect4_Spec Connect4_Calls Connect4_Proofs Slow4_Model Slow4_Spec Slow4_Proofs.
Import ListNotations.
Open Scope Z_scope.

(** *** C96: in every game the engine plays as [s] against anybody, whenever it is its turn it finds a move (a
    variable it initialised), and the board accepts it. *)
Theorem C96_moves : forall s b, reached s b -> over b = false -> current b = s ->
  exists m b', slow_best s b = Some (Some m) /\ accept_move b m = Some (true, b').
Proof. exact engine_moves. Qed.
(** The engine as the second player, after three moves and, whatever it does then, after five. *)
Definition opening : list move := [(0, 3); (1, 3); (0, 4)].
Definition on (p s n : Z) : board := {| over := false; winner := 2; current := p; state := s; count := n |}.
Example C96_moves_ex : exists b m b', all_accepted reset opening = Some b /\ reached 1 b /\ over b = false /\ current b = 1 /\
  slow_best 1 b = Some (Some m) /\ m = (0, 2) /\ accept_move b m = Some (true, b') /\
  exists b'', accept_move b' (2, 3) = Some (true, b'') /\ reached 1 b'' /\ over b'' = false /\ current b'' = 1 /\ count b'' = 5.
Proof.
  assert (R1 : reached 1 (on 1 512 1)) by (apply reached_opponent with reset (0, 3); [constructor|discriminate|vm_compute; reflexivity]).
  assert (R2 : reached 1 (on 0 1099511628800 2)) by (apply reached_engine with (on 1 512 1) (1, 3); [exact R1|reflexivity|reflexivity|vm_compute; reflexivity|vm_compute; reflexivity]).
  assert (R3 : reached 1 (on 1 1099511632896 3)) by (apply reached_opponent with (on 0 1099511628800 2) (0, 4); [exact R2|discriminate|vm_compute; reflexivity]).
  assert (R4 : reached 1 (on 0 1108101567552 4)) by (apply reached_engine with (on 1 1099511632896 3) (0, 2); [exact R3|reflexivity|reflexivity|vm_compute; reflexivity|vm_compute; reflexivity]).
  assert (R5 : reached 1 (on 1 1108101568064 5)) by (apply reached_opponent with (on 0 1108101567552 4) (2, 3); [exact R4|discriminate|vm_compute; reflexivity]).
  exists (on 1 1099511632896 3), (0, 2), (on 0 1108101567552 4). split; [vm_compute; reflexivity|]. split; [exact R3|]. split; [reflexivity|]. split; [reflexivity|].
  split; [vm_compute; reflexivity|]. split; [reflexivity|]. split; [vm_compute; reflexivity|].
  exists (on 1 1108101568064 5). split; [vm_compute; reflexivity|]. split; [exact R5|]. repeat split.
Qed.
(** In a position that is not from its own play the moves of the first turns can be taken: here the first player
    has not taken the middle. *)
Theorem C96_position_refuted : exists l b m, attempts reset l = Some b /\ over b = false /\
  slow_best (current b) b = Some (Some m) /\ accept_move b m = Some (false, b).
Proof. exists [(0, 4); (0, 0)]. eexists _, _. split; [vm_compute; reflexivity|]. split; [reflexivity|]. split; [vm_compute; reflexivity|]. vm_compute; reflexivity. Qed.

(** *** C97: in any position with four moves or more, if the player on turn can force a win within as many moves
    as the engine looks ahead (7, 9, 11, 17 or 21), the engine playing on from there wins, within so many moves and
    whatever the other one does. *)
Theorem C97_wins : forall l b ms n, attempts reset l = Some b -> played ms -> shows b ms -> (4 <= length ms)%nat -> (n <= ahead (length ms))%nat ->
  forces (turn (length ms)) n ms -> carries (turn (length ms)) n b.
Proof.
  intros l b ms n E P S Le Hn F. apply (carries_ok n b ms); auto; [exact (attempts_shown l b ms E S P)|apply turn_cases].
Qed.
(** Its move keeps the win and brings it nearer. *)
Theorem C97_nearer : forall l b ms n, attempts reset l = Some b -> played ms -> shows b ms -> (4 <= length ms)%nat -> over b = false -> (S n <= ahead (length ms))%nat ->
  forces (turn (length ms)) (S n) ms -> exists m, slow_best (turn (length ms)) b = Some (Some m) /\ legal ms m /\ forces (turn (length ms)) n (m :: ms).
Proof.
  intros l b ms n E P S Le Ov Hn F. assert (N := proj1 (over_false _ _ S) Ov).
  destruct (engine_ok (turn (length ms)) b ms (attempts_shown l b ms E S P) N Le) as (m & Em & L & W & _). exists m. split; [exact Em|]. split; [exact L|exact (W n Hn F)].
Qed.
(** Two discs in the bottom row with two free cells on either side: a win in three moves, and not in two. *)
Definition open_two : list move := [(0, 3); (1, 3); (0, 4); (1, 4)].
Example C97_wins_ex : exists b, attempts reset open_two = Some b /\ played (rev open_two) /\ shows b (rev open_two) /\
  (4 <= length (rev open_two))%nat /\ over b = false /\ (3 <= ahead (length (rev open_two)))%nat /\
  forces (turn (length (rev open_two))) 3 (rev open_two) /\ ~ forces (turn (length (rev open_two))) 2 (rev open_two).
Proof.
  destruct (all_accepted reset open_two) as [b|] eqn:A; [|vm_compute in A; discriminate]. destruct (position _ _ A) as (E & R). exists b.
  split; [exact E|]. split; [apply R|]. split; [apply R|]. split; [cbn; lia|].
  vm_compute in A. injection A as <-. split; [reflexivity|]. split; [cbn; lia|]. split.
  - apply (forces_b_ok 0 3 _ _ (or_introl eq_refl) R). vm_compute. reflexivity.
  - intro F. apply (forces_b_ok 0 2 _ _ (or_introl eq_refl) R) in F. vm_compute in F. discriminate.
Qed.

(** *** C98: in any position with four moves or more, if the opponent could not force a win within n + 1 moves,
    then they cannot force one within n moves after the engine's move either, for as many moves as it looks ahead.
    So it never opens the way to a loss it could have seen, and it always stops a threat that can be stopped. *)
Theorem C98_careful : forall l b ms n, attempts reset l = Some b -> played ms -> shows b ms -> (4 <= length ms)%nat -> over b = false -> (S n <= ahead (length ms))%nat ->
  exists m, slow_best (turn (length ms)) b = Some (Some m) /\ legal ms m /\
    (~ forces (1 - turn (length ms)) (S n) ms -> ~ forces (1 - turn (length ms)) n (m :: ms)).
Proof.
  intros l b ms n E P S Le Ov Hn. assert (N := proj1 (over_false _ _ S) Ov).
  destruct (engine_ok (turn (length ms)) b ms (attempts_shown l b ms E S P) N Le) as (m & Em & L & _ & W). exists m. split; [exact Em|]. split; [exact L|].
  intros H F. exact (H (W n Hn F)).
Qed.
(** Three discs on each other: the second player must stop the fourth, and can. *)
Definition column_threat : list move := [(0, 0); (0, 6); (1, 0); (0, 5); (2, 0)].
Example C98_careful_ex : exists b, attempts reset column_threat = Some b /\ played (rev column_threat) /\ shows b (rev column_threat) /\
  (4 <= length (rev column_threat))%nat /\ over b = false /\ (2 <= ahead (length (rev column_threat)))%nat /\
  ~ forces (1 - turn (length (rev column_threat))) 2 (rev column_threat) /\ forces (1 - turn (length (rev column_threat))) 1 ((0, 3) :: rev column_threat).
Proof.
  destruct (all_accepted reset column_threat) as [b|] eqn:A; [|vm_compute in A; discriminate]. destruct (position _ _ A) as (E & R). exists b.
  destruct (all_accepted reset (column_threat ++ [(0, 3)])) as [b3|] eqn:A3; [|vm_compute in A3; discriminate]. destruct (position _ _ A3) as (E3 & R3).
  split; [exact E|]. split; [apply R|]. split; [apply R|]. split; [cbn; lia|].
  vm_compute in A. injection A as <-. split; [reflexivity|]. split; [cbn; lia|]. split.
  - intro F. apply (forces_b_ok 0 2 _ _ (or_introl eq_refl) R) in F. vm_compute in F. discriminate.
  - apply (forces_b_ok 0 1 _ _ (or_introl eq_refl) R3). vm_compute in A3. injection A3 as <-. vm_compute. reflexivity.
Qed.
(** So there the engine plays on that column. *)
Example C98_stops_ex : exists b m, attempts reset column_threat = Some b /\ slow_best 1 b = Some (Some m) /\ m = (3, 0).
Proof.
  destruct (all_accepted reset column_threat) as [b|] eqn:A; [|vm_compute in A; discriminate]. destruct (position _ _ A) as (E & R). exists b.
  assert (Ov : over b = false) by (vm_compute in A; injection A as <-; reflexivity).
  destruct (C98_careful column_threat b (rev column_threat) 1 E (proj1 (proj2 R)) (proj1 R) ltac:(cbn; lia) Ov ltac:(cbn; lia)) as (m & Em & L & H).
  exists m. split; [exact E|]. change (turn (length (rev column_threat))) with 1 in Em, H. split; [exact Em|].
  assert (NF : ~ forces 0 1 (m :: rev column_threat)).
  { apply H. intro F. apply (forces_b_ok 0 2 _ _ (or_introl eq_refl) R) in F. vm_compute in A. injection A as <-. vm_compute in F. discriminate. }
  destruct (accept_legal b _ m R L) as (b' & Am & R' & _). rewrite (legal_col _ m L) in *.
  assert (C : 0 <= snd m <= 6) by (destruct L as ((_ & C) & _); exact C). clear H Em L. set (c := snd m) in *. clearbody c. clear m.
  destruct (Z.eq_dec c 0) as [->|C0]; [reflexivity|]. exfalso. apply NF. apply (forces_b_ok 0 1 b' _ (or_introl eq_refl) R').
  vm_compute in A. injection A as <-.
  assert (c = 1 \/ c = 2 \/ c = 3 \/ c = 4 \/ c = 5 \/ c = 6) as [->|[->|[->|[->|[->| ->]]]]] by lia; vm_compute in Am; injection Am as <-; vm_compute; reflexivity.
Qed.

Print Assumptions C96_moves.
Print Assumptions C96_position_refuted.
Print Assumptions C97_wins.
Print Assumptions C97_nearer.
Print Assumptions C98_careful.
