(** The scores of the fast engines in their maps: C102. *)

From Coq Require Import ZArith List Bool Lia Sorting.Sorted.
From Verif Require Import Base Cache_Model Linked_Model Cont_Model Cont_Spec Map_Model Map_Spec Map_Proofs Map_Props Scores_Model Scores_Spec Scores_Proofs.
From Verif Require Fast_Model Ttt_Model Connect4_Model.
Import ListNotations.
Open Scope Z_scope.

(** * C102 *)

(** At every visit, a board state has the scores that the earlier visits to it left; and a walk through the map comes
    across every board state that was visited, once, in ascending order, with its scores.  This holds for every history
    of visits, if the first board state is the least, none is negative, memory behind pages does not look like one of
    them, and the pool has room.  Missing: lesser board states later (refuted below), and full pools (C45_full_refuted). *)
Theorem C102_least_first_partial : forall V (s : msizes) junk rm (v0 : V) (h : list (visited V)), two_on_page s -> 2 <= rm <= 65535 ->
  lowest_first (map fst h) -> (forall k, In k (map fst h) -> 0 <= k) -> (forall k, In k (map fst h) -> forall m pos i, junk m pos i <> k) ->
  roomy_visits s junk (map_mem V rm) v0 h ->
  exists m l, visits_to s junk (map_mem V rm) v0 h = COk (m, readings v0 [] h) /\ map_shows m l /\
    StronglySorted Z.lt (map fst l) /\ (forall k, In k (map fst l) <-> In k (map fst h)) /\ (forall k w, In (k, w) l -> w = scores_of v0 h k).
Proof.
  intros V s junk rm v0 h Hs Hr HL HP HJ HM. destruct (two_caps s Hs) as (C1 & C2). destruct (rest_start (V:=V) s C1 C2 rm Hr) as (L & M & EP).
  destruct (visits_ok s junk C1 C2 v0 h (map_mem V rm) L 0%nat [] [] M EP) as (m & n & l & E & R & (K1 & K2) & _); auto.
  { split; [cbn; tauto|intros k w []]. }
  exists m, l. split; [exact E|]. split; [eapply rest_shows; eauto|]. destruct R as (L' & M' & _). split; [apply (p_srt _ _ _ _ _ M')|]. split; [exact K1|exact K2].
Qed.
Print Assumptions C102_least_first_partial.

(** In particular, when the first board state is the empty board, as when the engine plays first. *)
Theorem C102_empty_first_partial : forall (s : msizes) (k0 : Z) junk rm (v0 : list Z) f (h : list (visited (list Z))),
  (s = t_sizes /\ k0 = Ttt_Model.state Ttt_Model.reset) \/ (s = c_sizes /\ k0 = Connect4_Model.state Connect4_Model.reset) -> 2 <= rm <= 65535 ->
  (forall k, In k (map fst h) -> 0 <= k) -> (forall k, In k (k0 :: map fst h) -> forall m pos i, junk m pos i <> k) ->
  roomy_visits s junk (map_mem (list Z) rm) v0 ((k0, f) :: h) ->
  exists m l, visits_to s junk (map_mem (list Z) rm) v0 ((k0, f) :: h) = COk (m, readings v0 [] ((k0, f) :: h)) /\ map_shows m l /\
    StronglySorted Z.lt (map fst l) /\ (forall k, In k (map fst l) <-> In k (k0 :: map fst h)) /\ (forall k w, In (k, w) l -> w = scores_of v0 ((k0, f) :: h) k).
Proof.
  intros s k0 junk rm v0 f h HS Hr HP HJ HM.
  assert (Hs : two_on_page s /\ k0 = 0). { destruct HS as [(-> & ->)|(-> & ->)]; (split; [repeat split; discriminate|reflexivity]). } destruct Hs as (Hs & ->).
  apply (C102_least_first_partial (list Z) s junk rm v0 ((0, f) :: h)); auto.
  - intros k [<-|Hk]; cbn; [lia|apply HP; exact Hk].
  - intros k [<-|Hk]; cbn; [lia|apply HP; exact Hk].
Qed.
Print Assumptions C102_empty_first_partial.

(** The map then gives the engines the same scores as the ideal one of Fast_Model, on which C99-C101 rest. *)
Theorem C102_ideal_partial : forall (s : msizes) junk rm n (h : list (visited (list Z))), two_on_page s -> 2 <= rm <= 65535 ->
  lowest_first (map fst h) -> (forall k, In k (map fst h) -> 0 <= k) -> (forall k, In k (map fst h) -> forall m pos i, junk m pos i <> k) ->
  roomy_visits s junk (map_mem (list Z) rm) (repeat (-1) n) h ->
  exists m ws, visits_to s junk (map_mem (list Z) rm) (repeat (-1) n) h = COk (m, ws) /\ ideal_visits n [] h = map Some ws.
Proof.
  intros s junk rm n h Hs Hr HL HP HJ HM. destruct (C102_least_first_partial (list Z) s junk rm (repeat (-1) n) h Hs Hr HL HP HJ HM) as (m & l & E & _).
  exists m, (readings (repeat (-1) n) [] h). split; [exact E|]. apply ideal_readings. intro j. destruct (in_dec Z.eq_dec j (map fst [])) as [[]|]; reflexivity.
Qed.
Print Assumptions C102_ideal_partial.

(** A game after the other: board states 0, 9, 5 and so on, learned from and looked up; two key levels. *)
Definition raise (d : Z) : option (list Z -> list Z) := Some (map (Z.add d)).
Definition blank_ones : mem (mitem (list Z)) -> Z -> Z -> Z := fun _ _ _ => -1.
Definition lessons : list (visited (list Z)) :=
  map (fun k => (k, raise k)) [0; 13; 7; 19; 4; 10; 16; 22; 2; 14; 8; 20; 5; 11; 17; 23] ++ map (fun k => (k, None)) [0; 23; 6; 7] ++ map (fun k => (k, raise 100)) [7; 13; 24; 18; 12; 6; 3; 9; 15; 21] ++ map (fun k => (k, None)) [6; 7; 13; 22; 25].
Definition size_of (r : cres (mem (mitem (list Z)) * list (list Z))) : Z := match r with COk (m, _) => c_size c_keys m | _ => -1 end.
Definition read_of (r : cres (mem (mitem (list Z)) * list (list Z))) : list (list Z) := match r with COk (_, l) => l | _ => [] end.
Example C102_least_first_case : two_on_page tall /\ lowest_first (map fst lessons) /\ (forall k, In k (map fst lessons) -> 0 <= k) /\
  (forall k, In k (map fst lessons) -> forall m pos i, blank_ones m pos i <> k) /\ roomy_visits tall blank_ones (map_mem (list Z) 100) [-1; -1] lessons /\
  size_of (visits_to tall blank_ones (map_mem (list Z) 100) [-1; -1] lessons) = 2 /\
  skipn 30 (read_of (visits_to tall blank_ones (map_mem (list Z) 100) [-1; -1] lessons)) = [[99; 99]; [106; 106]; [112; 112]; [21; 21]; [-1; -1]].
Proof.
  split; [repeat split; discriminate|]. split; [intros k H; cbn in H |- *; intuition lia|]. split; [intros k H; cbn in H; intuition lia|].
  split; [intros k H m pos i; cbn in H; unfold blank_ones; intuition lia|]. split; [vm_compute; repeat split; discriminate|]. split; vm_compute; reflexivity.
Qed.
(** The map of tic-tac-toe, with the states of some boards. *)
Example C102_empty_first_case : let h := [(1, raise 3); (0, None); (65, raise 1); (1, None); (0, raise 2); (0, None)] in
  (forall k, In k (map fst h) -> 0 <= k) /\ (forall k, In k (Ttt_Model.state Ttt_Model.reset :: map fst h) -> forall m pos i, blank_ones m pos i <> k) /\
  roomy_visits t_sizes blank_ones (map_mem (list Z) 100) (repeat (-1) 9) ((Ttt_Model.state Ttt_Model.reset, raise 5) :: h) /\
  readings (repeat (-1) 9) [] ((0, raise 5) :: h) = map (fun x => repeat x 9%nat) [-1; -1; 4; -1; 2; 4; 6].
Proof.
  cbn zeta. split; [intros k H; cbn in H; intuition lia|]. split; [intros k H m pos i; cbn in H; unfold blank_ones; intuition lia|]. split; [vm_compute; repeat split; discriminate|vm_compute; reflexivity].
Qed.
Example C102_ideal_case : ideal_visits 2 [] lessons = map Some (read_of (visits_to tall blank_ones (map_mem (list Z) 100) (repeat (-1) 2) lessons)).
Proof. vm_compute. reflexivity. Qed.

(** With the sizes of tic-tac-toe: 626 board states are visited, each less than the one before, and their numbers are
    written; later the state 1400 has new scores again, as if it had not been visited. *)
Definition down (n : nat) : list Z := map (fun i => 2000 - Z.of_nat i) (seq 0 n).
Definition learned : list (visited Z) := map (fun k => (k, Some (fun _ => k))) (down 626).
Definition last_of (r : cres (mem (mitem Z) * list Z)) : option Z := match r with COk (_, l) => Some (last l 0) | _ => None end.
Theorem C102_refuted : exists h, map fst h = down 626 /\ (forall k, In k (map fst h) -> 0 <= k < 2 ^ 18) /\ last_of (visits_to t_sizes ones (map_mem Z 1000) (-1) (h ++ [(1400, None)])) = Some (-1) /\
  scores_of (-1) h 1400 = 1400.
Proof.
  exists learned. split; [unfold learned; rewrite map_map; cbn [fst]; apply map_id|]. split.
  - assert (E : forallb (fun k => (0 <=? k) && (k <? 2 ^ 18)) (map fst learned) = true) by (vm_compute; reflexivity).
    intros k H. rewrite forallb_forall in E. specialize (E k H). apply andb_true_iff in E. destruct E as (E1 & E2). apply Z.leb_le in E1. apply Z.ltb_lt in E2. lia.
  - split; vm_compute; reflexivity.
Qed.
Print Assumptions C102_refuted.
