(** C34: histories that are long enough for the counters of 32 bits to wrap. *)

From Coq Require Import ZArith List Bool Lia Permutation.
From Verif Require Import Base ListMem Cache_Model Cache_Spec Cache_Proofs Cache_World.
Import ListNotations.
Open Scope Z_scope.

Lemma wrap_add : forall x, wrap_u32 (wrap_u32 x + 1) = wrap_u32 (x + 1).
Proof. intros. unfold wrap_u32. rewrite Zplus_mod_idemp_l. reflexivity. Qed.
Definition sl (pos lock keep : Z) : slot := {| s_pos := pos; s_ptr := pos; s_lock := lock; s_keep := keep |}.
(** The pages 1, 2, 3 locked so many times; the last one locked now if [lk] is 1. *)
Definition P1 (lk m : Z) : pool := {| slots := [sl 1 lk m; no_slot; no_slot]; count := 1; total_keep := wrap_u32 m; total_locks := wrap_u32 m; os := [(1, 1)]; os_next := 2 |}.
Definition P2 (a lk m : Z) : pool := {| slots := [sl 1 0 a; sl 2 lk m; no_slot]; count := 2; total_keep := wrap_u32 (a + m); total_locks := wrap_u32 (a + m); os := [(2, 2); (1, 1)]; os_next := 3 |}.
Definition P3 (a b lk m : Z) : pool := {| slots := [sl 1 0 a; sl 2 0 b; sl 3 lk m]; count := 3; total_keep := wrap_u32 (a + b + m); total_locks := wrap_u32 (a + b + m); os := [(3, 3); (2, 2); (1, 1)]; os_next := 4 |}.
Ltac ev := cbn -[wrap_u32 Z.add Z.ltb Z.sub page_nil].
Ltac go := unfold page_new; rewrite (proj2 (Z.eqb_neq _ page_nil)) by (unfold page_nil; lia); unfold page_lock, lock_page; ev;
  unfold lock_mapped_page, map_new_page; ev; unfold optimize_mapped_page, add_lock, set_total, set_slot, set_count; ev; rewrite ?wrap_add.
Definition hd (pos : Z) : handle := {| h_pool := true; h_pos := pos; h_ptr := pos |}.

Lemma new1 : forall m, 1 <= m < 2 ^ 32 - 1 -> page_new (P1 0 m) 1 true = (P1 1 (m + 1), hd 1).
Proof.
  intros m H. go. unfold P1. rewrite !(u32_small (m + 1)) by lia. reflexivity.
Qed.
Lemma new2 : forall a m, 1 <= m < a -> a < 2 ^ 32 -> page_new (P2 a 0 m) 2 true = (P2 a 1 (m + 1), hd 2).
Proof.
  intros a m H Ha. go. rewrite (u32_small (m + 1)) by lia. ev. rewrite (proj2 (Z.ltb_ge _ _)) by lia. unfold P2, hd. rewrite Z.add_assoc. reflexivity.
Qed.
Lemma new3 : forall a b m, 1 <= m < b -> b <= a -> a < 2 ^ 32 -> page_new (P3 a b 0 m) 3 true = (P3 a b 1 (m + 1), hd 3).
Proof.
  intros a b m H Hb Ha. go. rewrite (u32_small (m + 1)) by lia. ev. rewrite (proj2 (Z.ltb_ge a _)) by lia. ev. rewrite (proj2 (Z.ltb_ge b _)) by lia. unfold P3, hd. rewrite Z.add_assoc. reflexivity.
Qed.
Lemma first1 : page_new (new_pool 3) 1 true = (P1 1 1, hd 1).
Proof. reflexivity. Qed.
Lemma opt2 : forall a m, m <= a -> optimize_mapped_page (P2 a 1 m) 1 = P2 a 1 m.
Proof. intros a m H. unfold optimize_mapped_page. cbn [optimize_loop get_slot P2 slots nth sl s_keep]. rewrite (proj2 (Z.ltb_ge _ _)) by lia. reflexivity. Qed.
Lemma opt3 : forall a b m, m <= b -> b <= a -> optimize_mapped_page (P3 a b 1 m) 2 = P3 a b 1 m.
Proof. intros a b m H Hb. unfold optimize_mapped_page. cbn [optimize_loop get_slot P3 slots nth sl s_keep]. rewrite (proj2 (Z.ltb_ge a _)) by lia. rewrite (proj2 (Z.ltb_ge b _)) by lia. reflexivity. Qed.
Lemma map2 : forall a, map_new_page (P1 0 a) 1 2 true = (P2 a 1 1, 2).
Proof. intros. unfold map_new_page. cbn [mmap]. unfold add_lock, set_total, set_slot, set_count, P1. cbn [slots count total_keep total_locks os os_next set_nth]. rewrite !wrap_add. reflexivity. Qed.
Lemma map3 : forall a b, map_new_page (P2 a 0 b) 2 3 true = (P3 a b 1 1, 3).
Proof. intros. unfold map_new_page. cbn [mmap]. unfold add_lock, set_total, set_slot, set_count, P2. cbn [slots count total_keep total_locks os os_next set_nth]. rewrite !wrap_add. reflexivity. Qed.
Lemma not_nil : forall k, k < 2 ^ 63 -> (k =? page_nil) = false.
Proof. intros k H. apply Z.eqb_neq. unfold page_nil. lia. Qed.
Lemma first2 : forall a, 1 <= a < 2 ^ 32 -> page_new (P1 0 a) 2 true = (P2 a 1 1, hd 2).
Proof.
  intros a H. unfold page_new. rewrite not_nil by lia. unfold page_lock, lock_page. change (find_mapped_page (P1 0 a) (h_pos _)) with (1%nat, false). change (has_mapping_capacity (P1 0 a)) with true. cbn [negb andb].
  change (count (P1 0 a)) with 1%nat. change (1 <? 1)%nat with false. cbv iota. cbn [h_pos]. rewrite map2. cbv beta iota. rewrite opt2 by lia. reflexivity.
Qed.
Lemma first3 : forall a b, 1 <= b -> b <= a -> a < 2 ^ 32 -> page_new (P2 a 0 b) 3 true = (P3 a b 1 1, hd 3).
Proof.
  intros a b H Hb Ha. unfold page_new. rewrite not_nil by lia. unfold page_lock, lock_page. change (find_mapped_page (P2 a 0 b) (h_pos _)) with (2%nat, false). change (has_mapping_capacity (P2 a 0 b)) with true. cbn [negb andb].
  change (count (P2 a 0 b)) with 2%nat. change (2 <? 2)%nat with false. cbv iota. cbn [h_pos]. rewrite map3. cbv beta iota. rewrite opt3 by lia. reflexivity.
Qed.
Lemma un1 : forall m, page_unlock (P1 1 m) (hd 1) = (P1 0 m, {| h_pool := true; h_pos := 1; h_ptr := 0 |}).
Proof. intros. reflexivity. Qed.
Lemma un2 : forall a m, page_unlock (P2 a 1 m) (hd 2) = (P2 a 0 m, {| h_pool := true; h_pos := 2; h_ptr := 0 |}).
Proof. intros. reflexivity. Qed.
Lemma un3 : forall a b m, page_unlock (P3 a b 1 m) (hd 3) = (P3 a b 0 m, {| h_pool := true; h_pos := 3; h_ptr := 0 |}).
Proof. intros. reflexivity. Qed.
Lemma one_round : forall pos p q r s, page_new p pos true = (q, hd pos) -> page_unlock q (hd pos) = (r, {| h_pool := true; h_pos := pos; h_ptr := 0 |}) ->
  run {| w_pool := p; w_vars := repeat None s |} [New pos true; Destroy s] = Some {| w_pool := r; w_vars := repeat None (S s) |}.
Proof.
  intros pos p q r s E U. change [New pos true; Destroy s] with ([New pos true] ++ [Destroy s]). rewrite run_app. cbn [run step w_pool]. rewrite E. unfold add_var. cbn [w_vars]. apply destroy_last. exact U.
Qed.
(** All three pages, [S n] times each. *)
Definition thrice (n : nat) : list op := rounds 1 0 (S n) ++ rounds 2 (S n) (S n) ++ rounds 3 (S n + S n) (S n).
Lemma rounds_S : forall pos s n, rounds pos s (S n) = [New pos true; Destroy s] ++ rounds pos (S s) n.
Proof. reflexivity. Qed.
Lemma many1 : forall n s m, 1 <= m -> m + Z.of_nat n <= 2 ^ 32 - 1 -> run {| w_pool := P1 0 m; w_vars := repeat None s |} (rounds 1 s n) = Some {| w_pool := P1 0 (m + Z.of_nat n); w_vars := repeat None (s + n) |}.
Proof. apply (round_ind 1 (P1 0)). intros m Hm s. apply (one_round 1 _ (P1 1 (m + 1))); [apply new1; lia|apply un1]. Qed.
Lemma many2 : forall a, a < 2 ^ 32 -> forall n s m, 1 <= m -> m + Z.of_nat n <= a -> run {| w_pool := P2 a 0 m; w_vars := repeat None s |} (rounds 2 s n) = Some {| w_pool := P2 a 0 (m + Z.of_nat n); w_vars := repeat None (s + n) |}.
Proof. intros a Ha. apply (round_ind 2 (P2 a 0)). intros m Hm s. apply (one_round 2 _ (P2 a 1 (m + 1))); [apply new2; lia|apply un2]. Qed.
Lemma many3 : forall a b, b <= a -> a < 2 ^ 32 -> forall n s m, 1 <= m -> m + Z.of_nat n <= b -> run {| w_pool := P3 a b 0 m; w_vars := repeat None s |} (rounds 3 s n) = Some {| w_pool := P3 a b 0 (m + Z.of_nat n); w_vars := repeat None (s + n) |}.
Proof. intros a b Hb Ha. apply (round_ind 3 (P3 a b 0)). intros m Hm s. apply (one_round 3 _ (P3 a b 1 (m + 1))); [apply new3; lia|apply un3]. Qed.
Lemma run_pages : forall n, Z.of_nat n < 2 ^ 32 - 2 -> run (start 3) (thrice n) = Some {| w_pool := P3 (1 + Z.of_nat n) (1 + Z.of_nat n) 0 (1 + Z.of_nat n); w_vars := repeat None (S n + S n + S n) |}.
Proof.
  intros n Hn. unfold thrice. rewrite !run_app.
  rewrite rounds_S, run_app. change (start 3) with {| w_pool := new_pool 3; w_vars := repeat None 0 |}. rewrite (one_round 1 _ _ _ 0 first1 (un1 1)).
  rewrite many1 by lia. rewrite rounds_S, !run_app. change (1 + n)%nat with (S n).
  rewrite (one_round 2 _ _ _ (S n) (first2 (1 + Z.of_nat n) ltac:(lia)) (un2 _ _)).
  rewrite many2 by lia. replace (S (S n) + n)%nat with (S n + S n)%nat by lia.
  rewrite rounds_S, !run_app. rewrite (one_round 3 _ _ _ (S n + S n)%nat (first3 (1 + Z.of_nat n) (1 + Z.of_nat n) ltac:(lia) ltac:(lia) ltac:(lia)) (un3 _ _ _)).
  rewrite many3 by lia. do 3 f_equal. lia.
Qed.
(** The fourth page cannot be locked when the sum of the three counts is 2^32 + 2. *)
Lemma no_room : forall x, x = 1431655766 -> h_ptr (snd (page_new (P3 x x 0 x) 4 true)) = 0.
Proof. intros x ->. vm_compute. reflexivity. Qed.
Lemma cnt_none : forall q n, cnt q (repeat None n) = 0.
Proof. intros q. induction n as [|n IH]; [reflexivity|]. exact IH. Qed.
Lemma alive_none : forall n, zlen (filter is_alive (repeat None n)) = 0.
Proof. induction n as [|n IH]; [reflexivity|]. exact IH. Qed.
Lemma wrap_of : forall n, Z.of_nat n = 1431655765 -> exists l w, Forall mmap_works l /\ run (start 3) l = Some w /\ (forall q, holders w q = 0) /\ alive w = 0 /\ h_ptr (snd (page_new (w_pool w) 4 true)) = 0.
Proof.
  intros n En. exists (thrice n), {| w_pool := P3 (1 + Z.of_nat n) (1 + Z.of_nat n) 0 (1 + Z.of_nat n); w_vars := repeat None (S n + S n + S n) |}. split; [|split; [apply run_pages; lia|]].
  - unfold thrice. apply Forall_app. split; [apply rounds_works|]. apply Forall_app. split; apply rounds_works.
  - split; [intros q; apply cnt_none|]. split; [apply alive_none|]. cbn [w_pool]. apply no_room. lia.
Qed.
Lemma nat_ex : forall z, 0 <= z -> exists n, Z.of_nat n = z.
Proof. intros z H. exists (Z.to_nat z). apply Z2Nat.id. exact H. Qed.
Lemma wrap_witness : exists l w, Forall mmap_works l /\ run (start 3) l = Some w /\ (forall q, holders w q = 0) /\ alive w = 0 /\ h_ptr (snd (page_new (w_pool w) 4 true)) = 0.
Proof. destruct (nat_ex 1431655765 ltac:(lia)) as (n & En). exact (wrap_of n En). Qed.
(** After 2^32 - 1 locks of one page the next one makes the number of locks 0 again. *)
Lemma zero_locks : forall x, x = 2 ^ 32 - 1 -> log_totals (fst (page_new (P1 0 x) 1 true)) = None.
Proof. intros x ->. vm_compute. reflexivity. Qed.
Lemma log_of : forall n, Z.of_nat n = 2 ^ 32 - 2 -> exists l w, Forall mmap_works l /\ run (start 3) l = Some w /\ log_totals (fst (page_new (w_pool w) 1 true)) = None.
Proof.
  intros n En. exists (rounds 1 0 (S n)), {| w_pool := P1 0 (1 + Z.of_nat n); w_vars := repeat None (1 + n) |}. split; [apply rounds_works|]. split.
  - rewrite rounds_S, run_app. change (start 3) with {| w_pool := new_pool 3; w_vars := repeat None 0 |}. rewrite (one_round 1 _ _ _ 0 first1 (un1 1)). apply many1; lia.
  - cbn [w_pool]. apply zero_locks. lia.
Qed.
Lemma log_witness : exists l w, Forall mmap_works l /\ run (start 3) l = Some w /\ log_totals (fst (page_new (w_pool w) 1 true)) = None.
Proof. destruct (nat_ex (2 ^ 32 - 2) ltac:(lia)) as (n & En). exact (log_of n En). Qed.
