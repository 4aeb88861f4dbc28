(** C25-C27: the path, the contents and the rotation of multifile streams. *)

From Coq Require Import String.
From Coq Require Import ZArith List Bool Lia Permutation.
From Verif Require Import Base ListMem Timestamp_Model Timestamp_Spec Timestamp_Proofs Table_Model Multifile_Model Multifile_Spec Multifile_Proofs.
Import ListNotations.
Open Scope Z_scope.

(** ** C25 *)
(** Directories that would not leave room are rejected before anything is written. *)
Theorem C25_rejects : forall k m max_path raw path existing now now2, max_path < zlen path + 1 + 15 ->
  create k m max_path raw path existing now now2 = Rejected.
Proof.
  intros k m mp raw path ex now now2 H. unfold create, set_directory, filename_length. destruct (Z.ltb_spec mp (zlen path + 1 + 15)); [reflexivity|lia].
Qed.
(** Full statement: for every directory accepted by the constructor, after every history, path() is
    directory + '/' + YYYYMMDD_HHMMSS of the time of the last opening, null-terminated inside the
    array of MaxPath + 1 bytes; and so was every file opened before.
    Proved for every directory that is not empty and either shorter than the limit or ends with '/'.
    Missing: false for the two excluded cases, see below.  The array is never exceeded in any
    accepted non-empty case. *)
Theorem C25_path_partial : forall k m max_path raw path existing now now2 l,
  clock now -> clocks_ok l -> max_path < 2 ^ 64 -> zlen raw = max_path + 1 -> Forall (fun c => c <> 0) path ->
  path <> [] -> zlen path + 16 < max_path \/ zlen path + 16 = max_path /\ last path 0 = 47 ->
  exists s0 s, create k m max_path raw path existing now now2 = Done s0 /\ steps s0 l = Some s /\
    Forall (fun e => fst e = with_separator path ++ stamp (reset (snd e))) (opened s) /\
    (exists pre t, opened s = pre ++ [(cur s, t)]) /\ c_str (pbuf s) = Some (cur s) /\ zlen (pbuf s) = max_path + 1.
Proof.
  intros k m mp raw path ex now now2 l Hc Cl Hm Hr Hz Hp Hl.
  destruct (path_history k m mp raw path ex now now2 l Hc Hm Hr Hp Hz ltac:(lia) Cl) as (s0 & s & Ec & Es & _ & _ & _ & C & L & X & F).
  exists s0, s. split; [exact Ec|]. split; [exact Es|]. split; [|auto].
  eapply Forall_impl; [|exact F]. intros [p t] E. cbn [fst snd] in *. rewrite E. unfold shown. f_equal. apply take_all.
  change (zlen (stamp (reset t))) with 15. assert (W : zlen (with_separator path) + 16 <= mp).
  { unfold with_separator. destruct (Z.eqb_spec (last path 0) 47); [lia|]. rewrite zlen_app. change (zlen [47]) with 1. lia. }
  lia.
Qed.
Definition bs (s : string) : list Z := bytes_of_string s.
Example C25_ex : match create (By_size 10) Truncate 24 (repeat 7 25) (bs "logs") [] (1705312345 * 1000000000) 0 with
  | Done s => c_str (pbuf s) = Some (bs "logs/20240115_095225") /\ clock (1705312345 * 1000000000)
  | _ => False end.
Proof. vm_compute. repeat split; congruence. Qed.
(** The longest accepted directory without a trailing '/' loses the last digit of the seconds:
    all files opened within ten seconds have the same path. *)
Theorem C25_boundary_refuted : exists max_path path now,
  clock now /\ zlen path + 1 + 15 = max_path /\ Forall (fun c => c <> 0) path /\ path <> [] /\
  match create Plain Truncate max_path (repeat 0 (Z.to_nat (max_path + 1))) path [] now 0 with
  | Done s => c_str (pbuf s) = Some (bs "abcd/20240115_09522")
  | _ => False end.
Proof. exists 20, (bs "abcd"), (1705312345 * 1000000000). vm_compute. repeat split; try congruence; repeat constructor; discriminate. Qed.
(** The empty directory is accepted and the byte before the array is read. *)
Theorem C25_empty_refuted : forall k m max_path raw existing now now2, 16 <= max_path ->
  create k m max_path raw [] existing now now2 = Undefined.
Proof.
  intros k m mp raw ex now now2 H. unfold create, set_directory, filename_length. change (zlen (@nil Z)) with 0.
  destruct (Z.ltb_spec mp (0 + 1 + 15)); [lia|]. destruct (write_at raw 0 []) as [b|]; reflexivity.
Qed.
(** Two readings of the clock give the same file name exactly if date and time of day (in seconds)
    are shown equal; on days that are shown correctly (C16) exactly within the same second. *)
Theorem C25_names : forall n m, good_day n -> good_day m ->
  (stamp (reset n) = stamp (reset m) <-> n / 1000000000 = m / 1000000000).
Proof. exact stamp_seconds. Qed.
Example C25_names_ex : good_day (19737 * day_ns + 5).
Proof.
  unfold good_day, day_ns. replace ((19737 * (86400 * 1000000000) + 5) / (86400 * 1000000000)) with 19737 by reflexivity.
  split; [lia|]. split; [|lia]. change 19737 with (Z.of_nat (Z.to_nat 19737)) at 1. rewrite gregorian_closed by lia. vm_compute. reflexivity.
Qed.

(** ** C26 *)
(** Full statement: the files together contain exactly the bytes written and flushed.
    Mode out: if the files opened have different paths that did not exist before, the new files are
    those opened, in this order, and their concatenation with what is still buffered is exactly
    what was written.
    Missing: false when a path repeats, see below. *)
Theorem C26_truncate_partial : forall k max_path raw path existing now now2 l s0 s,
  clock now -> clocks_ok l -> max_path < 2 ^ 64 -> zlen raw = max_path + 1 -> Forall (fun c => c <> 0) path -> path <> [] ->
  create k Truncate max_path raw path existing now now2 = Done s0 -> steps s0 l = Some s ->
  NoDup (map fst existing ++ map fst (opened s)) ->
  exists new, fs s = existing ++ new /\ map fst new = map fst (opened s) /\ concat (map snd new) ++ pend s = written l.
Proof.
  intros k mp raw path ex now now2 l s0 s Hc Cl Hm Hr Hz Hp Ec Es D.
  destruct (Z.ltb_spec mp (zlen path + 1 + 15)) as [B|B]; [rewrite C25_rejects in Ec by exact B; discriminate|].
  destruct (create_spec k Truncate mp raw path ex now now2 Hc Hm Hr Hp Hz ltac:(lia)) as (s0' & p & Ec' & O & _ & M & _ & _ & Cu & Fs & Pe & _ & Op & _).
  rewrite Ec in Ec'. injection Ec' as <-.
  assert (I0 : inv_trunc ex [] s0).
  { assert (D0 : distinct ex s0).
    { clear - D Es. fold (distinct ex s) in D. revert s0 Es. induction l as [|c l IH]; intros s0 Es; cbn in Es; [injection Es as <-; exact D|].
      destruct (step s0 c) as [s1|] eqn:E1; [|discriminate]. destruct (step_opened c s0 s1 E1) as (x & Ex). exact (distinct_before ex s0 s1 x Ex (IH s1 Es)). }
    unfold distinct in D0. rewrite Op in D0. cbn in D0. apply NoDup_remove_2 in D0. rewrite app_nil_r in D0.
    exists [(p, [])]. rewrite Fs, open_fresh by exact D0. split; [reflexivity|]. rewrite Op, Pe, Cu. cbn. split; [reflexivity|]. split; [reflexivity|]. exists [], []. reflexivity. }
  destruct (trunc_steps l ex [] s0 s O Cl M D I0 Es) as (new & F & N & C & _). exists new. auto.
Qed.
(** Mode out|app: whatever the clock shows, no byte is lost: the files contain what was there before
    and what was written, apart from the order. *)
Theorem C26_append : forall k max_path raw path existing now now2 l s0 s,
  clock now -> clocks_ok l -> max_path < 2 ^ 64 -> zlen raw = max_path + 1 -> Forall (fun c => c <> 0) path -> path <> [] ->
  create k Append max_path raw path existing now now2 = Done s0 -> steps s0 l = Some s ->
  Permutation (concat (map snd (fs s)) ++ pend s) (concat (map snd existing) ++ written l).
Proof.
  intros k mp raw path ex now now2 l s0 s Hc Cl Hm Hr Hz Hp Ec Es.
  destruct (Z.ltb_spec mp (zlen path + 1 + 15)) as [B|B]; [rewrite C25_rejects in Ec by exact B; discriminate|].
  destruct (create_spec k Append mp raw path ex now now2 Hc Hm Hr Hp Hz ltac:(lia)) as (s0' & p & Ec' & O & _ & M & _ & _ & Cu & Fs & Pe & _).
  rewrite Ec in Ec'. injection Ec' as <-.
  assert (I0 : inv_app ex [] s0).
  { unfold inv_app. rewrite Fs, open_append_bytes, Pe, Cu. split; [apply Permutation_refl|apply open_in]. }
  destruct (app_steps l ex [] s0 s O Cl M I0 Es) as (P & _). exact P.
Qed.
(** After a flush nothing is left in the buffer (so the two theorems speak about the files alone);
    no history of calls fails. *)
Theorem C26_flush : forall k m max_path raw path existing now now2 l t t1 t2,
  clock now -> clocks_ok (l ++ [Sync t t1 t2]) -> max_path < 2 ^ 64 -> zlen raw = max_path + 1 -> Forall (fun c => c <> 0) path -> path <> [] ->
  zlen path + 16 <= max_path ->
  exists s0 s, create k m max_path raw path existing now now2 = Done s0 /\ steps s0 (l ++ [Sync t t1 t2]) = Some s /\ pend s = [].
Proof.
  intros k m mp raw path ex now now2 l t t1 t2 Hc Cl Hm Hr Hz Hp Hl.
  destruct (create_spec k m mp raw path ex now now2 Hc Hm Hr Hp Hz Hl) as (s0 & p & Ec & O & _).
  unfold clocks_ok in Cl. rewrite flat_map_app in Cl. apply Forall_app in Cl. destruct Cl as (Cl & Ct). cbn in Ct.
  destruct (steps_total l s0 O Cl) as (s1 & E1 & O1 & _). inversion Ct as [|? ? C1 C2]; subst. inversion C2 as [|? ? C3 C4]; subst.
  destruct (step_okp (Sync t t1 t2) s1 O1 Ct) as (s & E2 & _). exists s0, s. split; [exact Ec|]. split.
  - rewrite steps_app, E1. cbn [steps]. rewrite E2. reflexivity.
  - exact (sync_pend s1 t t1 t2 s O1 C3 E2).
Qed.
Definition sec (n : Z) : Z := (1705312345 + n) * 1000000000.
Example C26_ex : match create (By_size 6) Truncate 30 (repeat 7 31) (bs "logs/") [(bs "other", bs "x")] (sec 0) (sec 0) with
  | Done s0 => match steps s0 [Puts (bs "hello") 3; Putc 33 0; Sync 0 (sec 2) 0; Puts (bs "world") 0; Sync 0 (sec 3) 0] with
               | Some s => fs s = [(bs "other", bs "x"); (bs "logs/20240115_095225", bs "hello!"); (bs "logs/20240115_095227", bs "world"); (bs "logs/20240115_095228", [])]
                           /\ NoDup ([bs "other"] ++ map fst (opened s)) /\ pend s = []
               | None => False end
  | _ => False end.
Proof. vm_compute. split; [reflexivity|]. split; [|reflexivity]. repeat (apply NoDup_cons; [cbn; intuition discriminate|]). apply NoDup_nil. Qed.
(** Two rotations within a second: the bytes of the first file are gone. *)
Theorem C26_refuted : exists s0 l s, create (By_size 4) Truncate 30 (repeat 7 31) (bs "logs") [] (sec 0) (sec 0) = Done s0 /\ clocks_ok l /\
  steps s0 l = Some s /\ pend s = [] /\ written l = bs "one two " /\ concat (map snd (fs s)) = bs "".
Proof.
  eexists _, [Puts (bs "one ") 0; Sync (sec 0) (sec 0 + 1000) (sec 0); Puts (bs "two ") 0; Sync (sec 0) (sec 0 + 2000) (sec 0)], _.
  split; [vm_compute; reflexivity|]. split; [unfold clocks_ok; cbn [flat_map clocks_of app]; repeat (apply Forall_cons; [unfold clock, sec, day_ns; lia|]); apply Forall_nil|].
  split; [vm_compute; reflexivity|]. repeat split.
Qed.
(** Rotating exactly a day after a file was opened on Feb 29, 2024 overwrites that file, as both days
    are shown as Mar 1 (C16). *)
Theorem C26_leap_day_refuted : exists s0 l s, create (By_duration (day_ns)) Truncate 30 (repeat 7 31) (bs "logs") [] (19782 * day_ns) (19782 * day_ns) = Done s0 /\ clocks_ok l /\
  steps s0 l = Some s /\ pend s = [] /\ written l = bs "important" /\ concat (map snd (fs s)) = bs "".
Proof.
  eexists _, [Puts (bs "important") 0; Sync (19783 * day_ns) (19783 * day_ns) (19783 * day_ns)], _.
  split; [vm_compute; reflexivity|]. split; [unfold clocks_ok; cbn [flat_map clocks_of app]; repeat (apply Forall_cons; [unfold clock, sec, day_ns; lia|]); apply Forall_nil|].
  split; [vm_compute; reflexivity|]. repeat split.
Qed.

(** ** C27 *)
(** Full statement: after every flush the current file is below the limit; rotation only when the limit is reached.
    Size limit, mode out, blocks only (no single characters), less than 2^62 bytes: after every
    flush the current file is shorter than the limit.
    Missing: false with single characters; a file is also left although it is shorter than the
    limit (not shorter than half of it), see below. *)
Theorem C27_size_partial : forall size max_path raw path existing now now2 l t t1 t2 s0 s,
  clock now -> clocks_ok (l ++ [Sync t t1 t2]) -> max_path < 2 ^ 64 -> zlen raw = max_path + 1 -> Forall (fun c => c <> 0) path -> path <> [] ->
  0 < size -> no_putc l -> zlen (written l) < 2 ^ 62 ->
  create (By_size size) Truncate max_path raw path existing now now2 = Done s0 -> steps s0 (l ++ [Sync t t1 t2]) = Some s ->
  exists c, contents (cur s) (fs s) = Some c /\ pend s = [] /\ zlen c < size.
Proof.
  intros size mp raw path ex now now2 l t t1 t2 s0 s Hc Cl Hm Hr Hz Hp Hs Np Hw Ec Es.
  destruct (Z.ltb_spec mp (zlen path + 1 + 15)) as [B|B]; [rewrite C25_rejects in Ec by exact B; discriminate|].
  destruct (create_spec (By_size size) Truncate mp raw path ex now now2 Hc Hm Hr Hp Hz ltac:(lia)) as (s0' & p & Ec' & O & K & M & _ & _ & Cu & Fs & Pe & Cs & _).
  rewrite Ec in Ec'. injection Ec' as <-.
  unfold clocks_ok in Cl. rewrite flat_map_app in Cl. apply Forall_app in Cl. destruct Cl as (Cl & Ct). cbn in Ct.
  rewrite steps_app in Es. destruct (steps s0 l) as [s1|] eqn:E1; [|discriminate]. cbn [steps] in Es. destruct (step s1 (Sync t t1 t2)) as [s'|] eqn:E2; [|discriminate].
  injection Es as ->. destruct (steps_total l s0 O Cl) as (s1' & E1' & O1 & K1 & M1). rewrite E1 in E1'. injection E1' as <-.
  assert (I0 : size_inv s0 0 true).
  { exists []. rewrite Cu, Fs, Pe, Cs, zlen_nil. split; [apply contents_open|]. cbn. lia. }
  assert (I1 := size_steps l s0 s1 0 true O Cl M (ex_intro _ size K) ltac:(lia) (fun _ => Np) I0 E1).
  assert (I2 := size_step (Sync t t1 t2) s1 s (0 + zlen (written l)) true O1 Ct ltac:(congruence) (ex_intro _ size (eq_trans K1 K)) ltac:(cbn [bytes_of]; rewrite zlen_nil; lia) (fun _ => I) I1 E2).
  inversion Ct as [|? ? C1 C2]; subst. inversion C2 as [|? ? C3 C4]; subst.
  destruct I2 as (c & C & _ & _ & X). specialize (X eq_refl). assert (P := sync_pend s1 t t1 t2 s O1 C3 E2). exists c. split; [exact C|]. split; [exact P|].
  rewrite P, zlen_nil in X. cbn [step] in E2. unfold sync in E2. rewrite K1, K in E2. cbv zeta in E2.
  destruct (Z.leb_spec size (csize (flush (set_csize s1 (wrap_u64 (csize s1 + zlen (pend s1))))))) as [L|L]; [|injection E2 as <-; lia].
  assert (Of : okp (flush (set_csize s1 (wrap_u64 (csize s1 + zlen (pend s1)))))) by (apply (okp_same s1); [unfold same_path; cbn; auto|exact O1]).
  destruct (reopen_spec _ t1 t2 Of C3) as (q & b & _ & _ & _ & _ & E3). rewrite E3 in E2. injection E2 as <-.
  cbn [cur fs mode_ flush pass_on set_csize] in C. rewrite M1, M, contents_open in C. injection C as <-. rewrite zlen_nil. exact Hs.
Qed.
(** With any writes: a flush rotates only when the current file is at least half the limit long, and
    it does rotate when the bytes counted reach the limit. *)
Theorem C27_rotation_partial : forall size max_path raw path existing now now2 l t t1 t2 s0 s1 s,
  clock now -> clocks_ok (l ++ [Sync t t1 t2]) -> max_path < 2 ^ 64 -> zlen raw = max_path + 1 -> Forall (fun c => c <> 0) path -> path <> [] ->
  zlen (written l) < 2 ^ 62 ->
  create (By_size size) Truncate max_path raw path existing now now2 = Done s0 -> steps s0 l = Some s1 -> step s1 (Sync t t1 t2) = Some s ->
  opened s = opened s1 \/
  (exists p c, opened s = opened s1 ++ [(p, t1)] /\ contents (cur s1) (fs s1) = Some c /\ size <= 2 * (zlen c + zlen (pend s1))).
Proof.
  intros size mp raw path ex now now2 l t t1 t2 s0 s1 s Hc Cl Hm Hr Hz Hp Hw Ec E1 E2.
  destruct (Z.ltb_spec mp (zlen path + 1 + 15)) as [B|B]; [rewrite C25_rejects in Ec by exact B; discriminate|].
  destruct (create_spec (By_size size) Truncate mp raw path ex now now2 Hc Hm Hr Hp Hz ltac:(lia)) as (s0' & p & Ec' & O & K & M & _ & _ & Cu & Fs & Pe & Cs & _).
  rewrite Ec in Ec'. injection Ec' as <-.
  unfold clocks_ok in Cl. rewrite flat_map_app in Cl. apply Forall_app in Cl. destruct Cl as (Cl & Ct). cbn in Ct.
  destruct (steps_total l s0 O Cl) as (s1' & E1' & O1 & K1 & M1). rewrite E1 in E1'. injection E1' as <-.
  assert (I0 : size_inv s0 0 false).
  { exists []. rewrite Cu, Fs, Pe, Cs, zlen_nil. split; [apply contents_open|]. cbn. lia. }
  destruct (size_steps l s0 s1 0 false O Cl M (ex_intro _ size K) ltac:(lia) ltac:(discriminate) I0 E1) as (c & C & Bc & W & _).
  cbn [step] in E2. unfold sync in E2. rewrite K1, K in E2. cbv zeta in E2. pose proof (zlen_nonneg _ c). pose proof (zlen_nonneg _ (pend s1)).
  cbn [csize flush pass_on set_csize] in E2. unfold wrap_u64 in E2. rewrite Z.mod_small in E2 by lia.
  destruct (Z.leb_spec size (csize s1 + zlen (pend s1))) as [L|L]; [right|left; injection E2 as <-; reflexivity].
  destruct (reopen_opened _ _ _ _ E2) as (q & Eq). exists q, c. split; [exact Eq|]. split; [exact C|]. lia.
Qed.
Example C27_size_ex : match create (By_size 6) Truncate 30 (repeat 7 31) (bs "logs/") [] (sec 0) (sec 0) with
  | Done s0 => match steps s0 [Puts (bs "he") 2; Sync 0 (sec 1) 0; Puts (bs "llo world") 1; Sync 0 (sec 2) 0; Puts (bs "!") 0; Sync 0 (sec 3) 0] with
               | Some s => map snd (fs s) = [bs "hello world"; bs "!"] /\ length (opened s) = 2%nat
               | None => False end
  | _ => False end.
Proof. vm_compute. split; reflexivity. Qed.
(** Five bytes written as a block count twice: with a limit of ten the file is left after five. *)
Theorem C27_early_refuted : exists s0 l s, create (By_size 10) Truncate 30 (repeat 7 31) (bs "logs") [] (sec 0) (sec 0) = Done s0 /\
  steps s0 l = Some s /\ map snd (fs s) = [bs "hello"; []] /\ l = [Puts (bs "hello") 0; Sync (sec 1) (sec 1) (sec 1)].
Proof. eexists _, _, _. split; [vm_compute; reflexivity|]. split; [|split; [|reflexivity]]; vm_compute; reflexivity. Qed.
(** Characters written one by one that leave the filebuf before the flush are not counted: the
    file stays open although it is longer than the limit. *)
Theorem C27_late_refuted : exists s0 l s, create (By_size 3) Truncate 30 (repeat 7 31) (bs "logs") [] (sec 0) (sec 0) = Done s0 /\
  steps s0 l = Some s /\ map snd (fs s) = [bs "abcde"] /\ length (opened s) = 1%nat /\
  l = [Putc 97 0; Putc 98 0; Putc 99 0; Putc 100 4; Putc 101 0; Sync (sec 1) (sec 1) (sec 1)].
Proof. eexists _, _, _. split; [vm_compute; reflexivity|]. split; [|split; [|split; [|reflexivity]]]; vm_compute; reflexivity. Qed.
(** Duration limit: with one clock reading per call, after every flush at time [t] the current file
    was opened less than the duration before [t]; it was replaced by this flush exactly if it had
    reached the duration.
    Missing: the code reads the clock up to three times, the age is measured from a reading shortly
    after the file was opened, see below. *)
Theorem C27_duration_partial : forall d m max_path raw path existing now l t s0 s1 s,
  clock now -> clocks_ok (l ++ [Sync t t t]) -> Forall one_reading l -> max_path < 2 ^ 64 -> zlen raw = max_path + 1 -> Forall (fun c => c <> 0) path -> path <> [] ->
  0 < d -> create (By_duration d) m max_path raw path existing now now = Done s0 -> steps s0 l = Some s1 -> step s1 (Sync t t t) = Some s ->
  exists pre p t0, opened s1 = pre ++ [(p, t0)] /\
    (t - t0 < d /\ opened s = opened s1 \/ d <= t - t0 /\ exists p', opened s = opened s1 ++ [(p', t)]).
Proof.
  intros d m mp raw path ex now l t s0 s1 s Hc Cl H1 Hm Hr Hz Hp Hd Ec E1 E2.
  destruct (Z.ltb_spec mp (zlen path + 1 + 15)) as [B|B]; [rewrite C25_rejects in Ec by exact B; discriminate|].
  destruct (create_spec (By_duration d) m mp raw path ex now now Hc Hm Hr Hp Hz ltac:(lia)) as (s0' & p & Ec' & O & K & M & _ & _ & Cu & Fs & Pe & Cs & Op & Ts & _).
  rewrite Ec in Ec'. injection Ec' as <-.
  unfold clocks_ok in Cl. rewrite flat_map_app in Cl. apply Forall_app in Cl. destruct Cl as (Cl & Ct). cbn in Ct.
  destruct (steps_total l s0 O Cl) as (s1' & E1' & O1 & K1 & M1). rewrite E1 in E1'. injection E1' as <-.
  assert (I0 : dur_inv s0) by (exists [], p; rewrite (Ts d eq_refl); exact Op).
  destruct (dur_steps l d s0 s1 O Cl H1 K I0 E1) as (pre & q & Eq). exists pre, q, (ts s1). split; [exact Eq|].
  cbn [step] in E2. unfold sync in E2. rewrite K1, K in E2. cbv zeta in E2. change (ts (flush s1)) with (ts s1) in E2.
  destruct (Z.leb_spec d (t - ts s1)) as [L|L]; [right|left; injection E2 as <-; auto].
  destruct (reopen_opened _ _ _ _ E2) as (p' & Ep). split; [exact L|]. exists p'. exact Ep.
Qed.
Example C27_duration_ex : match create (By_duration (2 * 1000000000)) Truncate 30 (repeat 7 31) (bs "logs/") [] (sec 0) (sec 0) with
  | Done s0 => match steps s0 [Puts (bs "he") 2; Sync (sec 1) (sec 1) (sec 1); Puts (bs "llo") 1; Sync (sec 2) (sec 2) (sec 2); Putc 33 0; Sync (sec 3) (sec 3) (sec 3)] with
               | Some s => map snd (fs s) = [bs "hello"; bs "!"] /\ map snd (opened s) = [sec 0; sec 2]
               | None => False end
  | _ => False end.
Proof. vm_compute. split; reflexivity. Qed.
(** With separate readings the file can be kept a little longer than the duration. *)
Theorem C27_duration_refuted : exists s0 s, create (By_duration 5000) Truncate 30 (repeat 7 31) (bs "logs") [] (sec 0) (sec 0 + 10) = Done s0 /\
  step s0 (Sync (sec 0 + 5005) (sec 0 + 5006) (sec 0 + 5007)) = Some s /\ map snd (opened s) = [sec 0] /\ sec 0 + 5005 - sec 0 >= 5000.
Proof. eexists _, _. split; [vm_compute; reflexivity|]. split; [vm_compute; reflexivity|]. split; [vm_compute; reflexivity|]. unfold sec. lia. Qed.

Print Assumptions C25_rejects.
Print Assumptions C25_path_partial.
Print Assumptions C25_boundary_refuted.
Print Assumptions C25_empty_refuted.
Print Assumptions C25_names.
Print Assumptions C26_truncate_partial.
Print Assumptions C26_append.
Print Assumptions C26_flush.
Print Assumptions C26_refuted.
Print Assumptions C26_leap_day_refuted.
Print Assumptions C27_size_partial.
Print Assumptions C27_rotation_partial.
Print Assumptions C27_early_refuted.
Print Assumptions C27_late_refuted.
Print Assumptions C27_duration_partial.
Print Assumptions C27_duration_refuted.
