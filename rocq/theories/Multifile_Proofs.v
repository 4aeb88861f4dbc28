(** Proofs for C25-C27. *)

From Coq Require Import ZArith List Bool Lia ZifyBool Permutation.
From Verif Require Import Base ListMem Timestamp_Model Timestamp_Spec Timestamp_Proofs Table_Model Multifile_Model Multifile_Spec.
Import ListNotations.
Open Scope Z_scope.
Ltac Zify.zify_post_hook ::= Z.to_euclidean_division_equations.

(** ** The file name *)
Lemma date_ranges : forall n, clock n -> 1970 <= year (reset n) <= 2262 /\ 1 <= month (reset n) <= 12 /\ 1 <= day (reset n) <= 31.
Proof.
  intros n Hn. unfold clock in Hn. destruct (reset_date_of_ns n Hn) as (E & B). set (d := n / day_ns) in *. clearbody d.
  assert (Y1 := reset_date_mono 0 d ltac:(lia) ltac:(lia)). assert (Y2 := reset_date_mono d 106751 ltac:(lia) ltac:(lia)).
  change (fst (reset_date 0)) with (1970, 1, 1) in Y1. change (fst (reset_date 106751)) with (2262, 4, 10) in Y2.
  rewrite <- E in Y1, Y2. unfold date_le in Y1, Y2. split; [lia|].
  assert (K : let '(_, m, x) := fst (reset_date d) in 1 <= m <= 12 /\ 1 <= x <= 31).
  { destruct (Z_lt_ge_dec d 59).
    - assert (T : check (fun n _ => let '(_, m, x) := fst (reset_date n) in (1 <=? m) && (m <=? 12) && (1 <=? x) && (x <=? 31)) 59 0 (1970, 1, 1) = true) by (vm_compute; reflexivity).
      assert (C := check_Z (fun n => let '(_, m, x) := fst (reset_date n) in (1 <=? m) && (m <=? 12) && (1 <=? x) && (x <=? 31)) 59 T d ltac:(lia)). cbn beta in C.
      destruct (fst (reset_date d)) as [[y m] x]. lia.
    - rewrite reset_date_cyc by lia. set (s := adj (d - 59)). assert (C := check_Z cyc_ok 1461 cyc_ok_table (s mod 1461) ltac:(apply Z.mod_pos_bound; lia)).
      unfold cyc_ok in C. destruct (cyc (s mod 1461)) as [[[y m] x] b]. cbn [fst]. lia. }
  rewrite <- E in K. exact K.
Qed.
Lemma fmt_two : forall x, 0 <= x < 100 -> fmt_u 2 x = two x.
Proof.
  intros x H. unfold fmt_u, two, digit, wrap_u32. rewrite Z.mod_small by lia. change 10%nat with (S (S 8)). cbn [digits].
  destruct (Z.ltb_spec x 10).
  - cbn [length Nat.sub repeat app]. repeat f_equal; lia.
  - replace (x / 10 <? 10) with true by lia. cbn [length Nat.sub repeat app]. reflexivity.
Qed.
Lemma fmt_four : forall x, 1000 <= x < 10000 -> fmt_u 4 x = four x.
Proof.
  intros x H. unfold fmt_u, four, digit, wrap_u32. rewrite Z.mod_small by lia. change 10%nat with (S (S (S (S 6)))). cbn [digits].
  replace (x <? 10) with false by lia. replace (x / 10 <? 10) with false by lia.
  rewrite !Z.div_div by lia. change (10 * 10) with 100. replace (x / 100 <? 10) with false by lia.
  rewrite ?Z.div_div by lia. change (100 * 10) with 1000. change (10 * (10 * 10)) with 1000. replace (x / 1000 <? 10) with true by lia. cbn [length Nat.sub repeat app]. reflexivity.
Qed.
Lemma filename_stamp : forall n, clock n -> filename n = stamp (reset n).
Proof.
  intros n H. destruct (date_ranges n H) as (Y & M & D). destruct (timestamp_time n H) as (Hh & Hm & Hs & _).
  unfold filename, stamp. cbv zeta. rewrite fmt_four by lia. rewrite !fmt_two by lia. reflexivity.
Qed.
Lemma filename_len : forall n, clock n -> zlen (filename n) = 15.
Proof. intros n H. rewrite filename_stamp by exact H. reflexivity. Qed.
Lemma two_nonzero : forall x, 0 <= x < 100 -> Forall (fun c => c <> 0) (two x).
Proof. intros x H. unfold two, digit. repeat constructor; lia. Qed.
Lemma four_nonzero : forall x, 0 <= x < 10000 -> Forall (fun c => c <> 0) (four x).
Proof. intros x H. unfold four, digit. repeat constructor; lia. Qed.
Lemma filename_nonzero : forall n, clock n -> Forall (fun c => c <> 0) (filename n).
Proof.
  intros n H. rewrite filename_stamp by exact H. destruct (date_ranges n H) as (Y & M & D). destruct (timestamp_time n H) as (Hh & Hm & Hs & _).
  unfold stamp. rewrite !Forall_app. repeat split; try (apply two_nonzero; lia); try (apply four_nonzero; lia). constructor; [lia|constructor].
Qed.
Lemma two_inj : forall x y, 0 <= x < 100 -> 0 <= y < 100 -> two x = two y -> x = y.
Proof. intros x y Hx Hy E. unfold two in E. assert (A : digit (x / 10) = digit (y / 10) /\ digit (x mod 10) = digit (y mod 10)) by (split; congruence). unfold digit in A. clear E. lia. Qed.
Lemma four_inj : forall x y, 0 <= x < 10000 -> 0 <= y < 10000 -> four x = four y -> x = y.
Proof.
  intros x y Hx Hy E. unfold four in E.
  assert (A : digit (x / 1000) = digit (y / 1000) /\ digit (x / 100 mod 10) = digit (y / 100 mod 10) /\ digit (x / 10 mod 10) = digit (y / 10 mod 10) /\ digit (x mod 10) = digit (y mod 10)) by (repeat split; congruence).
  unfold digit in A.
  clear E. lia.
Qed.

(** ** C25 *)
Lemma c_str_app : forall a b, Forall (fun c => c <> 0) a -> c_str (a ++ 0 :: b) = Some a.
Proof.
  induction a as [|x a IH]; intros b H; cbn; [reflexivity|]. inversion H; subst. replace (x =? 0) with false by lia. rewrite IH by assumption. reflexivity.
Qed.
Lemma last_read : forall a c b, read_at ((a ++ [c]) ++ b) (zlen (a ++ [c]) - 1) 1 = Some [c].
Proof.
  intros a c b. rewrite zlen_app, zlen_cons, zlen_nil. replace (zlen a + (0 + 1) - 1) with (zlen a) by lia.
  rewrite <- app_assoc. replace 1 with (zlen [c]) at 1 by reflexivity. apply read_at_app.
Qed.
Lemma dir_shape : forall max_path raw path, zlen raw = max_path + 1 -> path <> [] -> zlen path + 16 <= max_path ->
  exists rest, set_directory max_path raw path = Done (with_separator path ++ rest, zlen (with_separator path)) /\
    zlen (with_separator path ++ rest) = max_path + 1 /\ zlen (with_separator path) <= zlen path + 1.
Proof.
  intros max_path raw path Hr Hp Hl. unfold set_directory, filename_length.
  replace (max_path <? zlen path + 1 + 15) with false by lia.
  destruct (split_at _ (zlen path) raw ltac:(pose proof (zlen_nonneg _ path); lia)) as (r1 & r2 & -> & L1).
  assert (W : write_at (r1 ++ r2) 0 path = Some (path ++ r2)).
  { replace 0 with (zlen (@nil Z)) by reflexivity. exact (write_at_app [] r1 r2 path L1). }
  rewrite W. destruct (exists_last Hp) as (a & c & ->). rewrite last_read. unfold with_separator. rewrite last_last. rewrite (zlen_app _ r1 r2) in Hr.
  unfold separator. destruct (c =? 47) eqn:E.
  - exists r2. split; [reflexivity|]. rewrite (zlen_app _ (a ++ [c]) r2). lia.
  - destruct r2 as [|x r2]; [rewrite zlen_nil in Hr; lia|]. set (p := a ++ [c]) in *.
    replace (write_at (p ++ x :: r2) (zlen p) [47]) with (Some (p ++ [47] ++ r2)) by (symmetry; apply (write_at_app p [x] r2 [47]); reflexivity).
    exists r2. rewrite !zlen_app, !zlen_cons, !zlen_nil in *. split; [rewrite <- !app_assoc; reflexivity|]. lia.
Qed.
Lemma take_exact : forall A (l : list A) n, n = zlen l -> take n l = l.
Proof. intros A l n ->. apply take_all. lia. Qed.
Lemma set_filename_ok : forall max_path d rest now, clock now -> zlen (d ++ rest) = max_path + 1 -> max_path < 2 ^ 64 ->
  Forall (fun c => c <> 0) d -> zlen d + 16 <= max_path ->
  exists rest', set_filename max_path (d ++ rest) (zlen d) now = Some (d ++ stamp (reset now) ++ 0 :: rest') /\
    zlen (d ++ stamp (reset now) ++ 0 :: rest') = max_path + 1 /\
    c_str (d ++ stamp (reset now) ++ 0 :: rest') = Some (d ++ stamp (reset now)).
Proof.
  intros max_path d rest now Hc Hr Hm Hd Hl. unfold set_filename, vsn_stored, wrap_u64. pose proof (zlen_nonneg _ d).
  rewrite Z.mod_small by lia. replace (max_path - zlen d =? 0) with false by lia. rewrite filename_len by exact Hc.
  rewrite (take_exact _ (filename now)) by (rewrite filename_len by exact Hc; lia). rewrite (filename_stamp now Hc).
  assert (L : zlen (stamp (reset now)) = 15) by reflexivity. rewrite zlen_app in Hr.
  destruct (split_at _ 16 rest ltac:(lia)) as (r1 & r2 & -> & L1). rewrite zlen_app in Hr.
  exists r2. rewrite (write_at_app d r1 r2) by (rewrite zlen_app, L, L1; reflexivity). split; [rewrite <- app_assoc; reflexivity|].
  split; [rewrite !zlen_app, zlen_cons, L; lia|]. rewrite app_assoc. apply c_str_app. rewrite Forall_app. split; [exact Hd|].
  rewrite <- filename_stamp by exact Hc. apply filename_nonzero. exact Hc.
Qed.

(** ** The files *)
Lemma path_eqb_eq : forall a b, path_eqb a b = true <-> a = b.
Proof. intros a b. unfold path_eqb. destruct (list_eq_dec Z.eq_dec a b); split; congruence. Qed.
Lemma path_eqb_refl : forall a, path_eqb a a = true.
Proof. intro a. apply path_eqb_eq. reflexivity. Qed.
Lemma path_eqb_neq : forall a b, a <> b -> path_eqb a b = false.
Proof. intros a b H. destruct (path_eqb a b) eqn:E; [apply path_eqb_eq in E; congruence|reflexivity]. Qed.
Lemma open_fresh : forall m p fs, ~ In p (map fst fs) -> open_file m p fs = fs ++ [(p, [])].
Proof.
  induction fs as [|[q c] fs IH]; intro H; cbn in *; [reflexivity|]. rewrite path_eqb_neq by (intro; apply H; left; congruence).
  rewrite IH by tauto. reflexivity.
Qed.
Lemma extend_last : forall p l fs c, ~ In p (map fst fs) -> extend p l (fs ++ [(p, c)]) = fs ++ [(p, c ++ l)].
Proof.
  induction fs as [|[q x] fs IH]; intros c H; cbn in *; [rewrite path_eqb_refl; reflexivity|].
  rewrite path_eqb_neq by (intro; apply H; left; congruence). rewrite IH by tauto. reflexivity.
Qed.
Lemma extend_names : forall p l fs, map fst (extend p l fs) = map fst fs.
Proof. induction fs as [|[q x] fs IH]; cbn; [reflexivity|]. destruct (path_eqb p q); cbn; [reflexivity|rewrite IH; reflexivity]. Qed.
Lemma open_in : forall m p fs, In p (map fst (open_file m p fs)).
Proof.
  induction fs as [|[q c] fs IH]; cbn; [auto|]. destruct (path_eqb p q) eqn:E; cbn; [left; apply path_eqb_eq in E; congruence|right; exact IH].
Qed.
Definition all_bytes (fs : files) : list Z := concat (map snd fs).
Lemma extend_bytes : forall p l fs, In p (map fst fs) -> Permutation (all_bytes (extend p l fs)) (all_bytes fs ++ l).
Proof.
  induction fs as [|[q x] fs IH]; intro H; [destruct H|]. cbn. destruct (path_eqb p q) eqn:E; unfold all_bytes in *; cbn.
  - rewrite <- !app_assoc. apply Permutation_app_head, Permutation_app_comm.
  - rewrite <- app_assoc. apply Permutation_app_head. apply IH. destruct H as [H|H]; [|exact H]. cbn in H. subst. rewrite path_eqb_refl in E. discriminate.
Qed.
Lemma open_append_bytes : forall p fs, all_bytes (open_file Append p fs) = all_bytes fs.
Proof.
  induction fs as [|[q x] fs IH]; cbn; [reflexivity|]. destruct (path_eqb p q); unfold all_bytes in *; cbn; [reflexivity|rewrite IH; reflexivity].
Qed.
Lemma contents_extend : forall p l fs c, contents p fs = Some c -> contents p (extend p l fs) = Some (c ++ l).
Proof.
  induction fs as [|[q x] fs IH]; intros c H; cbn in *; [discriminate|]. destruct (path_eqb p q) eqn:E; cbn; rewrite E; [injection H as ->; reflexivity|apply IH; exact H].
Qed.
Lemma contents_open : forall p fs, contents p (open_file Truncate p fs) = Some [].
Proof.
  induction fs as [|[q x] fs IH]; cbn; [rewrite path_eqb_refl; reflexivity|]. destruct (path_eqb p q) eqn:E; cbn; rewrite E; [reflexivity|exact IH].
Qed.

(** ** Reachable states *)
(** The path array stays usable. *)
Definition okp (s : mf) : Prop :=
  exists d rest, pbuf s = d ++ rest /\ plen s = zlen d /\ zlen (pbuf s) = max_path_ s + 1 /\ max_path_ s < 2 ^ 64 /\
    Forall (fun c => c <> 0) d /\ zlen d + 15 <= max_path_ s.
Definition same_path (s s' : mf) : Prop := pbuf s' = pbuf s /\ plen s' = plen s /\ max_path_ s' = max_path_ s /\ kind_ s' = kind_ s /\ mode_ s' = mode_ s.
Lemma okp_same : forall s s', same_path s s' -> okp s -> okp s'.
Proof. intros s s' (E1 & E2 & E3 & _) (d & rest & H). exists d, rest. rewrite E1, E2, E3. exact H. Qed.
Lemma take_nonzero : forall n l, Forall (fun c : Z => c <> 0) l -> Forall (fun c => c <> 0) (take n l).
Proof. intros n l H. unfold take. rewrite Forall_forall in *. intros x I. apply H. rewrite <- (firstn_skipn (Z.to_nat n) l). apply in_or_app. left. exact I. Qed.
Lemma set_filename_any : forall max_path d rest now, clock now -> zlen (d ++ rest) = max_path + 1 -> max_path < 2 ^ 64 ->
  Forall (fun c => c <> 0) d -> zlen d + 15 <= max_path ->
  exists t rest', set_filename max_path (d ++ rest) (zlen d) now = Some (d ++ rest') /\ zlen (d ++ rest') = max_path + 1 /\
    c_str (d ++ rest') = Some (d ++ t) /\ t = take (Z.min 15 (max_path - zlen d - 1)) (stamp (reset now)).
Proof.
  intros max_path d rest now Hc Hr Hm Hd Hl. unfold set_filename, vsn_stored, wrap_u64. pose proof (zlen_nonneg _ d).
  rewrite Z.mod_small by lia. replace (max_path - zlen d =? 0) with false by lia. rewrite filename_len by exact Hc.
  set (t := take (Z.min (max_path - zlen d - 1) 15) (filename now)). rewrite zlen_app in Hr.
  assert (Lt : zlen t = Z.min (max_path - zlen d - 1) 15) by (unfold t; rewrite zlen_take; [reflexivity|rewrite filename_len by exact Hc; lia]).
  destruct (split_at _ (zlen t + 1) rest ltac:(lia)) as (r1 & r2 & -> & L1). rewrite zlen_app in Hr.
  exists t, (t ++ 0 :: r2). rewrite (write_at_app d r1 r2) by (rewrite zlen_app, L1; reflexivity).
  split; [rewrite <- app_assoc; reflexivity|]. split; [rewrite !zlen_app, zlen_cons; lia|]. split.
  - rewrite app_assoc. apply c_str_app. rewrite Forall_app. split; [exact Hd|]. apply take_nonzero, filename_nonzero. exact Hc.
  - unfold t. rewrite filename_stamp by exact Hc. f_equal. lia.
Qed.
Lemma reopen_spec : forall s now now2, okp s -> clock now -> exists p b,
  c_str b = Some p /\ okp {| kind_ := kind_ s; mode_ := mode_ s; max_path_ := max_path_ s; pbuf := b; plen := plen s; fs := fs s; cur := cur s; pend := pend s; csize := csize s; ts := ts s; opened := opened s |} /\
  (exists d, p = d ++ take (Z.min 15 (max_path_ s - zlen d - 1)) (stamp (reset now)) /\ plen s = zlen d /\ take (plen s) (pbuf s) = d) /\
  take (plen s) b = take (plen s) (pbuf s) /\
  reopen s now now2 = Some {| kind_ := kind_ s; mode_ := mode_ s; max_path_ := max_path_ s; pbuf := b; plen := plen s;
    fs := open_file (mode_ s) p (extend (cur s) (pend s) (fs s)); cur := p; pend := [];
    csize := match kind_ s with By_size _ => 0 | _ => csize s end;
    ts := match kind_ s with By_duration _ => now2 | _ => ts s end; opened := opened s ++ [(p, now)] |}.
Proof.
  intros s now now2 (d & rest & Hb & Hn & Hl & Hm & Hd & Hx) Hc. rewrite Hb in Hl.
  destruct (set_filename_any (max_path_ s) d rest now Hc Hl Hm Hd Hx) as (t & rest' & E & L' & C & Ht).
  exists (d ++ t), (d ++ rest'). split; [exact C|]. split; [exists d, rest'; cbn; repeat split; assumption|].
  split; [exists d; rewrite <- Ht; rewrite Hb, Hn; split; [reflexivity|split; [reflexivity|apply take_app_exact]]|].
  split; [rewrite Hb, Hn, !take_app_exact; reflexivity|].
  unfold reopen, base_reopen, flush, pass_on. cbn [max_path_ pbuf plen]. rewrite Hb, Hn, E, C, (take_all _ (pend s)) by lia.
  cbn. destruct (kind_ s); reflexivity.
Qed.
Lemma okp_reopen : forall s now now2 s', okp s -> clock now -> reopen s now now2 = Some s' -> okp s' /\ kind_ s' = kind_ s /\ mode_ s' = mode_ s.
Proof.
  intros s now now2 s' H Hc E. destruct (reopen_spec s now now2 H Hc) as (p & b & _ & O & _ & _ & E2). rewrite E2 in E. injection E as <-. split; [exact O|split; reflexivity].
Qed.
Definition call_ok (c : call) : Prop := Forall clock (clocks_of c).
Lemma flush_same : forall s, same_path s (flush s). Proof. intro s. unfold same_path. cbn. auto. Qed.
Lemma step_okp : forall c s, okp s -> call_ok c -> exists s', step s c = Some s' /\ okp s' /\ kind_ s' = kind_ s /\ mode_ s' = mode_ s.
Proof.
  intros c s H Hc.
  assert (R : forall s now now2, okp s -> clock now -> exists s', reopen s now now2 = Some s' /\ okp s' /\ kind_ s' = kind_ s /\ mode_ s' = mode_ s).
  { intros s0 n n2 H0 C0. destruct (reopen_spec s0 n n2 H0 C0) as (p & b & _ & O & _ & _ & E2). eexists. split; [exact E2|]. split; [exact O|split; reflexivity]. }
  destruct c as [l k|x k|t n n2|n n2]; cbn [step].
  - eexists. split; [reflexivity|]. unfold xsputn. destruct (kind_ s) eqn:K; cbn; (split; [|auto]); apply (okp_same s); auto; unfold same_path; cbn; auto.
  - eexists. split; [reflexivity|]. split; [|cbn; auto]. apply (okp_same s); auto. unfold same_path; cbn; auto.
  - inversion Hc as [|? ? C1 C2]; subst. inversion C2 as [|? ? C3 C4]; subst. unfold sync. destruct (kind_ s) as [|d|size] eqn:K.
    + eexists. split; [reflexivity|]. split; [apply (okp_same s); auto using flush_same|cbn; auto].
    + cbv zeta. destruct (d <=? t - ts (flush s)).
      * destruct (R (flush s) n n2) as (s' & E & O & K' & M'); [apply (okp_same s); auto using flush_same|assumption|]. exists s'. rewrite K'. cbn. auto.
      * exists (flush s). split; [reflexivity|]. split; [apply (okp_same s); auto using flush_same|cbn; auto].
    + cbv zeta. match goal with |- context [size <=? csize ?x] => set (s1 := x) end.
      assert (O1 : okp s1 /\ kind_ s1 = kind_ s /\ mode_ s1 = mode_ s) by (split; [apply (okp_same s); auto; unfold same_path; cbn; auto|cbn; auto]).
      destruct O1 as (O1 & K1 & M1). clearbody s1. destruct (size <=? csize s1).
      * destruct (R s1 n n2 O1 C3) as (s' & E & O & K' & M'). exists s'. rewrite K', M', K1, M1. auto.
      * exists s1. rewrite K1. auto.
  - inversion Hc as [|? ? C1 C2]; subst. exact (R s n n2 H C1).
Qed.

(** ** C26, emptying existing files *)
Definition inv_trunc (old : files) (w : list Z) (s : mf) : Prop :=
  exists new, fs s = old ++ new /\ map fst new = map fst (opened s) /\ concat (map snd new) ++ pend s = w /\
    exists pre c, new = pre ++ [(cur s, c)].
Definition distinct (old : files) (s : mf) : Prop := NoDup (map fst old ++ map fst (opened s)).
Lemma inv_notin : forall old s new pre c, distinct old s -> map fst new = map fst (opened s) -> new = pre ++ [(cur s, c)] -> ~ In (cur s) (map fst (old ++ pre)).
Proof.
  intros old s new pre c D E F. unfold distinct in D. rewrite <- E, F, map_app in D. cbn in D.
  rewrite app_assoc, <- map_app in D. apply NoDup_remove_2 in D. rewrite app_nil_r in D. exact D.
Qed.
Lemma inv_extend : forall old w s l k, distinct old s -> inv_trunc old w s -> inv_trunc old (w ++ l) (write s l k).
Proof.
  intros old w s l k D (new & F & M & C & pre & c & N). assert (Ni := inv_notin old s new pre c D M N).
  unfold inv_trunc, write, pass_on. cbn. set (x := take k (pend s ++ l)). set (y := drop k (pend s ++ l)).
  assert (X : x ++ y = pend s ++ l) by apply take_drop.
  exists (pre ++ [(cur s, c ++ x)]). rewrite F, N, app_assoc, extend_last by exact Ni. split; [rewrite <- app_assoc; reflexivity|].
  rewrite N in M, C. rewrite !map_app in *. cbn in *. split; [exact M|]. split; [|eauto].
  rewrite !concat_app in *. cbn in *. rewrite !app_nil_r in *. rewrite <- C. rewrite <- !app_assoc, X. reflexivity.
Qed.
Lemma inv_csize : forall old w s n, inv_trunc old w s -> inv_trunc old w (set_csize s n).
Proof. intros old w s n H. exact H. Qed.
Lemma inv_flush : forall old w s, distinct old s -> inv_trunc old w s -> inv_trunc old w (flush s) /\ pend (flush s) = [].
Proof.
  intros old w s D H. assert (K := inv_extend old w s [] (zlen (pend s)) D H). unfold write in K. rewrite !app_nil_r in K.
  unfold flush. split; [|cbn; replace (drop (zlen (pend s)) (pend s)) with (drop (zlen (pend s)) (pend s ++ [])) by (rewrite app_nil_r; reflexivity); apply drop_app_exact].
  destruct s; exact K.
Qed.
Lemma inv_reopen : forall old w s now now2 s', okp s -> clock now -> mode_ s = Truncate -> distinct old s' -> inv_trunc old w s -> reopen s now now2 = Some s' ->
  inv_trunc old w s' /\ pend s' = [].
Proof.
  intros old w s now now2 s' O Hc Mo D (new & F & M & C & pre & c & N) E. destruct (reopen_spec s now now2 O Hc) as (p & b & _ & _ & _ & _ & E2).
  rewrite E2 in E. injection E as <-. clear E2. cbn in D. unfold distinct in D. cbn [opened] in D. rewrite map_app in D. cbn in D.
  assert (D1 : distinct old s) by (unfold distinct; rewrite app_assoc in D; exact (NoDup_remove_1 _ _ _ D) || (apply NoDup_remove_1 in D; rewrite app_nil_r in D; exact D)).
  assert (Np : ~ In p (map fst old ++ map fst (opened s))) by (rewrite app_assoc in D; apply NoDup_remove_2 in D; rewrite app_nil_r in D; exact D).
  assert (Ni := inv_notin old s new pre c D1 M N).
  split; [|reflexivity]. unfold inv_trunc. cbn.
  exists (pre ++ [(cur s, c ++ pend s)] ++ [(p, [])]). rewrite F, N, app_assoc, extend_last by exact Ni. rewrite open_fresh.
  - split; [rewrite <- !app_assoc; reflexivity|]. rewrite N in M, C. rewrite !map_app in *. cbn in *. rewrite <- M. split; [rewrite <- app_assoc; reflexivity|].
    split; [|exists (pre ++ [(cur s, c ++ pend s)]), []; rewrite <- app_assoc; reflexivity].
    rewrite !concat_app in *. cbn in *. rewrite !app_nil_r in *. rewrite <- C, <- app_assoc. reflexivity.
  - rewrite <- M, N in Np. rewrite map_app, !map_app in *. cbn in *. rewrite <- app_assoc. exact Np.
Qed.
Lemma reopen_opened : forall s now now2 s', reopen s now now2 = Some s' -> exists p, opened s' = opened s ++ [(p, now)].
Proof.
  intros s now now2 s' E. unfold reopen, base_reopen in E. destruct (set_filename _ _ _ _) as [b|]; [|discriminate]. destruct (c_str b) as [p|]; [|discriminate].
  injection E as <-. exists p. cbn. destruct (kind_ s); reflexivity.
Qed.
Lemma step_opened : forall c s s', step s c = Some s' -> exists x, opened s' = opened s ++ x.
Proof.
  intros c s s' E. destruct c as [l k|x k|t n n2|n n2]; cbn [step] in E.
  - injection E as <-. exists []. rewrite app_nil_r. unfold xsputn. destruct (kind_ s); reflexivity.
  - injection E as <-. exists []. rewrite app_nil_r. reflexivity.
  - unfold sync in E. destruct (kind_ s) as [|d|size].
    + injection E as <-. exists []. rewrite app_nil_r. reflexivity.
    + destruct (d <=? _); [destruct (reopen_opened _ _ _ _ E) as (p & Ep); eexists; exact Ep|injection E as <-; exists []; rewrite app_nil_r; reflexivity].
    + destruct (size <=? _); [destruct (reopen_opened _ _ _ _ E) as (p & Ep); eexists; exact Ep|injection E as <-; exists []; rewrite app_nil_r; reflexivity].
  - destruct (reopen_opened _ _ _ _ E) as (p & Ep). eexists; exact Ep.
Qed.
Lemma NoDup_front : forall A (a b : list A), NoDup (a ++ b) -> NoDup a.
Proof.
  intros A a b. induction b as [|x b IH] using rev_ind; [rewrite app_nil_r; auto|]. rewrite app_assoc. intro N. apply IH.
  apply NoDup_remove_1 in N. rewrite app_nil_r in N. exact N.
Qed.
Lemma distinct_before : forall old s s' x, opened s' = opened s ++ x -> distinct old s' -> distinct old s.
Proof.
  intros old s s' x E D. unfold distinct in *. rewrite E, map_app, app_assoc in D. apply NoDup_front in D. exact D.
Qed.
Lemma sync_cases : forall s t n n2 s', sync s t n n2 = Some s' ->
  exists z, (s' = flush (set_csize s z) \/ reopen (flush (set_csize s z)) n n2 = Some s') .
Proof.
  intros s t n n2 s' E. unfold sync in E. destruct (kind_ s) as [|d|size].
  - injection E as <-. exists (csize s). left. destruct s; reflexivity.
  - exists (csize s). replace (set_csize s (csize s)) with s by (destruct s; reflexivity). destruct (d <=? _); [right; exact E|left; congruence].
  - eexists. destruct (size <=? _); [right; exact E|left; congruence].
Qed.
Lemma trunc_step : forall old w c s s', okp s -> call_ok c -> mode_ s = Truncate -> distinct old s' -> inv_trunc old w s -> step s c = Some s' ->
  inv_trunc old (w ++ bytes_of c) s' /\ (match c with Sync _ _ _ => pend s' = [] | _ => True end).
Proof.
  intros old w c s s' O Hc Mo D H E. destruct (step_opened c s s' E) as (x & Ex). assert (D0 := distinct_before old s s' x Ex D).
  destruct c as [l k|ch k|t n n2|n n2]; cbn [step bytes_of] in *.
  - injection E as <-. split; [|exact I]. unfold xsputn. apply inv_extend; destruct (kind_ s); assumption.
  - injection E as <-. split; [|exact I]. apply inv_extend; assumption.
  - rewrite app_nil_r. inversion Hc as [|? ? C1 C2]; subst. inversion C2 as [|? ? C3 C4]; subst.
    destruct (sync_cases s t n n2 s' E) as (z & [->|Er]).
    + apply inv_flush; assumption.
    + assert (O1 : okp (flush (set_csize s z))) by (apply (okp_same s); [unfold same_path; cbn; auto|exact O]).
      apply (inv_reopen old w (flush (set_csize s z)) n n2 s'); auto. apply inv_flush; assumption.
  - rewrite app_nil_r. inversion Hc as [|? ? C1 C2]; subst. split; [|exact I]. apply (inv_reopen old w s n n2 s'); auto.
Qed.
Lemma trunc_steps : forall l old w s s', okp s -> clocks_ok l -> mode_ s = Truncate -> distinct old s' -> inv_trunc old w s -> steps s l = Some s' ->
  inv_trunc old (w ++ written l) s'.
Proof.
  induction l as [|c l IH]; intros old w s s' O Hc Mo D H E; cbn in E; [injection E as <-; unfold written; cbn; rewrite app_nil_r; exact H|].
  unfold clocks_ok in Hc. cbn in Hc. apply Forall_app in Hc. destruct Hc as (Hc & Hl).
  destruct (step s c) as [s1|] eqn:E1; [|discriminate]. destruct (step_okp c s O Hc) as (s1' & E1' & O1 & _ & M1). rewrite E1 in E1'. injection E1' as <-.
  assert (D1 : distinct old s1).
  { clear - E D. revert s1 E. induction l as [|c l IH]; intros s1 E; cbn in E; [injection E as <-; exact D|].
    destruct (step s1 c) as [s2|] eqn:E2; [|discriminate]. destruct (step_opened c s1 s2 E2) as (x & Ex). exact (distinct_before old s1 s2 x Ex (IH s2 E)). }
  destruct (trunc_step old w c s s1 O Hc Mo D1 H E1) as (H1 & _).
  unfold written in *. cbn. rewrite app_assoc. apply (IH old _ s1 s'); auto. congruence.
Qed.
Lemma create_spec : forall k m max_path raw path existing now now2, clock now -> max_path < 2 ^ 64 -> zlen raw = max_path + 1 ->
  path <> [] -> Forall (fun c => c <> 0) path -> zlen path + 16 <= max_path ->
  exists s p, create k m max_path raw path existing now now2 = Done s /\ okp s /\ kind_ s = k /\ mode_ s = m /\ c_str (pbuf s) = Some p /\
    p = with_separator path ++ take (Z.min 15 (max_path - zlen (with_separator path) - 1)) (stamp (reset now)) /\
    cur s = p /\ fs s = open_file m p existing /\ pend s = [] /\ csize s = 0 /\ opened s = [(p, now)] /\
    (forall d, k = By_duration d -> ts s = now2) /\ max_path_ s = max_path /\ zlen (pbuf s) = max_path + 1 /\ take (plen s) (pbuf s) = with_separator path.
Proof.
  intros k m max_path raw path existing now now2 Hc Hm Hr Hp Hz Hl. destruct (dir_shape max_path raw path Hr Hp Hl) as (rest & E & L & Lw).
  unfold create. rewrite E. match goal with |- context [reopen ?x now now2] => set (s0 := x) end.
  assert (Hz' : Forall (fun c => c <> 0) (with_separator path)) by (unfold with_separator; destruct (last path 0 =? 47); [exact Hz|apply Forall_app; split; [exact Hz|repeat constructor; lia]]).
  assert (O : okp s0) by (exists (with_separator path), rest; unfold s0; cbn [pbuf plen max_path_]; repeat split; auto; lia).
  destruct (reopen_spec s0 now now2 O Hc) as (p & b & C & O' & (d & Ed & Ln & Td) & Tb & ->). eexists. exists p. split; [reflexivity|].
  split; [exact O'|]. split; [reflexivity|]. split; [reflexivity|]. split; [exact C|].
  unfold s0 in Ed, Ln, Td, Tb. cbn [plen pbuf max_path_] in *. rewrite take_app_exact in Td. subst d.
  split; [exact Ed|]. split; [reflexivity|]. split.
  { cbn. f_equal. clear. induction existing as [|[q c] e IH]; cbn; [reflexivity|]. destruct (path_eqb [] q); [rewrite app_nil_r; reflexivity|rewrite IH; reflexivity]. }
  split; [reflexivity|]. split; [cbn; destruct k; reflexivity|]. split; [reflexivity|]. split; [intros d ->; reflexivity|].
  split; [reflexivity|]. split; [destruct O' as (? & ? & _ & _ & L' & _); cbn in L'; exact L'|]. cbn. rewrite Tb. apply take_app_exact.
Qed.

(** ** C26, appending *)
Definition inv_app (old : files) (w : list Z) (s : mf) : Prop :=
  Permutation (all_bytes (fs s) ++ pend s) (all_bytes old ++ w) /\ In (cur s) (map fst (fs s)).
Lemma app_extend : forall old w s l k, inv_app old w s -> inv_app old (w ++ l) (write s l k).
Proof.
  intros old w s l k (P & I). unfold inv_app, write, pass_on. cbn. split; [|rewrite extend_names; exact I].
  eapply Permutation_trans; [apply Permutation_app_tail, extend_bytes; exact I|]. rewrite <- app_assoc, take_drop, !app_assoc. apply Permutation_app_tail. exact P.
Qed.
Lemma app_flush : forall old w s, inv_app old w s -> inv_app old w (flush s) /\ pend (flush s) = [].
Proof.
  intros old w s H. assert (K := app_extend old w s [] (zlen (pend s)) H). unfold write in K. rewrite !app_nil_r in K.
  unfold flush. split; [|cbn; replace (drop (zlen (pend s)) (pend s)) with (drop (zlen (pend s)) (pend s ++ [])) by (rewrite app_nil_r; reflexivity); apply drop_app_exact].
  destruct s; exact K.
Qed.
Lemma app_reopen : forall old w s now now2 s', okp s -> clock now -> mode_ s = Append -> inv_app old w s -> reopen s now now2 = Some s' -> inv_app old w s' /\ pend s' = [].
Proof.
  intros old w s now now2 s' O Hc Mo (P & I) E. destruct (reopen_spec s now now2 O Hc) as (p & b & _ & _ & _ & _ & E2). rewrite E2 in E. injection E as <-.
  unfold inv_app. cbn [fs pend cur]. rewrite Mo, open_append_bytes, app_nil_r. split; [split; [|apply open_in]|reflexivity].
  eapply Permutation_trans; [apply extend_bytes; exact I|exact P].
Qed.
Lemma app_step : forall old w c s s', okp s -> call_ok c -> mode_ s = Append -> inv_app old w s -> step s c = Some s' ->
  inv_app old (w ++ bytes_of c) s' /\ (match c with Sync _ _ _ => pend s' = [] | _ => True end).
Proof.
  intros old w c s s' O Hc Mo H E.
  destruct c as [l k|ch k|t n n2|n n2]; cbn [step bytes_of] in *.
  - injection E as <-. split; [|exact I]. unfold xsputn. apply app_extend; destruct (kind_ s); assumption.
  - injection E as <-. split; [|exact I]. apply app_extend; assumption.
  - rewrite app_nil_r. inversion Hc as [|? ? C1 C2]; subst. inversion C2 as [|? ? C3 C4]; subst.
    destruct (sync_cases s t n n2 s' E) as (z & [->|Er]).
    + apply app_flush; assumption.
    + assert (O1 : okp (flush (set_csize s z))) by (apply (okp_same s); [unfold same_path; cbn; auto|exact O]).
      apply (app_reopen old w (flush (set_csize s z)) n n2 s'); auto. apply app_flush; assumption.
  - rewrite app_nil_r. inversion Hc as [|? ? C1 C2]; subst. split; [|exact I]. apply (app_reopen old w s n n2 s'); auto.
Qed.
Lemma app_steps : forall l old w s s', okp s -> clocks_ok l -> mode_ s = Append -> inv_app old w s -> steps s l = Some s' -> inv_app old (w ++ written l) s'.
Proof.
  induction l as [|c l IH]; intros old w s s' O Hc Mo H E; cbn in E; [injection E as <-; unfold written; cbn; rewrite app_nil_r; exact H|].
  unfold clocks_ok in Hc. cbn in Hc. apply Forall_app in Hc. destruct Hc as (Hc & Hl).
  destruct (step s c) as [s1|] eqn:E1; [|discriminate]. destruct (step_okp c s O Hc) as (s1' & E1' & O1 & _ & M1). rewrite E1 in E1'. injection E1' as <-.
  destruct (app_step old w c s s1 O Hc Mo H E1) as (H1 & _).
  unfold written in *. cbn. rewrite app_assoc. apply (IH old _ s1 s'); auto. congruence.
Qed.
Lemma steps_total : forall l s, okp s -> clocks_ok l -> exists s', steps s l = Some s' /\ okp s' /\ kind_ s' = kind_ s /\ mode_ s' = mode_ s.
Proof.
  induction l as [|c l IH]; intros s O Hc; cbn; [eauto|]. unfold clocks_ok in Hc. cbn in Hc. apply Forall_app in Hc. destruct Hc as (Hc & Hl).
  destruct (step_okp c s O Hc) as (s1 & -> & O1 & K1 & M1). destruct (IH s1 O1 Hl) as (s' & E & O' & K' & M'). exists s'. rewrite K', M'. auto.
Qed.
Lemma steps_app : forall a b s, steps s (a ++ b) = match steps s a with Some s => steps s b | None => None end.
Proof. induction a as [|c a IH]; intros b s; cbn; [reflexivity|]. destruct (step s c); [apply IH|reflexivity]. Qed.
(** A flush leaves nothing in the buffer. *)
Lemma sync_pend : forall s t n n2 s', okp s -> clock n -> sync s t n n2 = Some s' -> pend s' = [].
Proof.
  intros s t n n2 s' O Hc E. destruct (sync_cases s t n n2 s' E) as (z & [->|Er]).
  - cbn. rewrite <- (app_nil_r (pend s)) at 2. apply drop_app_exact.
  - destruct (reopen_spec (flush (set_csize s z)) n n2) as (p & b & _ & _ & _ & _ & E2); [apply (okp_same s); [unfold same_path; cbn; auto|exact O]|exact Hc|].
    rewrite E2 in Er. injection Er as <-. reflexivity.
Qed.

(** ** C27 *)
(** Bytes written to the current file so far, given or not. *)
Definition size_inv (s : mf) (w : Z) (exact : bool) : Prop :=
  exists c, contents (cur s) (fs s) = Some c /\ 0 <= csize s <= 2 * zlen c + zlen (pend s) /\ zlen c + zlen (pend s) <= w /\
    (exact = true -> zlen c + zlen (pend s) <= csize s).
Lemma split_pend : forall k (l : list Z), zlen (take k l) + zlen (drop k l) = zlen l.
Proof. intros. rewrite <- zlen_app, take_drop. reflexivity. Qed.
Ltac pr := cbn [kind_ mode_ max_path_ pbuf plen fs cur pend csize ts opened write pass_on flush set_csize set_ts].
Lemma size_step : forall c s s' w e, okp s -> call_ok c -> mode_ s = Truncate -> (exists size, kind_ s = By_size size) ->
  w + zlen (bytes_of c) < 2 ^ 62 -> (e = true -> match c with Putc _ _ => False | _ => True end) -> size_inv s w e -> step s c = Some s' ->
  size_inv s' (w + zlen (bytes_of c)) e.
Proof.
  intros c s s' w e O Hc Mo (size & K) Hw He (d & C & B & W & X) E. pose proof (zlen_nonneg _ d). pose proof (zlen_nonneg _ (pend s)).
  destruct c as [l k|ch k|t n n2|n n2]; cbn [step bytes_of] in *.
  - injection E as <-. unfold xsputn. rewrite K. unfold size_inv. pr. exists (d ++ take k (pend s ++ l)). split; [apply contents_extend; exact C|].
    pose proof (split_pend k (pend s ++ l)) as Sp. pose proof (zlen_nonneg _ (take k (pend s ++ l))). pose proof (zlen_nonneg _ (drop k (pend s ++ l))). pose proof (zlen_nonneg _ l).
    rewrite zlen_app in Sp. rewrite !zlen_app. unfold wrap_u64. rewrite Z.mod_small by lia. split; [lia|]. split; [lia|]. intro Ee. specialize (X Ee). lia.
  - injection E as <-. unfold size_inv, write. pr. exists (d ++ take k (pend s ++ [ch])). split; [apply contents_extend; exact C|].
    pose proof (split_pend k (pend s ++ [ch])) as Sp. pose proof (zlen_nonneg _ (take k (pend s ++ [ch]))). pose proof (zlen_nonneg _ (drop k (pend s ++ [ch]))).
    rewrite zlen_app in Sp. change (zlen [ch]) with 1 in *. rewrite !zlen_app. split; [lia|]. split; [lia|]. intro Ee. destruct (He Ee).
  - rewrite zlen_nil in *. inversion Hc as [|? ? C1 C2]; subst. inversion C2 as [|? ? C3 C4]; subst. unfold sync in E. rewrite K in E. cbv zeta in E.
    match type of E with context [size <=? csize ?x] => set (s1 := x) in E end.
    assert (O1 : okp s1) by (apply (okp_same s); [unfold same_path, s1; cbn; auto|exact O]).
    assert (Ep : pend s1 = []) by (unfold s1; pr; rewrite <- (app_nil_r (pend s)) at 2; apply drop_app_exact).
    assert (I1 : size_inv s1 (w + 0) e).
    { exists (d ++ pend s). unfold s1. pr. rewrite (take_all _ (pend s)) by lia. split; [apply contents_extend; exact C|].
      replace (drop (zlen (pend s)) (pend s)) with (@nil Z) by (symmetry; rewrite <- (app_nil_r (pend s)) at 2; apply drop_app_exact).
      unfold wrap_u64. rewrite Z.mod_small by lia. rewrite zlen_app, zlen_nil. split; [lia|]. split; [lia|]. intro Ee. specialize (X Ee). lia. }
    destruct (size <=? csize s1); [|injection E as <-; exact I1].
    assert (M1 : mode_ s1 = Truncate) by exact Mo. assert (K1 : kind_ s1 = By_size size) by exact K. clearbody s1.
    destruct (reopen_spec s1 n n2 O1 C3) as (p & b & _ & _ & _ & _ & E2). rewrite E2 in E. injection E as <-.
    exists []. pr. rewrite M1, K1. split; [apply contents_open|]. rewrite zlen_nil. lia.
  - rewrite zlen_nil in *. inversion Hc as [|? ? C1 C2]; subst. destruct (reopen_spec s n n2 O C1) as (p & b & _ & _ & _ & _ & E2). rewrite E2 in E. injection E as <-.
    rewrite Mo, K. exists []. pr. split; [apply contents_open|]. rewrite zlen_nil. lia.
Qed.
Lemma size_steps : forall l s s' w e, okp s -> clocks_ok l -> mode_ s = Truncate -> (exists size, kind_ s = By_size size) ->
  w + zlen (written l) < 2 ^ 62 -> (e = true -> no_putc l) -> size_inv s w e -> steps s l = Some s' -> size_inv s' (w + zlen (written l)) e.
Proof.
  induction l as [|c l IH]; intros s s' w e O Hc Mo K Hw He H E; cbn in E.
  { injection E as <-. unfold written. cbn [flat_map]. rewrite zlen_nil, Z.add_0_r. exact H. }
  unfold clocks_ok in Hc. cbn in Hc. apply Forall_app in Hc. destruct Hc as (Hc & Hl).
  unfold written in *. cbn [flat_map] in *. rewrite zlen_app in *. pose proof (zlen_nonneg _ (flat_map bytes_of l)).
  destruct (step s c) as [s1|] eqn:E1; [|discriminate]. destruct (step_okp c s O Hc) as (s1' & E1' & O1 & K1 & M1). rewrite E1 in E1'. injection E1' as <-.
  rewrite Z.add_assoc. apply (IH s1 s'); auto; [congruence|rewrite K1; exact K|lia|intro Ee; specialize (He Ee); inversion He; assumption|].
  apply (size_step c s s1 w e); auto; [lia|]. intro Ee. specialize (He Ee). inversion He. assumption.
Qed.

(** ** Names and times *)
Lemma app_eq_len : forall A (a b c d : list A), length a = length c -> a ++ b = c ++ d -> a = c /\ b = d.
Proof.
  induction a as [|x a IH]; intros b c d L E; destruct c as [|y c]; cbn in *; try discriminate; [auto|].
  injection E as <- E. injection L as L. destruct (IH b c d L E) as (-> & ->). auto.
Qed.
Lemma stamp_inj : forall n m, clock n -> clock m ->
  (stamp (reset n) = stamp (reset m) <->
   (year (reset n), month (reset n), day (reset n)) = (year (reset m), month (reset m), day (reset m)) /\ n mod day_ns / 1000000000 = m mod day_ns / 1000000000).
Proof.
  intros n m Hn Hm. destruct (date_ranges n Hn) as (Y & M & D). destruct (timestamp_time n Hn) as (Hh & Hmi & Hs & Hns & _ & _ & Hq).
  destruct (date_ranges m Hm) as (Y' & M' & D'). destruct (timestamp_time m Hm) as (Hh' & Hmi' & Hs' & Hns' & _ & _ & Hq'). cbv zeta in *.
  rewrite <- Hq, <- Hq'. rewrite !(Z.div_add_l) by lia. rewrite !(Z.div_small (nanoseconds _)) by lia.
  set (t := reset n) in *. set (u := reset m) in *. clearbody t u. unfold stamp. split.
  - intro E. apply app_eq_len in E; [|reflexivity]. destruct E as (E1 & E). apply app_eq_len in E; [|reflexivity]. destruct E as (E2 & E).
    apply app_eq_len in E; [|reflexivity]. destruct E as (E3 & E). apply app_eq_len in E; [|reflexivity]. destruct E as (_ & E).
    apply app_eq_len in E; [|reflexivity]. destruct E as (E4 & E). apply app_eq_len in E; [|reflexivity]. destruct E as (E5 & E6).
    apply four_inj in E1; [|lia|lia]. apply two_inj in E2; [|lia|lia]. apply two_inj in E3; [|lia|lia]. apply two_inj in E4; [|lia|lia].
    apply two_inj in E5; [|lia|lia]. apply two_inj in E6; [|lia|lia]. split; [congruence|lia].
  - intros (E & F). injection E as E1 E2 E3. assert (hours t = hours u /\ minutes t = minutes u /\ seconds t = seconds u) as (-> & -> & ->) by lia.
    rewrite E1, E2, E3. reflexivity.
Qed.
Definition date_lt (a b : date) : Prop :=
  let '(y1, m1, d1) := a in let '(y2, m2, d2) := b in y1 < y2 \/ (y1 = y2 /\ (m1 < m2 \/ (m1 = m2 /\ d1 < d2))).
Lemma next_lt : forall d, date_lt d (next_day d).
Proof.
  intros [[y m] d]. unfold next_day. destruct (d <? month_days y m) eqn:E1; [unfold date_lt; lia|]. destruct (m <? 12) eqn:E2; unfold date_lt; lia.
Qed.
Lemma date_lt_trans : forall a b c, date_lt a b -> date_lt b c -> date_lt a c.
Proof. intros [[y1 m1] d1] [[y2 m2] d2] [[y3 m3] d3]; unfold date_lt; lia. Qed.
Lemma gregorian_lt : forall k n, date_lt (gregorian n) (gregorian (n + S k)).
Proof.
  induction k as [|k IH]; intro n.
  - rewrite Nat.add_1_r, gregorian_S. apply next_lt.
  - rewrite Nat.add_succ_r, gregorian_S. eapply date_lt_trans; [apply IH|apply next_lt].
Qed.
Lemma gregorian_inj : forall n m, gregorian n = gregorian m -> n = m.
Proof.
  intros n m E. assert (I : forall d, ~ date_lt d d) by (intros [[y x] d]; unfold date_lt; lia).
  destruct (Nat.lt_trichotomy n m) as [L|[L|L]]; [|exact L|]; exfalso.
  - apply (I (gregorian n)). rewrite E at 2. replace m with (n + S (m - n - 1))%nat by lia. apply gregorian_lt.
  - apply (I (gregorian m)). rewrite <- E at 2. replace n with (m + S (n - m - 1))%nat by lia. apply gregorian_lt.
Qed.
(** On days whose date is shown correctly (C16) two readings get the same name only within a second. *)
Definition good_day (n : Z) : Prop := 0 <= n < 47542 * day_ns /\ is_leap_day (gregorian (Z.to_nat (n / day_ns))) = false /\ n / day_ns <> 36583.
Lemma stamp_seconds : forall n m, good_day n -> good_day m -> (stamp (reset n) = stamp (reset m) <-> n / 1000000000 = m / 1000000000).
Proof.
  intros n m (Rn & Ln & Xn) (Rm & Lm & Xm). unfold day_ns in Rn, Rm.
  rewrite stamp_inj by (unfold clock; lia).
  rewrite (proj2 (timestamp_date n ltac:(unfold day_ns; lia)) (conj Ln Xn)), (proj2 (timestamp_date m ltac:(unfold day_ns; lia)) (conj Lm Xm)).
  clear Ln Lm Xn Xm. unfold day_ns. split.
  - intros (E & F). apply gregorian_inj in E. lia.
  - intro E. assert (D : n / (86400 * 1000000000) = m / (86400 * 1000000000)).
    { rewrite !(Z.mul_comm 86400), <- !Z.div_div by lia. rewrite E. reflexivity. }
    rewrite D. split; [reflexivity|]. lia.
Qed.

(** ** C25 over histories *)
Definition shown (mp : Z) (d : list Z) (now : Z) : list Z := d ++ take (Z.min 15 (mp - zlen d - 1)) (stamp (reset now)).
Definition pinv (mp : Z) (d : list Z) (s : mf) : Prop :=
  max_path_ s = mp /\ plen s = zlen d /\ take (plen s) (pbuf s) = d /\ c_str (pbuf s) = Some (cur s) /\ zlen (pbuf s) = mp + 1 /\
  (exists pre now, opened s = pre ++ [(cur s, now)]) /\ Forall (fun e => fst e = shown mp d (snd e)) (opened s).
Lemma pinv_same : forall mp d s s', pbuf s' = pbuf s -> plen s' = plen s -> max_path_ s' = max_path_ s -> cur s' = cur s -> opened s' = opened s -> pinv mp d s -> pinv mp d s'.
Proof. intros mp d s s' E1 E2 E3 E4 E5 H. unfold pinv. rewrite E1, E2, E3, E4, E5. exact H. Qed.
Lemma pinv_reopen : forall mp d s n n2 s', okp s -> clock n -> pinv mp d s -> reopen s n n2 = Some s' -> pinv mp d s'.
Proof.
  intros mp d s n n2 s' O Hc (A & B & C & D & L & E & F) R. destruct (reopen_spec s n n2 O Hc) as (p & b & C1 & (d2 & r2 & O2) & (d' & Ed & Ln & Td) & Tb & E2).
  rewrite E2 in R. injection R as <-. assert (H : d' = d) by congruence. subst d'. cbn in O2. unfold pinv. cbn.
  split; [exact A|]. split; [exact B|]. split; [congruence|]. split; [exact C1|]. split; [destruct O2 as (_ & _ & L2 & _); congruence|].
  split; [eexists _, n; reflexivity|]. apply Forall_app. split; [exact F|]. constructor; [|constructor]. cbn. unfold shown. rewrite <- A. rewrite H in Ed. exact Ed.
Qed.
Lemma pinv_step : forall mp d c s s', okp s -> call_ok c -> pinv mp d s -> step s c = Some s' -> pinv mp d s'.
Proof.
  intros mp d c s s' O Hc H E. destruct c as [l k|ch k|t n n2|n n2]; cbn [step] in E.
  - injection E as <-. apply (pinv_same mp d s); try reflexivity; try exact H; unfold xsputn; destruct (kind_ s); reflexivity.
  - injection E as <-. apply (pinv_same mp d s); try reflexivity; exact H.
  - inversion Hc as [|? ? C1 C2]; subst. inversion C2 as [|? ? C3 C4]; subst. destruct (sync_cases s t n n2 s' E) as (z & [->|Er]).
    + apply (pinv_same mp d s); try reflexivity; exact H.
    + assert (O1 : okp (flush (set_csize s z))) by (apply (okp_same s); [unfold same_path; cbn; auto|exact O]).
      apply (pinv_reopen mp d _ n n2 s' O1 C3); [|exact Er]. apply (pinv_same mp d s); try reflexivity; exact H.
  - inversion Hc as [|? ? C1 C2]; subst. exact (pinv_reopen mp d s n n2 s' O C1 H E).
Qed.
Lemma pinv_steps : forall l mp d s s', okp s -> clocks_ok l -> pinv mp d s -> steps s l = Some s' -> pinv mp d s'.
Proof.
  induction l as [|c l IH]; intros mp d s s' O Hc H E; cbn in E; [injection E as <-; exact H|].
  unfold clocks_ok in Hc. cbn in Hc. apply Forall_app in Hc. destruct Hc as (Hc & Hl).
  destruct (step s c) as [s1|] eqn:E1; [|discriminate]. destruct (step_okp c s O Hc) as (s1' & E1' & O1 & _). rewrite E1 in E1'. injection E1' as <-.
  exact (IH mp d s1 s' O1 Hl (pinv_step mp d c s s1 O Hc H E1) E).
Qed.
Lemma path_history : forall k m mp raw path existing now now2 l, clock now -> mp < 2 ^ 64 -> zlen raw = mp + 1 -> path <> [] -> Forall (fun c => c <> 0) path ->
  zlen path + 16 <= mp -> clocks_ok l ->
  exists s0 s, create k m mp raw path existing now now2 = Done s0 /\ steps s0 l = Some s /\ pinv mp (with_separator path) s.
Proof.
  intros k m mp raw path existing now now2 l Hc Hm Hr Hp Hz Hl Cl.
  destruct (create_spec k m mp raw path existing now now2 Hc Hm Hr Hp Hz Hl) as (s0 & p & Ec & O & _ & _ & C & Ep & Cu & _ & _ & _ & Op & _ & Mp & Lb & Tp).
  destruct (steps_total l s0 O Cl) as (s & Es & _). exists s0, s. split; [exact Ec|]. split; [exact Es|].
  apply (pinv_steps l _ _ s0 s O Cl); [|exact Es]. destruct O as (d & rest & Hb & Hn & _). unfold pinv.
  assert (d = with_separator path) by (rewrite Hb, Hn, take_app_exact in Tp; exact Tp). subst d.
  split; [exact Mp|]. split; [exact Hn|]. split; [exact Tp|]. split; [congruence|]. split; [exact Lb|].
  split; [exists [], now; rewrite Op, Cu; reflexivity|]. rewrite Op. constructor; [|constructor]. cbn. exact Ep.
Qed.

(** ** C27, duration *)
Definition dur_inv (s : mf) : Prop := exists pre p, opened s = pre ++ [(p, ts s)].
Definition one_reading (c : call) : Prop := match c with Sync t n n2 => t = n /\ n = n2 | Reopen n n2 => n = n2 | _ => True end.
Lemma dur_step : forall d c s s', okp s -> call_ok c -> one_reading c -> kind_ s = By_duration d -> dur_inv s -> step s c = Some s' -> dur_inv s'.
Proof.
  intros d c s s' O Hc H1 K (pre & p & E) S. destruct c as [l k|ch k|t n n2|n n2]; cbn [step] in S.
  - injection S as <-. unfold xsputn. rewrite K. exists pre, p. exact E.
  - injection S as <-. exists pre, p. exact E.
  - inversion Hc as [|? ? C1 C2]; subst. inversion C2 as [|? ? C3 C4]; subst. destruct H1 as (-> & ->). unfold sync in S. rewrite K in S. cbv zeta in S.
    destruct (d <=? n2 - ts (flush s)); [|injection S as <-; exists pre, p; exact E].
    assert (O1 : okp (flush s)) by (apply (okp_same s); [apply flush_same|exact O]).
    destruct (reopen_spec (flush s) n2 n2 O1 C3) as (q & b & _ & _ & _ & _ & E2). rewrite E2 in S. injection S as <-. unfold dur_inv. cbn. rewrite K. eauto.
  - inversion Hc as [|? ? C1 C2]; subst. cbn in H1. subst. destruct (reopen_spec s n2 n2 O C1) as (q & b & _ & _ & _ & _ & E2). rewrite E2 in S. injection S as <-. unfold dur_inv. cbn. rewrite K. eauto.
Qed.
Lemma dur_steps : forall l d s s', okp s -> clocks_ok l -> Forall one_reading l -> kind_ s = By_duration d -> dur_inv s -> steps s l = Some s' -> dur_inv s'.
Proof.
  induction l as [|c l IH]; intros d s s' O Hc H1 K H E; cbn in E; [injection E as <-; exact H|].
  unfold clocks_ok in Hc. cbn in Hc. apply Forall_app in Hc. destruct Hc as (Hc & Hl). inversion H1 as [|? ? H2 H3]; subst.
  destruct (step s c) as [s1|] eqn:E1; [|discriminate]. destruct (step_okp c s O Hc) as (s1' & E1' & O1 & K1 & _). rewrite E1 in E1'. injection E1' as <-.
  apply (IH d s1 s'); auto; [congruence|]. exact (dur_step d c s s1 O Hc H2 K H E1).
Qed.
