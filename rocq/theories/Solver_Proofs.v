(** Proofs for C119: requests to the equation solver. *)

From Coq Require Import String ZArith QArith List Bool Lia.
From Verif Require Import Base ListMem Ascii_Model Ascii_Spec Table_Model Http_Model Http_Calls Http_Spec Endpoint_Model Endpoint_Spec Rest_Model Rest_Spec RestBody_Spec.
From Verif Require Import Http_Proofs Http_Order Http_RoundTrip Endpoint_Proofs Ascii_Proofs Rest_Games Rest_Json Rest_Proofs Rest_Replies Rest_Any Rest_Headers RestBody_Proofs RestBody_Replies.
From Verif Require Import Solver_Model Solver_Spec.
From Verif Require Json_Model Json_Spec Json_Proofs Json_Writer Json_Safety Json_Final Json_Props Equations_Model.
Import ListNotations.
Open Scope string_scope.
Open Scope list_scope.
Open Scope Z_scope.

(** ** Reading the problem *)
Section Reading.
Import Json_Model Json_Spec Json_Proofs.
Notation at_core c m n := (gst 64 (cinp c) (ck c) (ce c) m n).
Variable e : env.
Notation fits v := (Forall (tok_fits 1041) (tokens v)).

Lemma next_read : forall t ts c c' tb m n, Run (e_fuel e) 64 1 (t :: ts) c c' -> zlen tb = 1041 -> tok_fits 1041 t ->
  exists c1 tb' n', Rest_Model.get_token e tb (at_core c m n) = Http_Model.Ret (t, tb', at_core c1 (Some tb') n') /\ zlen tb' = 1041 /\ Run (e_fuel e) 64 1 ts c1 c'.
Proof.
  intros t ts c c' tb m n R Lt F. apply run_first in R as (c1 & T & R). destruct (tok_read e t c c1 tb m n T Lt F) as (tb' & n' & E & L'). exists c1, tb', n'. auto.
Qed.
(** The number, or the end of the array. *)
Lemma number_read : forall v ts c c' tb m n, Run (e_fuel e) 64 1 (tokens v ++ ts) c c' -> zlen tb = 1041 -> fits v ->
  match v with
  | JNum d => exists c1 tb' n', one_number e tb (at_core c m n) = Http_Model.Ret (Some d, tb', at_core c1 (Some tb') n') /\ zlen tb' = 1041 /\ Run (e_fuel e) 64 1 ts c1 c'
  | _ => exists x y, one_number e tb (at_core c m n) = Http_Model.Ret (None, x, y)
  end.
Proof.
  intros v ts c c' tb m n R Lt F. unfold one_number.
  destruct v; cbn [tokens app] in R, F; (destruct (next_read _ _ _ _ tb m n R Lt (Forall_inv F)) as (c1 & tb' & n' & E & L1 & R1); rewrite E; cbn [Http_Model.bind]; eauto 8).
Qed.
Lemma no_number : forall ts c c' tb m n, Run (e_fuel e) 64 1 (TEndA :: ts) c c' -> zlen tb = 1041 -> exists x y, one_number e tb (at_core c m n) = Http_Model.Ret (None, x, y).
Proof. intros ts c c' tb m n R Lt. unfold one_number. destruct (next_read _ _ _ _ tb m n R Lt I) as (c1 & tb' & n' & E & _). rewrite E. cbn [Http_Model.bind]. eauto. Qed.
Lemma arr_tokens : forall l ts, tokens (JArr l) ++ ts = TBegA :: flat_map tokens l ++ TEndA :: ts.
Proof. intros l ts. cbn [tokens app]. rewrite <- app_assoc. reflexivity. Qed.
Lemma arr_fits : forall l, fits (JArr l) -> Forall (tok_fits 1041) (flat_map tokens l).
Proof. intros l F. cbn [tokens] in F. apply Forall_inv_tail in F. apply Forall_app in F. tauto. Qed.
(** The token after the last element is the end of the array. *)
Lemma end_or_not : forall l ts c c' tb m n, Run (e_fuel e) 64 1 (flat_map tokens l ++ TEndA :: ts) c c' -> zlen tb = 1041 -> Forall (tok_fits 1041) (flat_map tokens l) ->
  exists t c1 tb' n', Rest_Model.get_token e tb (at_core c m n) = Http_Model.Ret (t, tb', at_core c1 (Some tb') n') /\ zlen tb' = 1041 /\
    match l with [] => t = TEndA /\ Run (e_fuel e) 64 1 ts c1 c' | _ => t <> TEndA end.
Proof.
  intros l ts c c' tb m n R Lt F. destruct l as [|v l]; cbn [flat_map app] in R, F.
  - destruct (next_read _ _ _ _ tb m n R Lt I) as (c1 & tb' & n' & E & L1 & R1). exists TEndA, c1, tb', n'. auto.
  - destruct (first_token v) as (t & ts' & Et & _). assert (t <> TEndA) as Ne by (destruct v; injection Et as <- _; discriminate).
    rewrite Et in R, F. cbn [app] in R, F. destruct (next_read _ _ _ _ tb m n R Lt (Forall_inv F)) as (c1 & tb' & n' & E & L1 & R1). exists t, c1, tb', n'. auto.
Qed.
Lemma not_array : forall v, (forall l, v <> JArr l) -> exists t ts, tokens v = t :: ts /\ t <> TBegA.
Proof. intros v N. destruct v; try (eexists _, _; split; [reflexivity|discriminate]). exfalso. eapply N. reflexivity. Qed.
Lemma pair_read : forall v ts c c' tb m n, Run (e_fuel e) 64 1 (tokens v ++ ts) c c' -> zlen tb = 1041 -> fits v ->
  match two_numbers v with
  | Some p => exists c1 tb' n', parse_array_2 e tb (at_core c m n) = Http_Model.Ret (Some p, tb', at_core c1 (Some tb') n') /\ zlen tb' = 1041 /\ Run (e_fuel e) 64 1 ts c1 c'
  | None => exists x y, parse_array_2 e tb (at_core c m n) = Http_Model.Ret (None, x, y)
  end.
Proof.
  intros v ts c c' tb m n R Lt F. unfold parse_array_2.
  assert ((exists l, v = JArr l) \/ (forall l, v <> JArr l)) as [(l & ->)|Na] by (destruct v; try (right; discriminate); left; eauto).
  2: { destruct (not_array v Na) as (t & ts' & Et & Nt). rewrite Et in R, F. cbn [app] in R. destruct (next_read _ _ _ _ tb m n R Lt (Forall_inv F)) as (c1 & tb' & n' & E & _). rewrite E. cbn [Http_Model.bind].
       replace (two_numbers v) with (@None (list Z * list Z)) by (destruct v; try reflexivity; exfalso; eapply Na; reflexivity). destruct t; eauto. congruence. }
  rewrite arr_tokens in R. apply arr_fits in F. destruct (next_read _ _ _ _ tb m n R Lt I) as (c1 & tb1 & n1 & E1 & L1 & R1). rewrite E1. cbn [Http_Model.bind].
  destruct l as [|x l]; cbn [flat_map app] in R1, F.
  { destruct (no_number _ _ _ tb1 (Some tb1) n1 R1 L1) as (u & w & E2). rewrite E2. cbn [Http_Model.bind two_numbers]. eauto. }
  rewrite <- app_assoc in R1. apply Forall_app in F as (Fx & F). pose proof (number_read x _ _ _ tb1 (Some tb1) n1 R1 L1 Fx) as Hx.
  destruct x as [|bb|d|s|l0|l0]; try (destruct Hx as (u & w & E2); rewrite E2; cbn [Http_Model.bind two_numbers]; eauto).
  destruct Hx as (c2 & tb2 & n2 & E2 & L2 & R2). rewrite E2. cbn [Http_Model.bind].
  destruct l as [|y l]; cbn [flat_map app] in R2, F.
  { destruct (no_number _ _ _ tb2 (Some tb2) n2 R2 L2) as (u & w & E3). rewrite E3. cbn [Http_Model.bind two_numbers]. eauto. }
  rewrite <- app_assoc in R2. apply Forall_app in F as (Fy & F). pose proof (number_read y _ _ _ tb2 (Some tb2) n2 R2 L2 Fy) as Hy.
  destruct y as [|bb|d2|s|l0|l0]; try (destruct Hy as (u & w & E3); rewrite E3; cbn [Http_Model.bind two_numbers]; eauto).
  destruct Hy as (c3 & tb3 & n3 & E3 & L3 & R3). rewrite E3. cbn [Http_Model.bind].
  destruct (end_or_not l ts _ _ tb3 (Some tb3) n3 R3 L3 F) as (t & c4 & tb4 & n4 & E4 & L4 & H). rewrite E4. cbn [Http_Model.bind two_numbers].
  destruct l as [|z l].
  - destruct H as (-> & R4). exists c4, tb4, n4. auto.
  - destruct t; eauto. congruence.
Qed.
Lemma no_pair : forall ts c c' tb m n, Run (e_fuel e) 64 1 (TEndA :: ts) c c' -> zlen tb = 1041 -> exists x y, parse_array_2 e tb (at_core c m n) = Http_Model.Ret (None, x, y).
Proof. intros ts c c' tb m n R Lt. unfold parse_array_2. destruct (next_read _ _ _ _ tb m n R Lt I) as (c1 & tb' & n' & E & _). rewrite E. cbn [Http_Model.bind]. eauto. Qed.
Lemma rows_read : forall v ts c c' tb m n, Run (e_fuel e) 64 1 (tokens v ++ ts) c c' -> zlen tb = 1041 -> fits v ->
  match two_rows v with
  | Some p => exists c1 tb' n', parse_matrix e tb (at_core c m n) = Http_Model.Ret (Some p, tb', at_core c1 (Some tb') n') /\ zlen tb' = 1041 /\ Run (e_fuel e) 64 1 ts c1 c'
  | None => exists x y, parse_matrix e tb (at_core c m n) = Http_Model.Ret (None, x, y)
  end.
Proof.
  intros v ts c c' tb m n R Lt F. unfold parse_matrix.
  assert ((exists l, v = JArr l) \/ (forall l, v <> JArr l)) as [(l & ->)|Na] by (destruct v; try (right; discriminate); left; eauto).
  2: { destruct (not_array v Na) as (t & ts' & Et & Nt). rewrite Et in R, F. cbn [app] in R. destruct (next_read _ _ _ _ tb m n R Lt (Forall_inv F)) as (c1 & tb' & n' & E & _). rewrite E. cbn [Http_Model.bind].
       replace (two_rows v) with (@None (list Z * list Z * (list Z * list Z))) by (destruct v; try reflexivity; exfalso; eapply Na; reflexivity). destruct t; eauto. congruence. }
  rewrite arr_tokens in R. apply arr_fits in F. destruct (next_read _ _ _ _ tb m n R Lt I) as (c1 & tb1 & n1 & E1 & L1 & R1). rewrite E1. cbn [Http_Model.bind].
  destruct l as [|x l]; cbn [flat_map app] in R1, F.
  { destruct (no_pair _ _ _ tb1 (Some tb1) n1 R1 L1) as (u & w & E2). rewrite E2. cbn [Http_Model.bind two_rows]. eauto. }
  rewrite <- app_assoc in R1. apply Forall_app in F as (Fx & F). pose proof (pair_read x _ _ _ tb1 (Some tb1) n1 R1 L1 Fx) as Hx.
  destruct (two_numbers x) as [px|] eqn:Ex.
  2: { destruct Hx as (u & w & E2); rewrite E2; cbn [Http_Model.bind]. replace (two_rows (JArr (x :: l))) with (@None (list Z * list Z * (list Z * list Z))) by (cbn [two_rows]; destruct l as [|? [|? ?]]; try reflexivity; rewrite Ex; reflexivity). eauto. }
  destruct Hx as (c2 & tb2 & n2 & E2 & L2 & R2). rewrite E2. cbn [Http_Model.bind].
  destruct l as [|y l]; cbn [flat_map app] in R2, F.
  { destruct (no_pair _ _ _ tb2 (Some tb2) n2 R2 L2) as (u & w & E3). rewrite E3. cbn [Http_Model.bind two_rows]. eauto. }
  rewrite <- app_assoc in R2. apply Forall_app in F as (Fy & F). pose proof (pair_read y _ _ _ tb2 (Some tb2) n2 R2 L2 Fy) as Hy.
  destruct (two_numbers y) as [py|] eqn:Ey.
  2: { destruct Hy as (u & w & E3); rewrite E3; cbn [Http_Model.bind]. replace (two_rows (JArr (x :: y :: l))) with (@None (list Z * list Z * (list Z * list Z))) by (cbn [two_rows]; destruct l as [|? ?]; try reflexivity; rewrite Ex, Ey; reflexivity). eauto. }
  destruct Hy as (c3 & tb3 & n3 & E3 & L3 & R3). rewrite E3. cbn [Http_Model.bind].
  destruct (end_or_not l ts _ _ tb3 (Some tb3) n3 R3 L3 F) as (t & c4 & tb4 & n4 & E4 & L4 & H). rewrite E4. cbn [Http_Model.bind two_rows].
  destruct l as [|z l].
  - rewrite Ex, Ey. destruct H as (-> & R4). exists c4, tb4, n4. auto.
  - destruct t; eauto. congruence.
Qed.

(** *** The members *)
Fixpoint problem (a : option (list Z * list Z * (list Z * list Z))) (w : option (list Z * list Z)) (ms : list (list Z * jv))
    : option (option (list Z * list Z * (list Z * list Z)) * option (list Z * list Z)) :=
  match ms with
  | [] => Some (a, w)
  | p :: ms => if named "a" p then match two_rows (snd p) with Some r => problem (Some r) w ms | None => None end
               else if named "b" p then match two_numbers (snd p) with Some r => problem a (Some r) ms | None => None end
               else problem a w ms
  end.
Definition all_said {A} (s : String.string) (f : jv -> option A) (ms : list (list Z * jv)) : bool := forallb is_some (map (fun p => f (snd p)) (filter (named s) ms)).
Lemma named_one : forall p, named "a" p = true -> named "b" p = false.
Proof.
  intros p H. unfold named in *. destruct (list_eq_dec Z.eq_dec (fst p) (b "a")) as [E|]; [|discriminate H]. rewrite E. destruct (list_eq_dec Z.eq_dec (b "a") (b "b")) as [X|]; [discriminate X|reflexivity].
Qed.
Lemma last_from : forall A (l : list (option A)) (x : option A) (r : A), last l (Some r) = last (Some r :: l) x.
Proof. intros A [|y l] x r; [reflexivity|]. change (last (Some r :: y :: l) x) with (last (y :: l) x). apply last_default. Qed.
Lemma problem_spec : forall ms a w, problem a w ms =
  if all_said "a" two_rows ms && all_said "b" two_numbers ms
  then Some (last (map (fun p => two_rows (snd p)) (filter (named "a") ms)) a, last (map (fun p => two_numbers (snd p)) (filter (named "b") ms)) w) else None.
Proof.
  unfold all_said. induction ms as [|p ms IH]; intros a w; [reflexivity|]. cbn [problem filter]. destruct (named "a" p) eqn:Na.
  - rewrite (named_one p Na). cbn [map forallb]. destruct (two_rows (snd p)) as [r|] eqn:E; [|reflexivity]. cbn [is_some andb]. rewrite IH. destruct (_ && _); [|reflexivity]. rewrite (last_from _ _ a). reflexivity.
  - destruct (named "b" p) eqn:Nb; [|apply IH]. cbn [map forallb]. destruct (two_numbers (snd p)) as [r|] eqn:E; cbn [is_some andb]; [|rewrite andb_false_r; reflexivity].
    rewrite IH. destruct (_ && _); [|reflexivity]. rewrite (last_from _ _ w). reflexivity.
Qed.
Definition plain_members (ms : list (list Z * jv)) : Prop :=
  Forall (fun p => 1 + depth (snd p) <= 64 /\ Forall num_fits (tokens (snd p)) /\ Forall (tok_fits 1041) (tokens (snd p)) /\ tok_fits 1041 (TProp (fst p))) ms.
Lemma members_plain : forall ms, readable (JObj ms) -> plain_members ms.
Proof.
  intros ms (D & F & T). cbn [depth tokens] in *. apply Forall_inv_tail in F, T. apply Forall_app in F as (F & _). apply Forall_app in T as (T & _).
  unfold plain_members. revert D F T. induction ms as [|[n v] ms IH]; intros D F T; [constructor|]. cbn [map fold_right flat_map app] in *.
  apply Forall_inv_tail in F as F'. apply Forall_app in F' as (F1 & F2). pose proof (Forall_inv T) as T0. apply Forall_inv_tail in T as T'. apply Forall_app in T' as (T1 & T2).
  constructor; [cbn [fst snd]; split; [lia|]; split; [exact F1|]; split; [exact T1|exact T0]|]. apply IH; auto. lia.
Qed.
Lemma problem_read : forall ms t rest n a w tb m nn, members any_char ms t -> plain_members ms -> (length t + length rest + 4 < e_fuel e)%nat -> (length ms < n)%nat -> zlen tb = 1041 ->
  read_problem e n a w tb (gst 64 (t ++ [125] ++ rest) [true] true m nn) = Http_Model.Ret (problem a w ms).
Proof.
  induction ms as [|[name v] ms IH]; intros t rest n a w tb m nn M Ok Hf Hn Lt; (destruct n as [|n]; [cbn [length] in Hn; lia|]); cbn [read_problem].
  - destruct (tok_read e TEndO (mk (t ++ [125] ++ rest) [true] true) (mk rest [] false) tb m nn (RestBody_Proofs.end_read e _ t rest M Hf) Lt I) as (tb' & n' & E & Lt').
    cbn [cinp ck ce] in E. rewrite E. reflexivity.
  - inversion Ok as [|p l (D & F & T & Tn) Ok']; subst. cbn [fst snd] in *. cbn [length] in Hn.
    destruct (member_read e any_char name v ms t rest M D F Hf) as (c1 & t' & M' & Lt' & Tk & Kc & R & Lv).
    destruct (tok_read e (TProp name) _ _ tb m nn Tk Lt Tn) as (tb1 & n1 & E & L1). cbn [cinp ck ce] in E. rewrite E. cbn [Http_Model.bind].
    assert (no_nul name) as Nn. { destruct Tn as (_ & Tn). apply Forall_forall. intros x Hx X. subst x. contradiction. }
    pose proof R as R0. rewrite <- (app_nil_r (tokens v)) in R0.
    rewrite (is_players name v "a" Nn ltac:(nn)). cbn [Http_Model.bind problem]. destruct (named "a" (name, v)) eqn:Na.
    + cbn [snd]. pose proof (rows_read v [] _ _ tb1 (Some tb1) n1 R0 L1 T) as H. destruct (two_rows v) as [r|].
      * destruct H as (c2 & tb2 & n2 & E2 & L2 & R2). rewrite E2. cbn [Http_Model.bind]. inversion R2; subst. cbn [cinp ck ce]. apply IH; auto; lia.
      * destruct H as (x & y & E2). rewrite E2. reflexivity.
    + rewrite (is_players name v "b" Nn ltac:(nn)). cbn [Http_Model.bind]. destruct (named "b" (name, v)) eqn:Nb.
      * cbn [snd]. pose proof (pair_read v [] _ _ tb1 (Some tb1) n1 R0 L1 T) as H. destruct (two_numbers v) as [r|].
        -- destruct H as (c2 & tb2 & n2 & E2 & L2 & R2). rewrite E2. cbn [Http_Model.bind]. inversion R2; subst. cbn [cinp ck ce]. apply IH; auto; lia.
        -- destruct H as (x & y & E2). rewrite E2. reflexivity.
      * destruct (val_skip e v c1 _ (Some tb1) n1 R) as (it & m' & n' & Es); [unfold levels; cbn [stk gst]; rewrite Kc; reflexivity|cbn; lia|exact Lv|]. rewrite Es. cbn [of_json Http_Model.bind cinp ck ce].
        apply IH; auto; lia.
Qed.
Hypothesis Se : sized e.
Lemma get_problem_spec : forall s bd v, hin s = bd -> body_says bd v -> readable v -> (length bd + 4 < e_fuel e)%nat -> get_problem e s = Http_Model.Ret (problem_in v).
Proof.
  intros s bd v Es B Rv Hf. destruct Se as (_ & St & _). unfold get_problem, json_reader. rewrite Es.
  change (reader 64 bd) with (gst 64 (cinp (mk bd [] false)) (ck (mk bd [] false)) (ce (mk bd [] false)) None []).
  destruct (value_run e bd v B Rv Hf) as (c' & R). destruct (first_token v) as (t & ts & Et & To & _). rewrite Et in R. apply run_first in R as (c1 & T & _).
  assert ((exists ms, v = JObj ms) \/ (forall ms, v <> JObj ms)) as [(ms & ->)|No].
  { destruct v; try (right; discriminate). left. eauto. }
  2: { pose proof Rv as (_ & _ & Ft). rewrite Et in Ft. destruct (tok_read e t _ _ (e_token e) None [] T St (Forall_inv Ft)) as (tb & n' & E & _). rewrite E. cbn [Http_Model.bind].
    assert (problem_in v = None) as -> by (destruct v; try reflexivity; exfalso; eapply No; reflexivity).
    destruct t; try reflexivity. exfalso. destruct (proj1 To eq_refl) as (ms & ->). apply (No ms). reflexivity. }
  destruct (object_split e bd ms B Hf) as (tx & rest & M & Hf' & Lt & Tb). destruct (tok_read e TBegO _ _ (e_token e) None [] Tb St I) as (tb & n' & E & L1). rewrite E. cbn [Http_Model.bind cinp ck ce].
  rewrite (problem_read ms tx rest _ None None tb _ _ M (members_plain ms Rv) Hf') by (first [exact L1 | pose proof (members_length _ _ _ M); lia]). cbn [Http_Model.bind]. rewrite problem_spec.
  unfold problem_in, said, all_said. f_equal. destruct (forallb is_some _); cbn [andb]; [|reflexivity]. destruct (forallb is_some _); [reflexivity|]. destruct (last _ None); reflexivity.
Qed.
End Reading.

(** ** Requests *)
Section Requests.
Context {F : Type}.
Variable N : numbers F.
Notation HN := Http_RoundTrip.N.
Variables (c : conn) (root : list Z) (e : env) (l m r : list Z).
Hypothesis Rd : ready c root.
Lemma line_read : forall p rest, l = m ++ [32] ++ r ++ [32] ++ p ++ CRLF ++ rest -> start_line_ok request m r p ->
  zlen m <= 32 -> zlen root + zlen r <= 2047 -> zlen p <= 16 ->
  exists x y g, read_line (c_config c) (c_mb c) (c_pb c) (c_qb c) l = Ret (m ++ 0 :: x, root ++ r ++ 0 :: y, HN header_name g rest) /\ no_nul m /\ no_nul r.
Proof.
  intros p rest El Ok Lm Lr Lp. pose proof Rd as (Hr & Ha & Hp & Hl).
  destruct (three_reads root _ _ _ Ha l) as (m' & r' & q & x & y & z & s1 & s2 & s3 & E1 & G1 & F1 & E2 & G2 & F2 & E3 & G3).
  destruct (rb_len root _ _ _ Ha) as (RL & RL'). pose proof Ha as (M & P & Qb & _ & R). unfold method_size, resource_size, protocol_size in *.
  pose proof (zlen_nonneg _ m). pose proof (zlen_nonneg _ r). pose proof (zlen_nonneg _ p).
  destruct (read_start request m r p (c_mb c) (0 :: drop (zlen root + 1) (c_pb c)) (c_qb c) [] rest Ok) as (g & E). { unfold start_room, room_for. lia. }
  assert (start_line_text request m r p ++ rest = l) as Et. { rewrite El. unfold start_line_text. rewrite <- !app_assoc. reflexivity. }
  rewrite Et in E. cbn [start_line_gets app read_calls bind] in E. rewrite E1 in E. cbn [bind] in E. rewrite E2 in E. cbn [bind] in E. rewrite E3 in E. cbn [bind] in E.
  rewrite G1, G2, G3, !take_app_exact in E. injection E as -> -> -> ->.
  exists x, y, g. split; [|split; apply text_no_nul; assumption].
  unfold read_line. rewrite E1. cbn [bind]. rewrite Hr. destruct (Z.ltb_spec (zlen (c_pb c)) (zlen root + 1)); [lia|]. rewrite E2. cbn [bind]. rewrite E3. reflexivity.
Qed.
(** *** Requests for files *)
Lemma serve_file : request_line root l m r -> file_asked (c_config c) m r ->
  serve_problem e N c l = process_request (c_config c) (c_fs c) true (c_mb c) (c_pb c) (c_qb c) l.
Proof.
  intros (p & rest & El & Ok & Lm & Lr & Lp) Fa. destruct (line_read p rest El Ok Lm Lr Lp) as (x & y & g & E & Nm & Nr). pose proof Rd as (Hr & Ha & Hp & Hl).
  unfold serve_problem, process_request. rewrite E. cbn [bind]. rewrite Hr, drop_app_exact.
  destruct (is_file (c_config c) m r x y Hp Nm Nr) as (v & Ev & Sv). rewrite Ev, (proj2 Sv Fa), Hl. reflexivity.
Qed.
Hypothesis Nf : ~ file_asked (c_config c) m r.

Lemma serve_line : forall p rest, l = m ++ [32] ++ r ++ [32] ++ p ++ CRLF ++ rest -> start_line_ok request m r p ->
  zlen m <= 32 -> zlen root + zlen r <= 2047 -> zlen p <= 16 ->
  exists x y g, no_nul m /\ no_nul r /\
    serve_problem e N c l = do rp <- process_problem e N (m ++ 0 :: x) (r ++ 0 :: y) (HN header_name g rest);
                            do w <- write_calls response (q_calls rp) (server_writer (q_stream rp) true);
                            Ret {| a_file := None; a_shut := q_shut rp; a_calls := q_calls rp; a_out := wout w |}.
Proof.
  intros p rest El Ok Lm Lr Lp. pose proof Rd as (Hr & Ha & Hp & Hl).
  destruct (line_read p rest El Ok Lm Lr Lp) as (x & y & g & E & Nm & Nr).
  exists x, y, g. split; [exact Nm|]. split; [exact Nr|].
  unfold serve_problem. rewrite E. cbn [bind]. rewrite Hr, drop_app_exact.
  destruct (is_file (c_config c) m r x y Hp Nm Nr) as (v & Ev & Sv). rewrite Ev. destruct v; [exfalso; apply Nf, Sv; reflexivity|]. rewrite Hl. reflexivity.
Qed.
Notation finish rp := (do w <- write_calls response (q_calls rp) (server_writer (q_stream rp) true);
                       Ret {| a_file := None; a_shut := q_shut rp; a_calls := q_calls rp; a_out := wout w |}).
Lemma sent_text : forall sh s (code reason text : string), is_good s = true ->
  forallb is_digit (b code) = true -> b code <> [] -> forallb is_abcprint_or_space (b reason) = true -> match b reason with c :: _ => is_abcprint c = true | [] => True end -> zlen (b text) < 2 ^ 64 ->
  exists a, finish {| q_shut := sh; q_calls := text_response code reason text; q_stream := s |} = Ret a /\ a_shut a = sh /\ text_reply (a_out a) code reason text.
Proof.
  intros sh s code reason text Gs D Nc R1 R2 Lt. cbn [q_calls q_stream q_shut]. rewrite (server_writer_good _ Gs). unfold text_response.
  destruct (simple_out (bytes_of_string code) (bytes_of_string reason) text_plain (bytes_of_string text) Nc (code_digits code D) (ok_text reason R1 R2) plain_sent Lt) as (w & W & O). rewrite W. cbn [bind]. eexists. split; [reflexivity|]. cbn. auto.
Qed.
Lemma sent_json : forall s t, is_good s = true -> zlen t < 2 ^ 64 ->
  exists a, finish {| q_shut := false; q_calls := json_response t; q_stream := s |} = Ret a /\ a_shut a = false /\ responds (a_out a) (b "200") (b "OK") (Some (b "application/json")) t.
Proof.
  intros s t Gs Lt. cbn [q_calls q_stream q_shut]. rewrite (server_writer_good _ Gs). unfold json_response.
  destruct (simple_out (bytes_of_string "200") (bytes_of_string "OK") application_json t ltac:(discriminate) ltac:(apply code_digits; reflexivity) ltac:(apply ok_text; reflexivity) json_sent Lt) as (w & W & O). rewrite W. cbn [bind]. eexists. split; [reflexivity|]. cbn. auto.
Qed.

(** *** Requests that do not reach the solver *)
Lemma line_reply : request_line root l m r ->
  (same_i m (b "POST") -> same_i r (b "/shutdown") -> exists a, serve_problem e N c l = Ret a /\ a_shut a = true /\ text_reply (a_out a) "200" "OK" "Server is shuting down...") /\
  (~ (same_i m (b "POST") /\ same_i r (b "/shutdown")) -> ~ same_i r (b "/problem") -> exists a, serve_problem e N c l = Ret a /\ a_shut a = false /\ text_reply (a_out a) "404" "Not Found" "The requested resource was not found.") /\
  (same_i r (b "/problem") -> ~ same_i m (b "POST") -> exists a, serve_problem e N c l = Ret a /\ a_shut a = false /\ text_reply (a_out a) "405" "Method Not Allowed" "POST is the only supported method for resource '/problem'.").
Proof.
  intros (p & rest & El & Ok & Lm & Lr & Lp). destruct (serve_line p rest El Ok Lm Lr Lp) as (x & y & g & Nm & Nr & E). rewrite E.
  destruct (equals_i_spec m x "POST" Nm ltac:(nn)) as (u & Eu & Su). destruct (equals_i_spec r y "/shutdown" Nr ltac:(nn)) as (v & Ev & Sv). destruct (equals_i_spec r y "/problem" Nr ltac:(nn)) as (w & Ew & Sw).
  unfold process_problem. rewrite Eu, Ev, Ew. cbn [bind]. split; [|split].
  - intros Pm Sr. rewrite (proj2 Su Pm). cbn [bind]. rewrite (proj2 Sv Sr). apply sent_text; try reflexivity; discriminate.
  - intros Ns Np. destruct w; [exfalso; apply Np, Sw; reflexivity|]. replace (if u then Ret v else Ret false) with (@Ret bool false).
    + cbn [bind negb]. apply sent_text; try reflexivity; discriminate.
    + destruct u; [|reflexivity]. destruct v; [|reflexivity]. exfalso. apply Ns. split; [apply Su|apply Sv]; reflexivity.
  - intros Sr Np. destruct u; [exfalso; apply Np, Su; reflexivity|]. cbn [bind]. rewrite (proj2 Sw Sr). cbn [negb]. apply sent_text; try reflexivity; discriminate.
Qed.

(** *** Requests to the solver *)
Variables (hs : list hline) (bd : list Z).
Hypothesis Se : sized e.
Hypothesis Q : full_request root l m r hs bd.
Hypothesis Pm : same_i m (b "POST").
Hypothesis Sr : same_i r (b "/problem").
Hypothesis Fh : Forall header_fits hs.
Lemma serve_headers : exists g, serve_problem e N c l =
  do rp <- (do (bad, s) <- read_headers e (HN header_name g (header_lines hs ++ CRLF ++ bd));
            match bad with
            | _ :: _ => Ret {| q_shut := false; q_calls := bad; q_stream := s |}
            | [] => do p <- get_problem e s;
                    match p with
                    | None => Ret {| q_shut := false; q_calls := invalid_problem; q_stream := s |}
                    | Some p => do t <- solution_text e N p; Ret {| q_shut := false; q_calls := json_response t; q_stream := s |}
                    end
            end);
  finish rp.
Proof.
  destruct Q as (p & El & Ok & Lm & Lr & Lp). destruct (serve_line p _ El Ok Lm Lr Lp) as (x & y & g & Nm & Nr & E). exists g. rewrite E. unfold process_problem.
  destruct (equals_i_spec m x "POST" Nm ltac:(nn)) as (u & -> & Su). destruct (equals_i_spec r y "/shutdown" Nr ltac:(nn)) as (v & -> & Sv). destruct (equals_i_spec r y "/problem" Nr ltac:(nn)) as (w & -> & Sw).
  cbn [bind]. rewrite (proj2 Su Pm), (proj2 Sw Sr). cbn [bind]. destruct v; [|reflexivity]. exfalso. pose proof (proj1 Sv eq_refl) as S1. unfold same_i in Sr, S1. rewrite Sr in S1. discriminate S1.
Qed.
Lemma calls_match : forall A (code reason text : string) (f g : A), match text_response code reason text with _ :: _ => f | [] => g end = f.
Proof. reflexivity. Qed.
Lemma type_refused :
  (other_type hs -> exists a, serve_problem e N c l = Ret a /\ a_shut a = false /\ text_reply (a_out a) "400" "Bad Request" "'application/json' is the only supported Content-Type.") /\
  (two_types hs -> exists a, serve_problem e N c l = Ret a /\ a_shut a = false /\ text_reply (a_out a) "400" "Bad Request" "The Content-Type header was supplied more than once.").
Proof.
  destruct serve_headers as (g & E). rewrite E. unfold read_headers. split; intros T.
  - destruct (verify_other e Se hs _ g bd Fh T (enough hs g bd)) as (s & Gs & ->). cbn [bind]. rewrite calls_match. apply sent_text; try reflexivity; [exact Gs|discriminate].
  - destruct (verify_two e Se hs _ g bd Fh T (enough hs g bd)) as (s & Gs & ->). cbn [bind]. rewrite calls_match. apply sent_text; try reflexivity; [exact Gs|discriminate].
Qed.
(** A body that is a string without its end. *)
Lemma problem_loops : forall p, bd = 34 :: p -> json_type hs \/ no_type hs -> Json_Spec.unquoted p -> zlen p <= 1030 -> serve_problem e N c l = Loop.
Proof.
  intros p Eb T U Lp. destruct serve_headers as (g & E). rewrite E. unfold read_headers.
  assert (exists o, verify_header_json e (S (length (hin (HN header_name g (header_lines hs ++ CRLF ++ bd))))) 0 false (HN header_name g (header_lines hs ++ CRLF ++ bd)) = Ret (o, HN body 0 bd) /\ match o with Some calls => calls | None => [] end = []) as (o & -> & Eo).
  { destruct T as [T|T]; [exists (Some []); rewrite (verify_json e Se hs _ g bd Fh T (enough hs g bd))|exists None; rewrite (verify_none e Se hs _ g bd Fh T (enough hs g bd))]; auto. }
  cbn [bind]. rewrite Eo, Eb. unfold get_problem, get_token. change (json_reader (HN body 0 (34 :: p))) with (Json_Model.reader 64 (34 :: p)).
  destruct Se as (_ & St & _). rewrite (Json_Props.C04_unterminated_refuted p 64 (e_token e) U) by lia. reflexivity.
Qed.
Lemma solve_status : forall (o : Equations_Model.arith F) a00 a01 a10 a11 b0 b1, 0 <= fst (fst (Equations_Model.solve o a00 a01 a10 a11 b0 b1)) <= 2.
Proof. intros. unfold Equations_Model.solve. destruct (negb _); [cbn; lia|]. destruct (_ || _); cbn; lia. Qed.
Hypothesis Np : forall z, no_nul (n_print N z) /\ zlen (n_print N z) <= 25.
Lemma text_of : forall a00 a01 a10 a11 b0 b1 st x y,
  Equations_Model.solve (n_arith N) (n_atof N a00) (n_atof N a01) (n_atof N a10) (n_atof N a11) (n_atof N b0) (n_atof N b1) = (st, x, y) ->
  solution_text e N ((a00, a01), (a10, a11), (b0, b1)) = Ret (compact (solution st (n_print N x) (n_print N y))) /\ zlen (compact (solution st (n_print N x) (n_print N y))) < 1025 /\ 0 <= st <= 2.
Proof.
  intros a00 a01 a10 a11 b0 b1 st x y H. pose proof (solve_status (n_arith N) (n_atof N a00) (n_atof N a01) (n_atof N a10) (n_atof N a11) (n_atof N b0) (n_atof N b1)) as Hs. rewrite H in Hs. cbn [fst] in Hs.
  unfold solution_text. rewrite H. destruct (Np x) as (Nx & Lx). destruct (Np y) as (Ny & Ly).
  assert (zlen (compact (solution st (n_print N x) (n_print N y))) < 1025) as L.
  { unfold zlen in *. unfold solution. cbn [compact map join_with]. unfold quoted, jint. cbn [compact]. repeat (rewrite app_length || cbn [length]).
    pose proof (decimal_len st 1 ltac:(change (10 ^ Z.of_nat 1) with 10; lia) ltac:(lia)). change (length (b "status")) with 6%nat. change (length (b "x")) with 1%nat. change (length (b "y")) with 1%nat. lia. }
  split; [|split; [exact L|exact Hs]]. apply (json_text_ok _ (solution st (n_print N x) (n_print N y))); [cbn; lia| |].
  - destruct Se as (_ & _ & Sb). rewrite Sb by lia. lia.
  - unfold solution. repeat constructor; try (cbn [tok_nn]; nn); [apply decimal_nn; lia|exact Nx|exact Ny].
Qed.
Lemma problem_reply : forall v, json_type hs \/ no_type hs -> body_says bd v -> readable v -> (length bd + 4 < e_fuel e)%nat ->
  exists a, serve_problem e N c l = Ret a /\ a_shut a = false /\
    (problem_in v = None -> text_reply (a_out a) "400" "Bad Request" "An invalid JSON payload was supplied. Must be {""a"": [ [1, 2], [3, 4] ], ""b"": [5, 6] }.") /\
    (forall a00 a01 a10 a11 b0 b1 st x y, problem_in v = Some ((a00, a01), (a10, a11), (b0, b1)) ->
       Equations_Model.solve (n_arith N) (n_atof N a00) (n_atof N a01) (n_atof N a10) (n_atof N a11) (n_atof N b0) (n_atof N b1) = (st, x, y) ->
       responds (a_out a) (b "200") (b "OK") (Some (b "application/json")) (compact (solution st (n_print N x) (n_print N y))) /\
       (Json_Spec.number_text (n_print N x) -> Json_Spec.number_text (n_print N y) -> json_ok (a_out a) (solution st (n_print N x) (n_print N y)))).
Proof.
  intros v T B Rv Hf. destruct serve_headers as (g & E). rewrite E. unfold read_headers.
  assert (exists o, verify_header_json e (S (length (hin (HN header_name g (header_lines hs ++ CRLF ++ bd))))) 0 false (HN header_name g (header_lines hs ++ CRLF ++ bd)) = Ret (o, HN body 0 bd) /\ match o with Some calls => calls | None => [] end = []) as (o & -> & Eo).
  { destruct T as [T|T]; [exists (Some []); rewrite (verify_json e Se hs _ g bd Fh T (enough hs g bd))|exists None; rewrite (verify_none e Se hs _ g bd Fh T (enough hs g bd))]; auto. }
  cbn [bind]. rewrite Eo, (get_problem_spec e Se (HN body 0 bd) bd v eq_refl B Rv Hf). cbn [bind]. destruct (problem_in v) as [[[[a00 a01] [a10 a11]] [b0 b1]]|].
  - destruct (Equations_Model.solve (n_arith N) (n_atof N a00) (n_atof N a01) (n_atof N a10) (n_atof N a11) (n_atof N b0) (n_atof N b1)) as [[st x] y] eqn:Es.
    destruct (text_of _ _ _ _ _ _ _ _ _ Es) as (Et & Lt & Hs). rewrite Et. cbn [bind]. destruct (sent_json (HN body 0 bd) (compact (solution st (n_print N x) (n_print N y))) eq_refl ltac:(lia)) as (a & A1 & A2 & A3).
    exists a. split; [exact A1|]. split; [exact A2|]. split; [discriminate|]. intros ? ? ? ? ? ? st' x' y' P Es'. injection P as <- <- <- <- <- <-. rewrite Es in Es'. injection Es' as <- <- <-. split; [exact A3|].
    intros Tx Ty. split; [exact A3|]. apply obj_val. constructor; [split; [apply name_fair; reflexivity|apply int_val; lia]|]. constructor; [split; [apply name_fair; reflexivity|constructor; exact Tx]|].
    constructor; [split; [apply name_fair; reflexivity|constructor; exact Ty]|constructor].
  - unfold invalid_problem. destruct (sent_text false (HN body 0 bd) "400" "Bad Request" "An invalid JSON payload was supplied. Must be {""a"": [ [1, 2], [3, 4] ], ""b"": [5, 6] }." eq_refl eq_refl ltac:(discriminate) eq_refl eq_refl ltac:(reflexivity)) as (a & A1 & A2 & A3).
    exists a. split; [exact A1|]. split; [exact A2|]. split; [auto|]. discriminate.
Qed.
End Requests.
