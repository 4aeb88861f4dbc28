(** Proofs for C69 and C72, second part: what the servers answer to requests with JSON bodies. *)

From Coq Require Import String ZArith QArith Qround List Bool Lia.
From Verif Require Import Base ListMem Ascii_Model Ascii_Spec Table_Model Http_Model Http_Calls Http_Spec Endpoint_Model Endpoint_Spec Rest_Model Rest_Spec RestBody_Spec.
From Verif Require Import Http_Proofs Http_Order Http_RoundTrip Endpoint_Proofs Ascii_Proofs Rest_Games Rest_Json Rest_Proofs Rest_Replies Rest_Any Rest_Headers RestBody_Proofs.
From Verif Require Json_Model Json_Spec Json_Proofs Json_Writer Json_Safety Json_Final.
Import ListNotations.
Open Scope string_scope.
Open Scope list_scope.
Open Scope Z_scope.

(** ** What is read from a body *)
Section Bodies.
Import Json_Model Json_Spec Json_Proofs.
Variable e : env.
Hypothesis Se : sized e.

Lemma value_run : forall body v, body_says body v -> readable v -> (length body + 4 < e_fuel e)%nat -> exists c', Run (e_fuel e) 64 0 (tokens v) (mk body [] false) c'.
Proof.
  intros bd v (w & t & rest & -> & W & V & N) (D & F & T) Hf. exists (mk rest [] (top [])).
  apply (proj1 (run_val_all any_char) v t V (e_fuel e) 64 w rest rest [] false eq_refl W eq_refl); [|change (zlen []) with 0; lia|exact F|rewrite !app_length in Hf; lia].
  intros Hv. apply Json_Final.over_end, N, Hv.
Qed.
Lemma object_split : forall body ms, body_says body (JObj ms) -> (length body + 4 < e_fuel e)%nat -> exists t rest,
  members any_char ms t /\ (length t + length rest + 4 < e_fuel e)%nat /\ (length t <= length body)%nat /\ TokR (e_fuel e) 64 TBegO (mk body [] false) (mk (t ++ [125] ++ rest) [true] true).
Proof.
  intros bd ms (w & t & rest & -> & W & V & _) Hf. inversion V as [| | | | | |l t0 M]; subst. repeat (rewrite app_length in Hf || cbn [length] in Hf). exists t0, rest. split; [exact M|]. split; [lia|]. split; [repeat (rewrite app_length || cbn [length]); lia|].
  rewrite <- !app_assoc. apply (tok_begin true w (t0 ++ [125] ++ rest) (e_fuel e) 64 [] false eq_refl W); [reflexivity|lia].
Qed.
Lemma members_length : forall plain ms t, members plain ms t -> (length ms <= length t)%nat.
Proof.
  intros plain. induction ms as [|p ms IH]; intros t M; [cbn; lia|]. inversion M; subst; cbn [length].
  - repeat (rewrite app_length || cbn [length]). lia.
  - match goal with M' : members plain (_ :: _) ?t' |- _ => specialize (IH t' M') end. repeat (rewrite app_length || cbn [length] in * ). lia.
Qed.
Lemma type_read : forall s, no_nul s -> (exists t, from_text s = Http_Model.Ret (Some t) /\ s = type_name t) \/ from_text s = Http_Model.Ret None /\ forall t, s <> type_name t.
Proof.
  intros s Ns. unfold from_text.
  destruct (equals_spec s [] "external" Ns ltac:(nn)) as (v1 & -> & S1). cbn [Http_Model.bind]. destruct v1; [left; exists external; split; [reflexivity|apply S1; reflexivity]|].
  destruct (equals_spec s [] "slow_engine" Ns ltac:(nn)) as (v2 & -> & S2). cbn [Http_Model.bind]. destruct v2; [left; exists slow_engine; split; [reflexivity|apply S2; reflexivity]|].
  destruct (equals_spec s [] "fast_engine" Ns ltac:(nn)) as (v3 & -> & S3). cbn [Http_Model.bind]. destruct v3; [left; exists fast_engine; split; [reflexivity|apply S3; reflexivity]|].
  right. split; [reflexivity|]. intros [| |] ->; [destruct S1 as (_ & X)|destruct S2 as (_ & X)|destruct S3 as (_ & X)]; discriminate (X eq_refl).
Qed.
(** The two players have no null. *)
Lemma players_nn : forall v x o, readable v -> players_in v = Some (x, o) -> no_nul x /\ no_nul o.
Proof.
  intros [| | | | |ms] x o (_ & _ & T) H; try discriminate H. cbn [players_in tokens] in *. apply Forall_inv_tail in T. apply Forall_app in T as (T & _).
  destruct (forallb is_some _); [|discriminate H]. revert H. set (ps := map _ _). intros H.
  assert (In (Some (x, o)) ps) as I. { clear - H. induction ps as [|a l IH]; [discriminate H|]. destruct l as [|c l]; [left; exact H|right; apply IH, H]. }
  unfold ps in I. apply in_map_iff in I as ([n v] & E & I). apply filter_In in I as (I & _). cbn [snd] in E.
  assert (v = JArr [JStr x; JStr o]) as ->. { destruct v as [| | | |[|[] [|[] [|]]]|]; try discriminate E. injection E as -> ->. reflexivity. }
  assert (forall t, In t [TStr x; TStr o] -> tok_fits 1041 t) as Q.
  { intros t It. rewrite Forall_forall in T. apply T. apply in_flat_map. exists (n, JArr [JStr x; JStr o]). split; [exact I|]. cbn [tokens flat_map app]. destruct It as [<-|[<-|[]]]; cbn; auto. }
  split; apply Forall_forall; intros c Hc ->; [destruct (Q (TStr x) ltac:(left; reflexivity)) as (_ & Q')|destruct (Q (TStr o) ltac:(right; left; reflexivity)) as (_ & Q')]; contradiction.
Qed.

Inductive types_found (v : jv) : Http_Model.hres (found (ptype * ptype)) -> Prop :=
| tf_none : players_in v = None -> types_found v (Http_Model.Ret (Refuse invalid_players))
| tf_bad : forall x o, players_in v = Some (x, o) -> (forall t, x <> type_name t) \/ (forall t, o <> type_name t) -> types_found v (Http_Model.Ret (Refuse invalid_type))
| tf_ok : forall xt ot, players_in v = Some (type_name xt, type_name ot) -> types_found v (Http_Model.Ret (Found (xt, ot))).
Lemma types_read : forall s body v, hin s = body -> body_says body v -> readable v -> short_players v -> (length body + 4 < e_fuel e)%nat -> types_found v (get_player_types e s).
Proof.
  intros s bd v Es B Rv Sh Hf. destruct Se as (_ & St & _). unfold get_player_types, json_reader. rewrite Es.
  change (reader 64 bd) with (gst 64 (cinp (mk bd [] false)) (ck (mk bd [] false)) (ce (mk bd [] false)) None []).
  destruct (value_run bd v B Rv Hf) as (c' & R). destruct (first_token v) as (t & ts & Et & To & _). rewrite Et in R. apply run_first in R as (c1 & T & _).
  assert ((exists ms, v = JObj ms) \/ (forall ms, v <> JObj ms)) as [(ms & ->)|No].
  { destruct v; try (right; discriminate). left. eauto. }
  2: { pose proof Rv as (_ & _ & Ft). rewrite Et in Ft. destruct (tok_read e t _ _ (e_token e) None [] T St (Forall_inv Ft)) as (tb & n' & E & _). rewrite E. cbn [Http_Model.bind].
    assert (players_in v = None) as Pn. { destruct v; try reflexivity. exfalso. eapply No. reflexivity. }
    destruct t; try (apply tf_none; exact Pn). exfalso. destruct (proj1 To eq_refl) as (ms & ->). apply (No ms). reflexivity. }
  destruct (object_split bd ms B Hf) as (tx & rest & M & Hf' & Lt & Tb). destruct (tok_read e TBegO _ _ (e_token e) None [] Tb St I) as (tb & n' & E & L1). rewrite E. cbn [Http_Model.bind cinp ck ce].
  rewrite (players_read e ms tx rest (S (length bd)) None tb (Some tb) n' M (readable_members ms Rv Sh) Hf' ltac:(pose proof (members_length _ _ _ M); lia) L1). cbn [Http_Model.bind].
  pose proof (gathered_spec ms None) as G. cbv zeta in G. assert (players_in (JObj ms) = match gathered None ms with Some (Some x) => Some x | _ => None end) as Pi.
  { rewrite G. cbn [players_in]. destruct (forallb is_some _); [|reflexivity]. destruct (last _ None); reflexivity. }
  destruct (gathered None ms) as [[[x o]|]|]; [|apply tf_none, Pi..].
  destruct (players_nn _ _ _ Rv Pi) as (Nx & No).
  destruct (type_read x Nx) as [(xt & -> & Ex)|(-> & Bx)]; cbn [Http_Model.bind]; [|eapply tf_bad; [exact Pi|left; exact Bx]].
  destruct (type_read o No) as [(ot & -> & Eo)|(-> & Bo)]; cbn [Http_Model.bind]; [|eapply tf_bad; [exact Pi|right; exact Bo]].
  apply tf_ok. rewrite Pi, Ex, Eo. reflexivity.
Qed.

Definition move_found (K : kind) (v : jv) : option (Z * Z) :=
  match move_in v with
  | None => None
  | Some (x, y) => match e_atof e x, e_atof e y with Some p, Some q => if k_row K p && k_col K q then Some (Qfloor p, Qfloor q) else None | _, _ => None end
  end.
Lemma name_step : forall name v ms tb c c1 t rest (s : String.string) m n, no_nul (b s) -> members any_char ((name, v) :: ms) t -> c = mk (t ++ [125] ++ rest) [true] true ->
  TokR (e_fuel e) 64 (TProp name) c c1 -> zlen tb = 1041 -> tok_fits 1041 (TProp name) ->
  exists tb' n', read_name e s tb (gst 64 (cinp c) (ck c) (ce c) m n) = Http_Model.Ret (if named s (name, v) then Some (tb', gst 64 (cinp c1) (ck c1) (ce c1) (Some tb') n') else None) /\ zlen tb' = 1041.
Proof.
  intros name v ms tb c c1 t rest s m n Ns M _ T Lt F. destruct (tok_read e _ _ _ tb m n T Lt F) as (tb' & n' & E & L1). exists tb', n'. split; [|exact L1]. unfold read_name. rewrite E. cbn [Http_Model.bind].
  assert (no_nul name) as Nn. { destruct F as (_ & F). apply Forall_forall. intros x Hx ->. contradiction. }
  rewrite (is_players name v s Nn Ns). cbn [Http_Model.bind]. destruct (named s (name, v)); reflexivity.
Qed.
Lemma coordinate_step : forall range v c c' tb m n, Run (e_fuel e) 64 1 (tokens v) c c' -> zlen tb = 1041 -> Forall (tok_fits 1041) (tokens v) ->
  (exists d q, v = JNum d /\ e_atof e d = Some q /\ range q = true /\ exists tb' n', read_coordinate e range tb (gst 64 (cinp c) (ck c) (ce c) m n) = Http_Model.Ret (Some (Qfloor q, tb', gst 64 (cinp c') (ck c') (ce c') (Some tb') n')) /\ zlen tb' = 1041) \/
  (forall d q, v = JNum d -> e_atof e d = Some q -> range q = false) /\ read_coordinate e range tb (gst 64 (cinp c) (ck c) (ce c) m n) = Http_Model.Ret None.
Proof.
  intros range v c c' tb m n R Lt F. destruct (first_token v) as (t & ts & Et & _ & _ & _ & Tn). rewrite Et in R, F. apply run_first in R as (c1 & T & R). destruct (tok_read e t _ _ tb m n T Lt (Forall_inv F)) as (tb' & n' & E & L1).
  unfold read_coordinate. rewrite E. cbn [Http_Model.bind]. destruct t; try (right; split; [intros d q Hd; apply Tn in Hd; discriminate|reflexivity]).
  pose proof (proj1 (Tn text) eq_refl) as ->. cbn [tokens] in Et. injection Et as <-. inversion R; subst. destruct (e_atof e text) as [q|] eqn:Ea.
  - destruct (range q) eqn:Er.
    + left. exists text, q. split; [reflexivity|]. split; [exact Ea|]. split; [exact Er|]. exists tb', n'. split; [reflexivity|exact L1].
    + right. split; [|reflexivity]. intros d q' Hd Hq. injection Hd as <-. rewrite Ea in Hq. injection Hq as <-. exact Er.
  - right. split; [|reflexivity]. intros d q' Hd Hq. injection Hd as <-. congruence.
Qed.
Lemma name_end : forall tb c c1 (s : String.string) m n, TokR (e_fuel e) 64 TEndO c c1 -> zlen tb = 1041 -> read_name e s tb (gst 64 (cinp c) (ck c) (ce c) m n) = Http_Model.Ret None.
Proof. intros tb c c1 s m n T Lt. destruct (tok_read e _ _ _ tb m n T Lt I) as (tb' & n' & E & L1). unfold read_name. rewrite E. reflexivity. Qed.
Lemma row_only : forall K name v ms, (forall d, v <> JNum d) -> move_found K (JObj ((name, v) :: ms)) = None.
Proof. intros K name v ms N. unfold move_found. cbn [move_in]. destruct v; try reflexivity. exfalso. eapply N. reflexivity. Qed.
Lemma move_read : forall K s body v, hin s = body -> body_says body v -> readable v -> (length body + 4 < e_fuel e)%nat -> @read_move K e s = Http_Model.Ret (move_found K v).
Proof.
  intros K s bd v Es B Rv Hf. destruct Se as (_ & St & _). unfold read_move, json_reader. rewrite Es.
  change (reader 64 bd) with (gst 64 (cinp (mk bd [] false)) (ck (mk bd [] false)) (ce (mk bd [] false)) None []).
  destruct (value_run bd v B Rv Hf) as (c' & R). destruct (first_token v) as (t & ts & Et & To & _). rewrite Et in R. apply run_first in R as (c1 & T & _).
  assert ((exists ms, v = JObj ms) \/ (forall ms, v <> JObj ms)) as [(ms & ->)|No].
  { destruct v; try (right; discriminate). left. eauto. }
  2: { pose proof Rv as (_ & _ & Ft). rewrite Et in Ft. destruct (tok_read e t _ _ (e_token e) None [] T St (Forall_inv Ft)) as (tb & n' & E & _). rewrite E. cbn [Http_Model.bind].
    assert (move_found K v = None) as Pn. { destruct v; try reflexivity. exfalso. eapply No. reflexivity. } rewrite Pn.
    destruct t; try reflexivity. exfalso. destruct (proj1 To eq_refl) as (ms & ->). apply (No ms). reflexivity. }
  destruct (object_split bd ms B Hf) as (tx & rest & M & Hf' & Lt & Tb). destruct (tok_read e TBegO _ _ (e_token e) None [] Tb St I) as (tb & n' & E & L1). rewrite E. cbn [Http_Model.bind].
  assert (Forall (fun p => 1 + depth (snd p) <= 64 /\ Forall num_fits (tokens (snd p)) /\ Forall (tok_fits 1041) (tokens (snd p)) /\ tok_fits 1041 (TProp (fst p))) ms) as Ok.
  { clear - Rv. destruct Rv as (D & F & T). cbn [depth tokens] in *. apply Forall_inv_tail in F, T. apply Forall_app in F as (F & _). apply Forall_app in T as (T & _).
    revert D F T. induction ms as [|[n v] ms IH]; intros D F T; [constructor|]. cbn [map fold_right flat_map app] in *.
    apply Forall_inv_tail in F as F'. apply Forall_app in F' as (F1 & F2). pose proof (Forall_inv T) as T0. apply Forall_inv_tail in T as T'. apply Forall_app in T' as (T1 & T2).
    constructor; [cbn [fst snd]; split; [lia|]; split; [exact F1|]; split; [exact T1|exact T0]|]. apply IH; auto. lia. }
  clear E T B Rv Et To. destruct ms as [|[n1 v1] ms].
  { rewrite (name_end tb _ _ "row" (Some tb) n' (end_read e _ tx rest M Hf') L1). reflexivity. }
  inversion Ok as [|? ? (D1 & F1 & T1 & N1) Ok1]; subst. cbn [fst snd] in *.
  destruct (member_read e any_char n1 v1 ms tx rest M D1 F1 Hf') as (c2 & t1 & M1 & Lt1 & Tk1 & Kc1 & R1 & _).
  destruct (name_step n1 v1 ms tb _ _ tx rest "row" (Some tb) n' ltac:(nn) M eq_refl Tk1 L1 N1) as (tb2 & n2 & E2 & L2). rewrite E2. cbn [Http_Model.bind].
  assert (named "row" (n1, v1) = false -> move_found K (JObj ((n1, v1) :: ms)) = None) as Bad1.
  { intros Q. change (named "row" (n1, v1)) with (named "row" (n1, JNull)) in Q. unfold move_found. cbn [move_in]. destruct v1; try reflexivity. destruct ms as [|[? []] ms]; try reflexivity. rewrite Q. reflexivity. }
  destruct (named "row" (n1, v1)) eqn:Nr; [clear Bad1|rewrite (Bad1 eq_refl); reflexivity]. change (named "row" (n1, JNull) = true) in Nr.
  destruct (coordinate_step (k_row K) v1 _ _ tb2 (Some tb2) n2 R1 L2 T1) as [(d & q & -> & Eq & Rq & tb3 & n3 & E3 & L3)|(Bad & E3)]; rewrite E3; cbn [Http_Model.bind].
  2: { f_equal. unfold move_found. cbn [move_in]. destruct v1 as [| |d| | |]; try reflexivity. destruct ms as [|[n3 [| |d2| | |]] ms]; try reflexivity. destruct (_ && _); [|reflexivity].
       destruct (e_atof e d) as [q|] eqn:Eq; [|reflexivity]. rewrite (Bad d q eq_refl Eq). destruct (e_atof e d2); reflexivity. }
  destruct ms as [|[n4 v2] ms].
  { rewrite (name_end tb3 _ _ "col" (Some tb3) n3 (end_read e _ t1 rest M1 ltac:(lia)) L3). reflexivity. }
  inversion Ok1 as [|? ? (D2 & F2 & T2 & N2) Ok2]; subst. cbn [fst snd] in *.
  destruct (member_read e any_char n4 v2 ms t1 rest M1 D2 F2 ltac:(lia)) as (c3 & t2 & M2 & Lt2 & Tk2 & Kc2 & R2 & _).
  destruct (name_step n4 v2 ms tb3 _ _ t1 rest "col" (Some tb3) n3 ltac:(nn) M1 eq_refl Tk2 L3 N2) as (tb5 & n5 & E5 & L5). rewrite E5. cbn [Http_Model.bind].
  change (named "col" (n4, v2)) with (named "col" (n4, JNull)). destruct (named "col" (n4, JNull)) eqn:Nc.
  2: { f_equal. unfold move_found. cbn [move_in]. destruct v2; try reflexivity. rewrite Nc, andb_false_r. reflexivity. }
  destruct (coordinate_step (k_col K) v2 _ _ tb5 (Some tb5) n5 R2 L5 T2) as [(d2 & q2 & -> & Eq2 & Rq2 & tb6 & n6 & E6 & L6)|(Bad & E6)]; rewrite E6; cbn [Http_Model.bind]; f_equal; unfold move_found; cbn [move_in].
  - rewrite Nr, Nc. cbn [andb]. rewrite Eq, Eq2, Rq, Rq2. reflexivity.
  - destruct v2 as [| |d2| | |]; try reflexivity. rewrite Nr, Nc. cbn [andb]. rewrite Eq. destruct (e_atof e d2) as [q2|] eqn:Eq2; [|reflexivity]. rewrite (Bad d2 q2 eq_refl Eq2), andb_false_r. reflexivity.
Qed.
End Bodies.

(** ** Ends of requests *)
Section Done.
Context {K : kind}.
Implicit Types sv : server K.
Notation finish calls s sv := (do w <- write_calls response calls (server_writer s true); Ret ({| a_file := None; a_shut := false; a_calls := calls; a_out := wout w |}, sv)).
Lemma text_done : forall sv s (code reason text : string), is_good s = true ->
  forallb is_digit (b code) = true -> b code <> [] -> forallb is_abcprint_or_space (b reason) = true -> match b reason with c :: _ => is_abcprint c = true | [] => True end -> zlen (b text) < 2 ^ 64 ->
  exists a, finish (text_response code reason text) s sv = Ret (a, sv) /\ a_shut a = false /\ text_reply (a_out a) code reason text.
Proof.
  intros sv s code reason text Gs D Nc R1 R2 Lt.
  destruct (rest_answer {| r_server := sv; r_shut := false; r_calls := text_response code reason text; r_stream := s |} _ _ _ _ Gs eq_refl Nc (code_digits code D) (ok_text reason R1 R2) plain_sent Lt) as (a & A1 & A2 & _ & A3).
  exists a. auto.
Qed.
Lemma json_done : forall sv s v, is_good s = true -> zlen (compact v) < 2 ^ 64 -> Json_Spec.val Json_Spec.rfc_char v (compact v) ->
  exists a, finish (json_response (compact v)) s sv = Ret (a, sv) /\ a_shut a = false /\ json_ok (a_out a) v.
Proof.
  intros sv s v Gs Lt V.
  destruct (rest_answer {| r_server := sv; r_shut := false; r_calls := json_response (compact v); r_stream := s |} _ _ _ _ Gs eq_refl ltac:(discriminate) ltac:(apply code_digits; reflexivity) ltac:(apply ok_text; reflexivity) json_sent Lt) as (a & A1 & A2 & _ & A3).
  exists a. unfold json_ok. auto.
Qed.
End Done.
Lemma rand_drawn : forall e n, rand_id e n = drawn (e_rand e) n.
Proof.
  intros e n. unfold rand_id, drawn, wrap_u32. change 65535 with (Z.ones 16). rewrite !Z.land_ones, Z.shiftl_mul_pow2 by lia. change (2 ^ 16) with 65536.
  pose proof (Z.mod_pos_bound (e_rand e n) 65536 ltac:(lia)) as A. pose proof (Z.mod_pos_bound (e_rand e (S n)) 65536 ltac:(lia)) as B.
  set (x := e_rand e n mod 65536) in *. set (y := e_rand e (S n) mod 65536) in *.
  assert (Z.land (x * 65536) y = 0) as Z0.
  { apply Z.bits_inj'. intros k Hk. rewrite Z.land_spec, Z.bits_0. change 65536 with (2 ^ 16). destruct (Z.ltb_spec k 16) as [H|H].
    - rewrite Z.mul_pow2_bits_low by lia. reflexivity.
    - replace y with (y mod 2 ^ 16) by (apply Z.mod_small; lia). rewrite Z.mod_pow2_bits_high by lia. apply andb_false_r. }
  rewrite <- (Z.lxor_lor _ _ Z0), <- (Z.add_nocarry_lxor _ _ Z0). apply Z.mod_small. lia.
Qed.

Section Replies.
Variables (K : kind) (R : rules K) (rep : k_board K -> list (Z * Z) -> Prop).
Hypothesis L : laws K R rep.
Implicit Types sv : server K.

Lemma slot_found : forall sv, server_ok K rep sv ->
  (exists g, In g (s_games sv) /\ k_over K (g_board g) = false /\ find_slot (s_games sv) = None) \/
  (forall g, In g (s_games sv) -> k_over K (g_board g) = true) /\ exists games i ms, find_slot (s_games sv) = Some (games, i, ms) /\ forall g', set_game games i g' = [g'].
Proof.
  intros sv (N & _). unfold max_game_count in N. destruct (s_games sv) as [|g [|g1 l]]; [| |cbn [length] in N; lia].
  - right. split; [intros g []|]. eexists _, _, _. split; [reflexivity|]. reflexivity.
  - destruct (k_over K (g_board g)) eqn:O.
    + right. split; [intros g' [<-|[]]; exact O|]. exists [g], 0%nat, (g_moves g). split; [|reflexivity]. unfold find_slot. cbn [length first_over]. change (1 <? max_game_count)%nat with false. cbv iota. rewrite O. reflexivity.
    + left. exists g. split; [left; reflexivity|]. split; [exact O|]. unfold find_slot. cbn [length first_over]. change (1 <? max_game_count)%nat with false. cbv iota. rewrite O. reflexivity.
Qed.
Lemma new_fresh : forall e n ms xt ot id x o, id = drawn (e_rand e) n -> x = (match xt with external => drawn (e_rand e) (2 + n) | _ => 0 end) ->
  o = (match ot with external => drawn (e_rand e) (match xt with external => 4 + n | _ => 2 + n end) | _ => 0 end) -> fresh_game R (game_reset ms id xt x ot o) (e_rand e) n xt ot.
Proof.
  intros e n ms xt ot id x o Ei Ex Eo. unfold fresh_game. assert (g_id (game_reset (K := K) ms id xt x ot o) = id /\ g_xtype (game_reset (K := K) ms id xt x ot o) = xt /\ g_otype (game_reset (K := K) ms id xt x ot o) = ot /\
    g_xid (game_reset (K := K) ms id xt x ot o) = x /\ g_oid (game_reset (K := K) ms id xt x ot o) = o /\ g_xclaimed (game_reset (K := K) ms id xt x ot o) = (x =? 0) /\ g_oclaimed (game_reset (K := K) ms id xt x ot o) = (o =? 0)) as (A1 & A2 & A3 & A4 & A5 & A6 & A7).
  { unfold game_reset, start_if_full. destruct (_ && _); cbn; auto 10. }
  rewrite A1, A2, A3, A4, A5. repeat (split; [assumption || reflexivity|]). split; [|apply (reset_untouched K R rep L)].
  intros i _. unfold is_claimed, seat_number. rewrite A4, A5, A6, A7. destruct (i =? 0); reflexivity.
Qed.
Lemma create_reply : forall sv c root e l m r hs body v, server_ok K rep sv -> ready c root -> sized e -> full_request root l m r hs body -> ~ file_asked (c_config c) m r -> same_i m (b "POST") -> same_i r (b "/games") ->
  Forall header_fits hs -> json_type hs -> body_says body v -> readable v -> short_players v -> (length body + 4 < e_fuel e)%nat ->
  exists a sv', serve c e sv l = Ret (a, sv') /\ a_shut a = false /\
    (players_in v = None -> sv' = sv /\ text_reply (a_out a) "400" "Bad Request" "An invalid JSON payload was supplied. Must be: {""players"": [ ""external"", ""slow_engine"" ]}.") /\
    (forall x o, players_in v = Some (x, o) -> (forall t, x <> type_name t) \/ (forall t, o <> type_name t) -> sv' = sv /\ text_reply (a_out a) "400" "Bad Request" "An invalid player type was received.") /\
    (forall xt ot, players_in v = Some (type_name xt, type_name ot) ->
       (forall g, In g (s_games sv) -> k_over K (g_board g) = false -> sv' = sv /\ text_reply (a_out a) "503" "Service Unavailable" "The service has a temporary game capacity shortage.") /\
       ((forall g, In g (s_games sv) -> k_over K (g_board g) = true) -> exists g', s_games sv' = [g'] /\ s_rand sv' = (rand_calls ot + (rand_calls xt + (2 + s_rand sv)))%nat /\
          fresh_game R g' (e_rand e) (s_rand sv) xt ot /\ json_ok (a_out a) (Json_Spec.JObj [(b "gameId", jint (g_id g'))]))).
Proof.
  intros sv c root e l m r hs bd v So Rd Se Q Nf Pm Sr Fh J B Rv Sh Hf. destruct (serve_create c root e sv l m r hs bd Rd Q Nf Sr) as (x & g & Nm & ->).
  rewrite (create_json e Se m x Nm Pm hs Fh sv g bd J). pose proof (types_read e Se (N body 0 bd) bd v eq_refl B Rv Sh Hf) as T.
  assert (forall t t', type_name t = type_name t' -> t = t') as Inj by (intros [] []; reflexivity || discriminate).
  inversion T as [Pn Eq|x0 o0 Ps Bad Eq|xt ot Ps Eq]; cbn [bind].
  - unfold answer_with. cbn [bind r_calls r_stream r_server r_shut].
    destruct (text_done sv (N body 0 bd) "400" "Bad Request" "An invalid JSON payload was supplied. Must be: {""players"": [ ""external"", ""slow_engine"" ]}." eq_refl eq_refl ltac:(discriminate) eq_refl eq_refl eq_refl) as (a & A1 & A2 & A3).
    exists a, sv. split; [exact A1|]. split; [exact A2|]. split; [auto|]. split; intros ? ? P; congruence.
  - unfold answer_with. cbn [bind r_calls r_stream r_server r_shut].
    destruct (text_done sv (N body 0 bd) "400" "Bad Request" "An invalid player type was received." eq_refl eq_refl ltac:(discriminate) eq_refl eq_refl eq_refl) as (a & A1 & A2 & A3).
    exists a, sv. split; [exact A1|]. split; [exact A2|]. split; [congruence|]. split; [auto|]. intros xt ot P. rewrite Ps in P. injection P as -> ->. exfalso. destruct Bad as [X|X]; eapply X; reflexivity.
  - destruct (slot_found sv So) as [(g0 & I0 & O0 & ->)|(All & games & i & ms & -> & Set1)].
    + unfold answer_with. cbn [bind r_calls r_stream r_server r_shut].
      destruct (text_done sv (N body 0 bd) "503" "Service Unavailable" "The service has a temporary game capacity shortage." eq_refl eq_refl ltac:(discriminate) eq_refl eq_refl eq_refl) as (a & A1 & A2 & A3).
      exists a, sv. split; [exact A1|]. split; [exact A2|]. split; [congruence|]. split; [intros x1 o1 P; rewrite Ps in P; injection P as <- <-; intros [X|X]; exfalso; eapply X; reflexivity|].
      intros xt' ot' _. split; [auto|]. intros X. rewrite (X g0 I0) in O0. discriminate O0.
    + cbv zeta.
      set (id := rand_id e (s_rand sv)).
      set (xx := match xt with external => drawn (e_rand e) (2 + s_rand sv) | _ => 0 end).
      set (oo := match ot with external => drawn (e_rand e) (match xt with external => 4 + s_rand sv | _ => 2 + s_rand sv end) | _ => 0 end).
      match goal with |- context [bind ?y _] => assert (y = do t <- json_text (e_body e 1025) [Json_Model.TBegO; prop "gameId"; num id; Json_Model.TEndO];
        Ret {| r_server := {| s_games := set_game games i (game_reset ms id xt xx ot oo); s_rand := (rand_calls ot + (rand_calls xt + (2 + s_rand sv)))%nat |}; r_shut := false; r_calls := json_response t; r_stream := N body 0 bd |}) as -> end.
      { unfold xx, oo. destruct xt, ot; cbn [is_external rand_calls Nat.add]; rewrite <- ?rand_drawn; fold id; reflexivity. }
      rewrite (id_text e "gameId" id Se ltac:(nn) ltac:(cbn; lia) (rand_range e _)). cbn [bind r_calls r_stream r_server r_shut]. rewrite Set1.
      destruct (json_done (K := K) {| s_games := [game_reset ms id xt xx ot oo]; s_rand := (rand_calls ot + (rand_calls xt + (2 + s_rand sv)))%nat |} (N body 0 bd) (Json_Spec.JObj [(b "gameId", jint id)]) eq_refl) as (a & A1 & A2 & A3).
      { unfold zlen. cbn [compact map join_with]. unfold quoted, jint. cbn [compact]. repeat (rewrite app_length || cbn [length]).
        pose proof (rand_range e (s_rand sv)). fold id in H. pose proof (decimal_len id 19 ltac:(change (10 ^ Z.of_nat 19) with 10000000000000000000; lia) ltac:(lia)). change (length (b "gameId")) with 6%nat. lia. }
      { apply one_val; [reflexivity|]. pose proof (rand_range e (s_rand sv)). fold id in H. lia. }
      eexists a, _. split; [exact A1|]. split; [exact A2|]. split; [congruence|]. split; [intros x1 o1 P; rewrite Ps in P; injection P as <- <-; intros [X|X]; exfalso; eapply X; reflexivity|].
      intros xt' ot' P. rewrite Ps in P. injection P as P1 P2. apply Inj in P1, P2. subst xt' ot'. split; [intros g1 I1 O1; rewrite (All g1 I1) in O1; discriminate O1|].
      intros _. eexists. split; [reflexivity|]. split; [reflexivity|]. pose proof (new_fresh e (s_rand sv) ms xt ot id xx oo (rand_drawn e _) eq_refl eq_refl) as Fr. split; [exact Fr|].
      destruct Fr as (-> & _). rewrite <- rand_drawn. exact A3.
Qed.

(** ** Moves *)
Lemma found_whole : forall e rows cols v x y row col, board_size K rows cols -> move_in v = Some (x, y) -> whole (e_atof e x) row -> whole (e_atof e y) col -> 0 <= row < rows -> 0 <= col < cols ->
  move_found e K v = Some (row, col).
Proof.
  intros e rows cols v x y row col Bs M (p & Ep & P) (q & Eq & Q) Hr Hc. unfold move_found. rewrite M, Ep, Eq. clear Ep Eq M.
  assert (Qfloor p = row /\ Qfloor q = col) as (-> & ->). { split; [rewrite P|rewrite Q]; apply Qfloor_Z. }
  assert (k_row K p && k_col K q = true) as ->; [|reflexivity]. destruct Bs; cbn [k_row k_col ttt c4]; rewrite !andb_true_iff, ?negb_true_iff; repeat split; try (apply Qle_bool_iff; rewrite ?P, ?Q; unfold Qle, inject_Z; cbn; lia);
    (match goal with |- Qle_bool ?a ?d = false => destruct (Qle_bool a d) eqn:X; [|reflexivity] end); apply Qle_bool_iff in X; rewrite ?P, ?Q in X; unfold Qle, inject_Z in X; cbn in X; lia.
Qed.
Lemma found_off : forall e rows cols v x y, board_size K rows cols -> move_in v = Some (x, y) -> ~ on_axis rows (e_atof e x) \/ ~ on_axis cols (e_atof e y) -> move_found e K v = None.
Proof.
  intros e rows cols v x y Bs M Off. unfold move_found. rewrite M. destruct (e_atof e x) as [p|]; [|reflexivity]. destruct (e_atof e y) as [q|]; [|reflexivity].
  assert (k_row K p && k_col K q = false) as ->; [|reflexivity]. apply not_true_iff_false. intros H. apply andb_prop in H as (Hr & Hc).
  assert (forall n d, (0 <= d)%Q -> (d < inject_Z n)%Q -> on_axis n (Some d)) as On by (intros n d A B; exists d; auto).
  destruct Bs; cbn [k_row k_col ttt c4] in Hr, Hc; apply andb_prop in Hr as (Hr1 & Hr2); apply andb_prop in Hc as (Hc1 & Hc2); apply Qle_bool_iff in Hr1, Hc1.
  - apply Qle_bool_iff in Hr2, Hc2. destruct Off as [O|O]; apply O, On; auto; eapply Qle_lt_trans; eauto; reflexivity.
  - apply negb_true_iff in Hr2, Hc2. destruct Off as [O|O]; apply O, On; auto; apply Qnot_le_lt; intros X; apply Qle_bool_iff in X; unfold inject_Z in X; congruence.
Qed.
Lemma move_text : forall e g ms m, sized e -> game_ok K rep g (m :: ms) ->
  json_text (e_body e 1025) ([Json_Model.TBegO; prop "i"; num (k_count K (g_board g) - 1)] ++ winner_tokens (g_board g) ++ [Json_Model.TEndO]) = Ret (compact (move_reply (zlen ms) (k_over K (g_board g)) (k_winner K (g_board g)))) /\
  zlen (compact (move_reply (zlen ms) (k_over K (g_board g)) (k_winner K (g_board g)))) < 2 ^ 64 /\
  Json_Spec.val Json_Spec.rfc_char (move_reply (zlen ms) (k_over K (g_board g)) (k_winner K (g_board g))) (compact (move_reply (zlen ms) (k_over K (g_board g)) (k_winner K (g_board g)))).
Proof.
  intros e g ms m Se G. destruct (coords_small K R rep L g (m :: ms) G) as (_ & Ln & W). unfold zlen in Ln at 1. rewrite rev_length in Ln. fold (zlen (m :: ms)) in Ln. rewrite zlen_cons in Ln. pose proof (zlen_nonneg _ ms) as N0.
  pose proof G as (P & _). pose proof (l_count _ _ _ L _ _ P) as C. rewrite zlen_cons in C. replace (k_count K (g_board g) - 1) with (zlen ms) by lia.
  set (i := zlen ms) in *. set (w := k_winner K (g_board g)) in *.
  assert (zlen (compact (move_reply i (k_over K (g_board g)) w)) <= 100) as Lc.
  { unfold zlen, move_reply, winner_member. destruct (k_over K (g_board g)); cbn [compact map join_with]; unfold quoted, jint; cbn [compact]; repeat (rewrite app_length || cbn [length]);
      pose proof (decimal_len i 2 ltac:(change (10 ^ Z.of_nat 2) with 100; lia) ltac:(lia)); pose proof (decimal_len w 2 ltac:(change (10 ^ Z.of_nat 2) with 100; lia) ltac:(lia)); rewrite ?app_length; cbn [length];
      change (length (b "i")) with 1%nat; change (length (b "winner")) with 6%nat; lia. }
  split; [|split; [lia|]].
  - destruct Se as (_ & _ & Sb). assert ([Json_Model.TBegO; prop "i"; num i] ++ winner_tokens (g_board g) ++ [Json_Model.TEndO] = Json_Spec.tokens (move_reply i (k_over K (g_board g)) w)) as ->.
    { unfold winner_tokens, move_reply, winner_member. destruct (k_over K (g_board g)); reflexivity. }
    apply json_text_ok; [unfold move_reply, winner_member; destruct (k_over K (g_board g)); cbn; lia|rewrite Sb by lia; lia|].
    unfold move_reply, winner_member. destruct (k_over K (g_board g)); cbn [Json_Spec.tokens flat_map app jint]; repeat constructor; try (apply decimal_nn; lia); cbn; try (repeat constructor; discriminate).
  - apply obj_val. unfold winner_member. constructor; [split; [apply name_fair; reflexivity|apply int_val; cbn [fst]; lia]|]. destruct (k_over K (g_board g)); constructor; [|constructor]. split; [apply name_fair; reflexivity|apply int_val; lia].
Qed.
Lemma turn_current : forall g ms p m, game_ok K rep g ms -> (p = k_current K (g_board g) /\ legal R ms m <-> p = turn R (length ms) /\ legal R ms m).
Proof.
  intros g ms p m (P & _). split; intros (E & Lg); (split; [|exact Lg]); destruct (k_over K (g_board g)) eqn:O; try (exfalso; eapply (l_legal _ _ _ L); [exact Lg|apply (l_over _ _ _ L _ _ P), O]);
    rewrite (l_current _ _ _ L _ _ P O) in *; exact E.
Qed.
Lemma move_answer : forall sv c root e l m r hs body v id pid rows cols, server_ok K rep sv -> board_size K rows cols -> ready c root -> sized e -> full_request root l m r hs body -> ~ file_asked (c_config c) m r -> same_i m (b "POST") ->
  play_resource r id pid -> Forall header_fits hs -> json_type hs -> body_says body v -> readable v -> (length body + 4 < e_fuel e)%nat ->
  exists a sv', serve c e sv l = Ret (a, sv') /\ a_shut a = false /\
    (id = 0 \/ pid = 0 -> sv' = sv /\ text_reply (a_out a) "400" "Bad Request" "An invalid resource was supplied.") /\
    (id <> 0 -> pid <> 0 ->
      (move_in v = None -> sv' = sv /\ text_reply (a_out a) "400" "Bad Request" "An invalid JSON payload was supplied. Must be: {""row"": 0, ""col"": 1}.") /\
      (forall x y, move_in v = Some (x, y) -> ~ on_axis rows (e_atof e x) \/ ~ on_axis cols (e_atof e y) ->
         sv' = sv /\ text_reply (a_out a) "400" "Bad Request" "An invalid JSON payload was supplied. Must be: {""row"": 0, ""col"": 1}.") /\
      (forall x y row col, move_in v = Some (x, y) -> whole (e_atof e x) row -> whole (e_atof e y) col -> 0 <= row < rows -> 0 <= col < cols ->
         ((forall g, In g (s_games sv) -> g_id g <> id) -> sv' = sv /\ text_reply (a_out a) "404" "Not Found" "A game with the supplied ID was not found.") /\
         (forall g, In g (s_games sv) -> g_id g = id ->
            (pid <> g_xid g -> pid <> g_oid g -> sv' = sv /\ text_reply (a_out a) "404" "Not Found" "A player with the supplied ID was not found.") /\
            (forall p, holder g pid p -> exists ms, played R ms /\ shows R (g_board g) ms /\ transcript g ms /\
               (p = turn R (length ms) /\ legal R ms (row, col) -> exists g', s_games sv' = [g'] /\ s_rand sv' = s_rand sv /\ same_identity g g' /\ g_xclaimed g' = g_xclaimed g /\ g_oclaimed g' = g_oclaimed g /\
                  shows R (g_board g') ((row, col) :: ms) /\ transcript g' ((row, col) :: ms) /\ json_ok (a_out a) (move_reply (zlen ms) (k_over K (g_board g')) (k_winner K (g_board g')))) /\
               (~ (p = turn R (length ms) /\ legal R ms (row, col)) -> sv' = sv /\ text_reply (a_out a) "403" "Forbidden" "The move was not accepted."))))).
Proof.
  intros sv c root e l m r hs bd v id pid rows cols So Bs Rd Se Q Nf Pm Sr Fh J B Rv Hf. destruct (serve_play c root e sv l m r hs bd Rd Q Nf id pid Sr) as (x & g0 & mv & Nm & Sm & Nv & ->).
  assert (id = 0 \/ pid = 0 \/ id <> 0 /\ pid <> 0) as [Z0|[Z0|(Ni & Np)]] by lia.
  1,2: assert (accept_move e sv (m ++ 0 :: x) (N header_name g0 (header_lines hs ++ CRLF ++ bd)) id pid mv = answer_with sv (N body 0 bd) invalid_resource) as ->;
    [unfold accept_move; destruct (equals_i_spec mv [] "moves" Nv ltac:(nn)) as (v1 & -> & Sv); cbn [bind]; rewrite (proj2 Sv Sm); cbn [negb];
     destruct (equals_i_spec m x "POST" Nm ltac:(nn)) as (u & -> & Su); cbn [bind]; rewrite (proj2 Su Pm); cbn [negb];
     rewrite (verify_json e Se hs _ g0 bd Fh J (enough hs g0 bd)); cbn [bind]; replace ((id =? 0) || (pid =? 0)) with true by lia; reflexivity|];
    unfold answer_with; cbn [bind r_calls r_stream r_server r_shut];
    destruct (text_done sv (N body 0 bd) "400" "Bad Request" "An invalid resource was supplied." eq_refl eq_refl ltac:(discriminate) eq_refl eq_refl eq_refl) as (a & A1 & A2 & A3);
    exists a, sv; (split; [exact A1|]); (split; [exact A2|]); (split; [auto|]); intros; lia.
  rewrite (accept_json e Se m x Nm Pm hs Fh sv g0 bd id pid mv J Nv Sm Ni Np). rewrite (move_read e Se K (N body 0 bd) bd v eq_refl B Rv Hf). cbn [bind].
  assert (forall X : Prop, (id = 0 \/ pid = 0) -> X) as No by lia.
  destruct (move_found e K v) as [[r0 c0]|] eqn:Fd.
  2: { unfold answer_with. cbn [bind r_calls r_stream r_server r_shut].
       destruct (text_done sv (N body 0 bd) "400" "Bad Request" "An invalid JSON payload was supplied. Must be: {""row"": 0, ""col"": 1}." eq_refl eq_refl ltac:(discriminate) eq_refl eq_refl eq_refl) as (a & A1 & A2 & A3).
       exists a, sv. split; [exact A1|]. split; [exact A2|]. split; [apply No|]. intros _ _. split; [auto|]. split; [auto|]. intros x1 y1 row col M W1 W2 H1 H2.
       pose proof (found_whole e rows cols v x1 y1 row col Bs M W1 W2 H1 H2). congruence. }
  assert (forall X : Prop, move_in v = None -> X) as No1. { intros X M. exfalso. unfold move_found in Fd. rewrite M in Fd. discriminate Fd. }
  assert (forall X : Prop, forall x y, move_in v = Some (x, y) -> ~ on_axis rows (e_atof e x) \/ ~ on_axis cols (e_atof e y) -> X) as No2. { intros X x1 y1 M Off. exfalso. pose proof (found_off e rows cols v x1 y1 Bs M Off). congruence. }
  assert (forall x y row col, move_in v = Some (x, y) -> whole (e_atof e x) row -> whole (e_atof e y) col -> 0 <= row < rows -> 0 <= col < cols -> (row, col) = (r0, c0)) as Same.
  { intros x1 y1 row col M W1 W2 H1 H2. pose proof (found_whole e rows cols v x1 y1 row col Bs M W1 W2 H1 H2). congruence. }
  destruct (game_in_dec K sv id) as [(g & Ig & Eg)|Nw].
  2: { rewrite (find_nowhere K sv id Nw). unfold answer_with. cbn [bind r_calls r_stream r_server r_shut].
       destruct (text_done sv (N body 0 bd) "404" "Not Found" "A game with the supplied ID was not found." eq_refl eq_refl ltac:(discriminate) eq_refl eq_refl eq_refl) as (a & A1 & A2 & A3).
       exists a, sv. split; [exact A1|]. split; [exact A2|]. split; [apply No|]. intros _ _. split; [apply No1|]. split; [intros x1 y1; apply No2|]. intros x1 y1 row col _ _ _ _ _. split; [auto|]. intros g Ig Eg. exfalso. exact (Nw g Ig Eg). }
  destruct (find_at K rep sv g So Ig) as (Ef & Es). rewrite Eg in Ef. rewrite Ef. cbv zeta. destruct (ok_in K rep sv g So Ig) as (ms & G).
  assert (forall X : Prop, (forall g, In g (s_games sv) -> g_id g <> id) -> X) as No3 by (intros X Nw; exfalso; exact (Nw g Ig Eg)).
  assert (forall p, holder g pid p -> p = player_of g pid /\ p <> k_none K) as Hold.
  { destruct (l_seats _ _ _ L) as (_ & D1 & D2). unfold holder, player_of. intros p [(-> & ->)|(D & -> & ->)]; [rewrite Z.eqb_refl; auto|]. replace (g_oid g =? g_xid g) with false by lia. rewrite Z.eqb_refl. auto. }
  destruct (Z.eqb_spec (player_of g pid) (k_none K)) as [Pn|Pn].
  { unfold answer_with. cbn [bind r_calls r_stream r_server r_shut].
    destruct (text_done sv (N body 0 bd) "404" "Not Found" "A player with the supplied ID was not found." eq_refl eq_refl ltac:(discriminate) eq_refl eq_refl eq_refl) as (a & A1 & A2 & A3).
    exists a, sv. split; [exact A1|]. split; [exact A2|]. split; [apply No|]. intros _ _. split; [apply No1|]. split; [intros x1 y1; apply No2|]. intros x1 y1 row col _ _ _ _ _. split; [apply No3|].
    intros g1 Ig1 _. rewrite <- (only_game K rep sv g g1 So Ig Ig1). split; [auto|]. intros p Hp. destruct (Hold p Hp) as (-> & X). contradiction. }
  assert (forall X : Prop, pid <> g_xid g -> pid <> g_oid g -> X) as No4. { intros X D1 D2. exfalso. apply Pn. unfold player_of. replace (pid =? g_xid g) with false by lia. replace (pid =? g_oid g) with false by lia. reflexivity. }
  destruct (accept_ok K R rep L g ms (player_of g pid) (r0, c0) G) as (ok & g' & Ea & Iff & Si & Cx & Co & G'). rewrite Ea. cbn [bind]. rewrite (turn_current g ms _ _ G) in Iff.
  pose proof (proj1 G) as P0. destruct (l_shows _ _ _ L _ _ P0) as (Sh0 & Pl0).
  destruct ok; cbn [negb].
  - destruct (move_text e g' ms (r0, c0) Se G') as (Et & Lt & V). rewrite Et. cbn [bind r_calls r_stream r_server r_shut]. rewrite Es. cbn [set_game].
    destruct (json_done (K := K) {| s_games := [g']; s_rand := s_rand sv |} (N body 0 bd) (move_reply (zlen ms) (k_over K (g_board g')) (k_winner K (g_board g'))) eq_refl Lt V) as (a & A1 & A2 & A3).
    eexists a, _. split; [exact A1|]. split; [exact A2|]. split; [apply No|]. intros _ _. split; [apply No1|]. split; [intros x1 y1; apply No2|]. intros x1 y1 row col M W1 W2 H1 H2. rewrite (Same x1 y1 row col M W1 W2 H1 H2).
    rewrite <- Es. split; [apply No3|]. intros g1 Ig1 _. rewrite <- (only_game K rep sv g g1 So Ig Ig1). split; [apply No4|]. intros p Hp. destruct (Hold p Hp) as (-> & _).
    exists ms. split; [exact Pl0|]. split; [exact Sh0|]. split; [apply (ok_transcript K R rep L), G|]. split; [|intros X; exfalso; apply X, Iff; reflexivity].
    intros _. exists g'. split; [reflexivity|]. split; [reflexivity|]. split; [exact Si|]. split; [exact Cx|]. split; [exact Co|]. split; [apply (l_shows _ _ _ L _ _ (proj1 G'))|]. split; [apply (ok_transcript K R rep L), G'|exact A3].
  - subst g'. assert ({| s_games := set_game (s_games sv) 0 g; s_rand := s_rand sv |} = sv) as ->. { rewrite Es. cbn [set_game]. rewrite <- Es. destruct sv; reflexivity. }
    unfold answer_with. cbn [bind r_calls r_stream r_server r_shut].
    destruct (text_done sv (N body 0 bd) "403" "Forbidden" "The move was not accepted." eq_refl eq_refl ltac:(discriminate) eq_refl eq_refl eq_refl) as (a & A1 & A2 & A3).
    exists a, sv. split; [exact A1|]. split; [exact A2|]. split; [apply No|]. intros _ _. split; [apply No1|]. split; [intros x1 y1; apply No2|]. intros x1 y1 row col M W1 W2 H1 H2. rewrite (Same x1 y1 row col M W1 W2 H1 H2).
    split; [apply No3|]. intros g1 Ig1 _. rewrite <- (only_game K rep sv g g1 So Ig Ig1). split; [apply No4|]. intros p Hp. destruct (Hold p Hp) as (-> & _).
    exists ms. split; [exact Pl0|]. split; [exact Sh0|]. split; [apply (ok_transcript K R rep L), G|]. split; [intros X; apply Iff in X; discriminate X|auto].
Qed.
End Replies.

(** ** Content-Type *)
Section Types.
Context {K : kind}.
Variables (c : conn) (root : list Z) (e : env) (sv : server K) (l m r : list Z) (hs : list hline) (body : list Z).
Hypothesis Rd : ready c root.
Hypothesis Se : sized e.
Hypothesis Q : full_request root l m r hs body.
Hypothesis Nf : ~ file_asked (c_config c) m r.
Hypothesis Pm : same_i m (b "POST").
Hypothesis Fh : Forall header_fits hs.
Hypothesis Rr : same_i r (b "/games") \/ exists id pid, play_resource r id pid.
Lemma typed : exists g, forall calls s, verify_header_json e (S (length (hin (N header_name g (header_lines hs ++ CRLF ++ body))))) 0 false (N header_name g (header_lines hs ++ CRLF ++ body)) = Ret (calls, s) ->
  calls <> Some [] -> serve c e sv l = do w <- write_calls response (match calls with Some cs => cs | None => [] end) (server_writer s true); Ret ({| a_file := None; a_shut := false; a_calls := match calls with Some cs => cs | None => [] end; a_out := wout w |}, sv).
Proof.
  destruct Rr as [Sr|(id & pid & Sr)].
  - destruct (serve_create c root e sv l m r hs body Rd Q Nf Sr) as (x & g & Nm & ->). exists g. intros calls s E Nn. unfold create_game.
    destruct (equals_i_spec m x "POST" Nm ltac:(nn)) as (v & -> & Sv). cbn [bind]. rewrite (proj2 Sv Pm). cbn [negb]. rewrite E. cbn [bind]. destruct calls as [[|c0 cs]|]; [congruence|reflexivity..].
  - destruct (serve_play c root e sv l m r hs body Rd Q Nf id pid Sr) as (x & g & mv & Nm & Sm & Nv & ->). exists g. intros calls s E Nn. unfold accept_move.
    destruct (equals_i_spec mv [] "moves" Nv ltac:(nn)) as (v1 & -> & Sv1). cbn [bind]. rewrite (proj2 Sv1 Sm). cbn [negb].
    destruct (equals_i_spec m x "POST" Nm ltac:(nn)) as (v & -> & Sv). cbn [bind]. rewrite (proj2 Sv Pm). cbn [negb]. rewrite E. cbn [bind]. destruct calls as [[|c0 cs]|]; [congruence|reflexivity..].
Qed.
Lemma type_reply :
  (other_type hs -> exists a, serve c e sv l = Ret (a, sv) /\ a_shut a = false /\ text_reply (a_out a) "400" "Bad Request" "'application/json' is the only supported Content-Type.") /\
  (two_types hs -> exists a, serve c e sv l = Ret (a, sv) /\ a_shut a = false /\ text_reply (a_out a) "400" "Bad Request" "The Content-Type header was supplied more than once.") /\
  (no_type hs -> exists a, serve c e sv l = Ret (a, sv) /\ a_out a = []).
Proof.
  destruct typed as (g & T). split; [|split]; intros H.
  - destruct (verify_other e Se hs _ g body Fh H (enough hs g body)) as (s & Gs & E). rewrite (T _ s E ltac:(discriminate)).
    apply text_done; try assumption; try reflexivity; discriminate.
  - destruct (verify_two e Se hs _ g body Fh H (enough hs g body)) as (s & Gs & E). rewrite (T _ s E ltac:(discriminate)).
    apply text_done; try assumption; try reflexivity; discriminate.
  - rewrite (T _ _ (verify_none e Se hs _ g body Fh H (enough hs g body)) ltac:(discriminate)). eexists. split; reflexivity.
Qed.
End Types.
