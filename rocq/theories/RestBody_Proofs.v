(** Proofs for C69 and C72: requests with JSON bodies. *)

From Coq Require Import String ZArith QArith List Bool Lia.
From Verif Require Import Base ListMem Ascii_Model Ascii_Spec Table_Model Http_Model Http_Calls Http_Spec Endpoint_Model Endpoint_Spec Rest_Model Rest_Spec RestBody_Spec.
From Verif Require Import Http_Proofs Http_Order Http_RoundTrip Endpoint_Proofs Ascii_Proofs Rest_Games Rest_Json Rest_Proofs Rest_Replies Rest_Any Rest_Headers.
From Verif Require Json_Model Json_Spec Json_Proofs Json_Writer Json_Safety Json_Final.
Import ListNotations.
Open Scope string_scope.
Open Scope list_scope.
Open Scope Z_scope.

(** ** Reading tokens *)
Section Reading.
Import Json_Model Json_Spec Json_Proofs.
Notation at_core c m n := (gst 64 (cinp c) (ck c) (ce c) m n).
Variable e : env.

Lemma tok_read : forall t c c' tb m n, TokR (e_fuel e) 64 t c c' -> zlen tb = 1041 -> tok_fits 1041 t ->
  exists tb' n', Rest_Model.get_token e tb (at_core c m n) = Http_Model.Ret (t, tb', at_core c' (Some tb') n') /\ zlen tb' = 1041.
Proof.
  intros t c c' tb m n T Lt F. destruct (T (Some tb)) as (it & m' & n' & E & O). { unfold buf_ok, sizeof_token. rewrite Lt. split; [lia|exact F]. }
  unfold Rest_Model.get_token, get_token. replace (zlen tb <? sizeof_token) with false by (unfold sizeof_token; lia).
  change (with_mem (at_core c m n) (Some tb)) with (at_core c (Some tb) []). cbn [size_of] in E. rewrite E. cbn [of_json Http_Model.bind].
  rewrite (O ltac:(discriminate)). apply Json_Safety.token_eff in E. destruct E as (_ & _ & _ & B). unfold Json_Safety.same_buf in B. cbn [mem gst option_map] in *.
  destruct m' as [tb'|]; [|discriminate]. injection B as B. exists tb', n'. split; [reflexivity|congruence].
Qed.
Lemma val_skip : forall v c c' m n, Run (e_fuel e) 64 1 (tokens v) c c' -> levels (at_core c m n) = 1 -> zlen (ck c') <= 1 -> (length (tokens v) <= e_fuel e)%nat ->
  exists it m' n', skip_value (e_fuel e) (at_core c m n) = Ret (it, at_core c' m' n').
Proof.
  intros v c c' m n R E Hk Hf. unfold skip_value. rewrite E. apply (Json_Writer.run_skip _ _ _ _ _ _ R); [apply Json_Writer.tokens_nonempty|exact Hk|exact Hf].
Qed.
(** One member of the object. *)
Lemma member_read : forall plain n v ms t rest, members plain ((n, v) :: ms) t -> 1 + depth v <= 64 -> Forall num_fits (tokens v) -> (length t + length rest + 4 < e_fuel e)%nat ->
  exists c1 t', members plain ms t' /\ (length t' <= length t)%nat /\ TokR (e_fuel e) 64 (TProp n) (mk (t ++ [125] ++ rest) [true] true) c1 /\ ck c1 = [true] /\
    Run (e_fuel e) 64 1 (tokens v) c1 (mk (t' ++ [125] ++ rest) [true] true) /\ (length (tokens v) <= e_fuel e)%nat.
Proof.
  intros plain n v ms t rest M D F Hf. inversion M as [|n0 v0 nt tv w1 w2 w3 w4 W1 S W2 W3 V W4 E1 E2|n0 v0 nt tv w1 w2 w3 w4 p l t' W1 S W2 W3 V W4 M' E1 E2]; subst.
  - exists (mk (w3 ++ tv ++ w4 ++ [125] ++ rest) [true] false), []. split; [constructor; constructor|]. split; [cbn; lia|]. pose proof (proj1 (Json_Final.tokens_length plain) _ _ V) as TL.
    repeat (rewrite app_length in Hf || cbn [length] in Hf).
    split; [|split; [reflexivity|split; [|lia]]].
    + rewrite <- !app_assoc. apply (tok_property plain); auto. repeat (rewrite app_length || cbn [length]). lia.
    + assert (follow [true] (w4 ++ [125] ++ rest) ([125] ++ rest)) as Fo. { exists w4. split; [exact W4|]. right. exists rest. split; reflexivity. }
      apply (proj1 (run_val_all plain) v tv V (e_fuel e) 64 w3 _ _ [true] false eq_refl W3 Fo ltac:(intros _; eapply follow_num_end; [|exact Fo]; discriminate) ltac:(change (zlen [true]) with 1; lia) F). repeat (rewrite app_length || cbn [length]). lia.
  - exists (mk (w3 ++ tv ++ w4 ++ [44] ++ t' ++ [125] ++ rest) [true] false), t'. split; [exact M'|]. repeat (rewrite app_length in Hf || cbn [length] in Hf). pose proof (proj1 (Json_Final.tokens_length plain) _ _ V) as TL.
    split; [repeat (rewrite app_length || cbn [length]); lia|]. split; [|split; [reflexivity|split; [|lia]]].
    + rewrite <- !app_assoc. apply (tok_property plain); auto. repeat (rewrite app_length || cbn [length]). lia.
    + assert (follow [true] (w4 ++ [44] ++ t' ++ [125] ++ rest) (t' ++ [125] ++ rest)) as Fo. { exists w4. split; [exact W4|]. left. reflexivity. }
      apply (proj1 (run_val_all plain) v tv V (e_fuel e) 64 w3 _ _ [true] false eq_refl W3 Fo ltac:(intros _; eapply follow_num_end; [|exact Fo]; discriminate) ltac:(change (zlen [true]) with 1; lia) F). repeat (rewrite app_length || cbn [length]). lia.
Qed.
Lemma end_read : forall plain t rest, members plain [] t -> (length t + length rest + 4 < e_fuel e)%nat -> TokR (e_fuel e) 64 TEndO (mk (t ++ [125] ++ rest) [true] true) (mk rest [] false).
Proof. intros plain t rest M Hf. inversion M; subst. apply (tok_end true t rest rest (e_fuel e) 64 []); [assumption|reflexivity|]. rewrite app_length. lia. Qed.

(** The first token of a value. *)
Lemma first_token : forall v, exists t ts, tokens v = t :: ts /\ (t = TBegO <-> exists ms, v = JObj ms) /\ (t = TBegA <-> exists l, v = JArr l) /\ (forall s, t = TStr s <-> v = JStr s) /\ (forall d, t = TNum d <-> v = JNum d).
Proof.
  intros [|x|x|x|l|l]; eexists _, _; (split; [reflexivity|]); repeat split; intros H; try discriminate H; try (injection H as ->); eauto; try (destruct H; discriminate).
Qed.
Lemma run_first : forall f L k t ts c c', Run f L k (t :: ts) c c' -> exists c1, TokR f L t c c1 /\ Run f L k ts c1 c'.
Proof. intros f L k t ts c c' R. inversion R; subst. eauto. Qed.

(** *** The two strings of the array *)
Lemma player_read : forall v ts c c' tb m n, Run (e_fuel e) 64 1 (tokens v ++ ts) c c' -> zlen tb = 1041 -> Forall (tok_fits 1041) (tokens v) -> short_string v ->
  (exists s, v = JStr s /\ exists c1 tb' n', Rest_Model.one_player e tb (at_core c m n) = Http_Model.Ret (Some s, tb', at_core c1 (Some tb') n') /\ zlen tb' = 1041 /\ Run (e_fuel e) 64 1 ts c1 c') \/
  (forall s, v <> JStr s) /\ exists x, Rest_Model.one_player e tb (at_core c m n) = Http_Model.Ret (None, fst x, snd x).
Proof.
  intros v ts c c' tb m n R Lt F Sh. destruct (first_token v) as (t & ts' & Et & _ & _ & Ts & _). rewrite Et in *. cbn [app] in R. apply run_first in R as (c1 & T & R).
  apply Forall_inv in F. destruct (tok_read t c c1 tb m n T Lt F) as (tb' & n' & E & Lt'). unfold one_player. rewrite E. cbn [Http_Model.bind].
  destruct t; try (right; split; [intros s1 Hs; apply Ts in Hs; discriminate|]; eexists (_, _); reflexivity).
  left. exists s. pose proof (proj1 (Ts s) eq_refl) as ->. split; [reflexivity|]. cbn [tokens] in Et. injection Et as <-. exists c1, tb', n'. unfold copy_player. cbn [short_string] in Sh.
  replace (zlen s <=? 64) with true by lia. cbn [Http_Model.bind]. auto.
Qed.

(** *** The members *)
Fixpoint gathered (pl : option (list Z * list Z)) (ms : list (list Z * jv)) : option (option (list Z * list Z)) :=
  match ms with
  | [] => Some pl
  | p :: ms => if named "players" p then match two_strings (snd p) with Some x => gathered (Some x) ms | None => None end else gathered pl ms
  end.
Lemma last_default : forall A (l : list A) x y z, last (x :: l) y = last (x :: l) z.
Proof. induction l as [|a l IH]; intros x y z; [reflexivity|]. change (last (a :: l) y = last (a :: l) z). apply IH. Qed.
Lemma gathered_spec : forall ms pl, gathered pl ms =
  let ps := map (fun p => two_strings (snd p)) (filter (named "players") ms) in if forallb is_some ps then Some (last ps pl) else None.
Proof.
  induction ms as [|p ms IH]; intros pl; [reflexivity|]. cbn [gathered filter]. destruct (named "players" p); [|apply IH]. cbn [map forallb].
  destruct (two_strings (snd p)) as [x|] eqn:E; [|reflexivity]. cbn [is_some andb]. rewrite IH. cbv zeta.
  destruct (map (fun p => two_strings (snd p)) (filter (named "players") ms)) as [|a l]; [reflexivity|]. destruct (forallb is_some (a :: l)); [|reflexivity].
  change (last (Some x :: a :: l) pl) with (last (a :: l) pl). f_equal. apply last_default.
Qed.
Lemma is_players : forall n (v : jv) (s : String.string), no_nul n -> no_nul (b s) -> equals (n ++ [0]) s = Http_Model.Ret (named s (n, v)).
Proof.
  intros n v s Nn Ns. destruct (equals_spec n [] s Nn Ns) as (x & -> & Sx). unfold named. cbn [fst]. destruct (list_eq_dec Z.eq_dec n (b s)) as [Q|Q]; destruct x; auto; [|exfalso]; [rewrite (proj2 Sx Q); reflexivity|apply Q, Sx; reflexivity].
Qed.
Lemma depth_nonneg : forall v, 0 <= depth v.
Proof. intros [| | | |l|l]; cbn [depth]; try lia; clear; match goal with |- 0 <= 1 + fold_right Z.max 0 ?x => generalize x end; intros x; induction x; cbn [fold_right]; lia. Qed.
Definition members_ok (ms : list (list Z * jv)) : Prop :=
  Forall (fun p => 1 + depth (snd p) <= 64 /\ Forall num_fits (tokens (snd p)) /\ Forall (tok_fits 1041) (tokens (snd p)) /\ tok_fits 1041 (TProp (fst p)) /\
    (named "players" p = true -> match snd p with JArr l => Forall short_string l | _ => True end)) ms.
Lemma readable_members : forall ms, readable (JObj ms) -> short_players (JObj ms) -> members_ok ms.
Proof.
  intros ms (D & F & T) S. cbn [depth tokens short_players] in *. apply Forall_inv_tail in F, T. apply Forall_app in F as (F & _). apply Forall_app in T as (T & _).
  unfold members_ok. revert D F T S. induction ms as [|[n v] ms IH]; intros D F T S; [constructor|]. cbn [map fold_right flat_map app] in *.
  apply Forall_inv_tail in F as F'. apply Forall_app in F' as (F1 & F2). pose proof (Forall_inv T) as T0. apply Forall_inv_tail in T as T'. apply Forall_app in T' as (T1 & T2).
  pose proof (Forall_inv S) as S0. apply Forall_inv_tail in S. constructor; [cbn [fst snd]; split; [lia|]; split; [exact F1|]; split; [exact T1|]; split; [exact T0|exact S0]|]. apply IH; auto. lia.
Qed.
Lemma players_read : forall ms t rest n pl tb m nn, members any_char ms t -> members_ok ms -> (length t + length rest + 4 < e_fuel e)%nat -> (length ms < n)%nat -> zlen tb = 1041 ->
  read_players e n pl tb (gst 64 (t ++ [125] ++ rest) [true] true m nn) = Http_Model.Ret (gathered pl ms).
Proof.
  induction ms as [|[name v] ms IH]; intros t rest n pl tb m nn M Ok Hf Hn Lt; (destruct n as [|n]; [cbn [length] in Hn; lia|]); cbn [read_players].
  - destruct (tok_read TEndO (mk (t ++ [125] ++ rest) [true] true) (mk rest [] false) tb m nn (end_read _ t rest M Hf) Lt I) as (tb' & n' & E & Lt').
    cbn [cinp ck ce] in E. rewrite E. reflexivity.
  - inversion Ok as [|p l (D & F & T & Tn & Sh) Ok']; subst. cbn [fst snd] in *.
    destruct (member_read any_char name v ms t rest M D F Hf) as (c1 & t' & M' & Lt' & Tk & Kc & R & Lv).
    destruct (tok_read (TProp name) _ _ tb m nn Tk Lt Tn) as (tb1 & n1 & E & L1). cbn [cinp ck ce] in E. rewrite E. cbn [Http_Model.bind].
    assert (no_nul name) as Nn. { destruct Tn as (_ & Tn). apply Forall_forall. intros x Hx X. subst x. contradiction. }
    rewrite (is_players name v "players" Nn ltac:(nn)). cbn [Http_Model.bind gathered]. destruct (named "players" (name, v)) eqn:Np.
    + cbn [snd]. destruct (first_token v) as (t0 & ts & Et & _ & Ta & _). pose proof R as R0. rewrite Et in R0. apply run_first in R0 as (c2 & T2 & R2).
      pose proof T as T'. rewrite Et in T'. destruct (tok_read t0 _ _ tb1 (Some tb1) n1 T2 L1 (Forall_inv T')) as (tb2 & n2 & E2 & L2). rewrite E2. cbn [Http_Model.bind].
      specialize (Sh eq_refl).
      assert ((exists l, v = JArr l) \/ two_strings v = None /\ (forall l, v <> JArr l)) as [(l & ->)|(Tv & Nl)].
      { destruct v; try (right; split; [reflexivity|discriminate]). left. eauto. }
      2: { rewrite Tv. destruct t0; try reflexivity. exfalso. destruct (proj1 Ta eq_refl) as (l & ->). apply (Nl l). reflexivity. }
      cbn [tokens] in Et. injection Et as <- <-. cbn [tokens] in T. apply Forall_inv_tail in T. apply Forall_app in T as (T & _).
      destruct l as [|x l]; cbn [flat_map app] in R2, T.
      { apply run_first in R2 as (c3 & T3 & _). destruct (tok_read TEndA _ _ tb2 (Some tb2) n2 T3 L2 I) as (tb3 & n3 & E3 & _). unfold one_player. rewrite E3. reflexivity. }
      apply Forall_app in T as (Tx & T). rewrite <- app_assoc in R2. pose proof (Forall_inv Sh) as Sx. apply Forall_inv_tail in Sh.
      destruct (player_read x _ _ _ tb2 (Some tb2) n2 R2 L2 Tx Sx) as [(sx & -> & c3 & tb3 & n3 & E3 & L3 & R3)|(Nx & z & E3)]; rewrite E3; cbn [Http_Model.bind].
      2: { cbn [two_strings]. destruct x; try reflexivity. exfalso. eapply Nx. reflexivity. }
      destruct l as [|y l]; cbn [flat_map app] in R3, T.
      { apply run_first in R3 as (c4 & T4 & _). destruct (tok_read TEndA _ _ tb3 (Some tb3) n3 T4 L3 I) as (tb4 & n4 & E4 & _). unfold one_player. rewrite E4. reflexivity. }
      apply Forall_app in T as (Ty & T). rewrite <- app_assoc in R3. pose proof (Forall_inv Sh) as Sy. apply Forall_inv_tail in Sh.
      destruct (player_read y _ _ _ tb3 (Some tb3) n3 R3 L3 Ty Sy) as [(sy & -> & c4 & tb4 & n4 & E4 & L4 & R4)|(Ny & z & E4)]; rewrite E4; cbn [Http_Model.bind].
      2: { cbn [two_strings]. destruct y; try reflexivity. exfalso. eapply Ny. reflexivity. }
      destruct l as [|z l]; cbn [flat_map app two_strings] in R4, T |- *.
      * apply run_first in R4 as (c5 & T5 & R5). destruct (tok_read TEndA _ _ tb4 (Some tb4) n4 T5 L4 I) as (tb5 & n5 & E5 & L5). rewrite E5. cbn [Http_Model.bind]. inversion R5; subst.
        cbn [cinp ck ce]. apply IH; auto; [lia|]. cbn [length] in Hn. lia.
      * destruct (first_token z) as (tz & tsz & Ez & _). rewrite Ez in R4. cbn [app] in R4. apply run_first in R4 as (c5 & T5 & R5). apply Forall_app in T as (Tz & _). rewrite Ez in Tz.
        destruct (tok_read tz _ _ tb4 (Some tb4) n4 T5 L4 (Forall_inv Tz)) as (tb5 & n5 & E5 & L5). rewrite E5. cbn [Http_Model.bind]. destruct tz; try reflexivity. exfalso.
        destruct z; discriminate Ez.
    + destruct (val_skip v c1 _ (Some tb1) n1 R) as (it & m' & n' & Es); [unfold levels; cbn [stk gst]; rewrite Kc; reflexivity|cbn; lia|exact Lv|]. rewrite Es. cbn [of_json Http_Model.bind cinp ck ce].
      apply IH; auto; [lia|]. cbn [length] in Hn. lia.
Qed.
End Reading.
