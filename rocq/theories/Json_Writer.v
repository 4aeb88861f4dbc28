(** Proofs about the JSON writer (C07, C08) and about token sequences. *)

From Coq Require Import ZArith List Bool Lia ZifyBool.
From Verif Require Import Base ListMem Ascii_Model Table_Model Json_Model Json_Spec Json_Proofs.
Import ListNotations.
Open Scope Z_scope.

(** *** A writer that is bad stays bad and silent (C07). *)
Lemma put_chars_bad : forall l w, wbad w = true -> put_chars w l = w.
Proof. destruct l; intros; cbn [put_chars]; [reflexivity|]. rewrite H. reflexivity. Qed.
Lemma comma_bad : forall w l, wbad w = true -> comma_if w l = w.
Proof. intros. unfold comma_if. destruct (_ && _); [apply put_chars_bad; assumption|reflexivity]. Qed.

Ltac bad_step w H :=
  repeat first [ rewrite (comma_bad w) by exact H | rewrite (put_chars_bad _ w) by exact H ].

Lemma put_op_bad : forall w o, wbad w = true -> wbad (put_op_run w o) = true /\ out (put_op_run w o) = out w.
Proof.
  intros w o H. destruct o as [t|c]; cbn [put_op_run]; [|rewrite put_chars_bad by assumption; auto].
  assert (S : forall x, wbad (put_scalar w x) = true /\ out (put_scalar w x) = out w).
  { intro x. unfold put_scalar. destruct (wexpect w); [auto|]. bad_step w H. auto. }
  destruct t; cbn [put_token]; auto.
  - unfold put_begin_array. destruct (wexpect w); [auto|]. bad_step w H. unfold w_push. destruct (_ <=? _); auto.
  - unfold put_end_array. destruct (wexpect w); [auto|]. bad_step w H. unfold w_pop. destruct (wstk w); auto. destruct (Bool.eqb _ _); auto.
  - unfold put_begin_object. destruct (wexpect w); [auto|]. bad_step w H. unfold w_push. destruct (_ <=? _); auto.
  - unfold put_end_object. destruct (negb _); [auto|]. bad_step w H. unfold w_pop. destruct (wstk w); auto. destruct (Bool.eqb _ _); auto.
  - unfold put_property. destruct (negb _); [auto|]. bad_step w H. auto.
Qed.
Lemma put_ops_bad : forall ops w, wbad w = true -> wbad (put_ops w ops) = true /\ out (put_ops w ops) = out w.
Proof.
  induction ops as [|o ops IH]; intros w H; [auto|]. cbn [put_ops fold_left]. destruct (put_op_bad w o H) as (H1 & H2).
  destruct (IH _ H1) as (H3 & H4). unfold put_ops in *. split; [assumption|congruence].
Qed.

(** *** What a call that leaves the writer good has done. *)
Lemma put_chars_good : forall l w, wbad (put_chars w l) = false ->
  wbad w = false \/ l = [].
Proof. intros. destruct l; [auto|]. left. cbn [put_chars] in H. destruct (wbad w) eqn:E; congruence. Qed.

Lemma put_chars_spec : forall l w, wbad (put_chars w l) = false ->
  wbad w = false /\ out (put_chars w l) = out w ++ l /\ wmax (put_chars w l) = wmax w
  /\ wstk (put_chars w l) = wstk w /\ wexp (put_chars w l) = wexp w /\ skip_comma (put_chars w l) = skip_comma w.
Proof.
  induction l as [|c l IH]; intros w H; cbn [put_chars] in *.
  - rewrite app_nil_r. auto 10.
  - destruct (wbad w) eqn:E; [congruence|]. destruct (IH _ H) as (H1 & H2 & H3 & H4 & H5 & H6).
    unfold w_put1 in *. destruct (room w) as [[|n]|]; cbn [wbad w_set_bad out wmax wstk wexp skip_comma] in *; try congruence;
      rewrite H2, <- app_assoc; auto 10.
Qed.

Definition comma_text (w : wr) (level : bool) : list Z :=
  match wstk w with
  | l :: _ => if Bool.eqb l level && negb (skip_comma w) then [44] else []
  | [] => []
  end.
Lemma comma_spec : forall level w, wbad (comma_if w level) = false ->
  wbad w = false /\ out (comma_if w level) = out w ++ comma_text w level /\ wmax (comma_if w level) = wmax w
  /\ wstk (comma_if w level) = wstk w /\ wexp (comma_if w level) = wexp w /\ skip_comma (comma_if w level) = skip_comma w.
Proof.
  intros level w H. unfold comma_if, comma_text, wlevels in *. destruct (wstk w) as [|l k] eqn:E.
  - rewrite zlen_nil in *. cbn [Z.ltb Z.compare andb] in *. rewrite app_nil_r. auto 10.
  - rewrite zlen_cons in *. pose proof (zlen_nonneg _ k). replace (0 <? zlen k + 1) with true in * by lia. cbn [andb] in *.
    destruct (Bool.eqb l level && negb (skip_comma w)); [|rewrite app_nil_r; auto 10].
    destruct (put_chars_spec _ _ H) as (H1 & H2 & H3 & H4 & H5 & H6). rewrite E in H4. auto 10.
Qed.

(** *** Prefixes of JSON text at which a value may follow, and the texts between calls *)
Section Inv.
Variable plain : Z -> Prop.
Variable L : Z.

Definition fitd (k : list bool) (v : jv) : Prop := zlen k + depth v <= L.

Inductive Pos : list bool -> list Z -> list token -> Prop :=
| pos_top : forall vs t, docs plain vs t -> Forall (fun v => depth v <= L) vs -> Pos [] t (flat_map tokens vs)
| pos_first : forall k pre pt w, Pos k pre pt -> zlen k < L -> ws w -> Pos (false :: k) (pre ++ [91] ++ w) (pt ++ [TBegA])
| pos_next : forall k pre pt l t w, Pos k pre pt -> zlen k < L -> l <> [] -> elems plain l t -> Forall (fitd (false :: k)) l -> ws w ->
    Pos (false :: k) (pre ++ [91] ++ t ++ [44] ++ w) (pt ++ TBegA :: flat_map tokens l)
| pos_prop1 : forall k pre pt w n w', Pos k pre pt -> zlen k < L -> ws w -> plain_string plain n -> ws w' ->
    Pos (true :: k) (pre ++ [123] ++ w ++ [34] ++ n ++ [34; 58] ++ w') (pt ++ [TBegO; TProp n])
| pos_prop2 : forall k pre pt l t n w', Pos k pre pt -> zlen k < L -> l <> [] -> members plain l t -> Forall (fun p => fitd (true :: k) (snd p)) l ->
    plain_string plain n -> ws w' ->
    Pos (true :: k) (pre ++ [123] ++ t ++ [44] ++ [34] ++ n ++ [34; 58] ++ w') (pt ++ TBegO :: flat_map mtokens l ++ [TProp n]).

(** (stack, expect, skip_comma, text, tokens) between two calls *)
Inductive Inv : list bool -> bool -> bool -> list Z -> list token -> Prop :=
| inv_top : forall vs t sc, docs plain vs t -> Forall (fun v => depth v <= L) vs -> Inv [] false sc t (flat_map tokens vs)
| inv_first : forall k pre pt w, Pos k pre pt -> zlen k < L -> ws w -> Inv (false :: k) false true (pre ++ [91] ++ w) (pt ++ [TBegA])
| inv_prop : forall k t pt, Pos (true :: k) t pt -> Inv (true :: k) false true t pt
| inv_arr : forall k pre pt l t, Pos k pre pt -> zlen k < L -> l <> [] -> elems plain l t -> Forall (fitd (false :: k)) l ->
    Inv (false :: k) false false (pre ++ [91] ++ t) (pt ++ TBegA :: flat_map tokens l)
| inv_obj1 : forall k pre pt w, Pos k pre pt -> zlen k < L -> ws w -> Inv (true :: k) true true (pre ++ [123] ++ w) (pt ++ [TBegO])
| inv_obj2 : forall k pre pt l t, Pos k pre pt -> zlen k < L -> l <> [] -> members plain l t -> Forall (fun p => fitd (true :: k) (snd p)) l ->
    Inv (true :: k) true false (pre ++ [123] ++ t) (pt ++ TBegO :: flat_map mtokens l).

Lemma ws_app : forall a b, ws a -> ws b -> ws (a ++ b).
Proof. intros. apply Forall_app. auto. Qed.

Lemma docs_ws : forall vs t w, docs plain vs t -> ws w -> docs plain vs (t ++ w).
Proof.
  intros vs t w H Hw. destruct H.
  - apply docs_nil. apply ws_app; assumption.
  - rewrite <- !app_assoc. apply docs_snoc; auto using ws_app.
Qed.
Lemma elems_ws : forall l t, elems plain l t -> forall w, ws w -> elems plain l (t ++ w).
Proof.
  induction 1; intros.
  - constructor. apply ws_app; assumption.
  - rewrite <- !app_assoc. constructor; auto using ws_app.
  - rewrite <- !app_assoc. apply e_cons; auto.
Qed.
Lemma members_ws : forall l t, members plain l t -> forall w, ws w -> members plain l (t ++ w).
Proof.
  induction 1; intros.
  - constructor. apply ws_app; assumption.
  - rewrite <- !app_assoc. constructor; auto using ws_app.
  - rewrite <- !app_assoc. apply m_cons; auto.
Qed.
Lemma elems_snoc : forall l t, elems plain l t -> l <> [] -> forall v tv w1 w2, ws w1 -> val plain v tv -> ws w2 ->
  elems plain (l ++ [v]) (t ++ [44] ++ w1 ++ tv ++ w2).
Proof.
  induction 1; intros Hl u tu u1 u2 Hu1 Hu Hu2; [congruence| |].
  - rewrite <- !app_assoc. apply e_cons; auto. apply e_one; auto.
  - rewrite <- !app_assoc. cbn [app]. apply e_cons; auto. apply IHelems; auto. discriminate.
Qed.
Lemma members_snoc : forall l t, members plain l t -> l <> [] -> forall n nt v tv w1 w2 w3 w4,
  ws w1 -> str_text plain n nt -> ws w2 -> ws w3 -> val plain v tv -> ws w4 ->
  members plain (l ++ [(n, v)]) (t ++ [44] ++ w1 ++ [34] ++ nt ++ [34] ++ w2 ++ [58] ++ w3 ++ tv ++ w4).
Proof.
  induction 1; intros Hl u ut x xt u1 u2 u3 u4 Hu1 Hu Hu2 Hu3 Hx Hu4; [congruence| |].
  - rewrite <- !app_assoc. apply m_cons; auto. apply m_one; auto.
  - rewrite <- !app_assoc. cbn [app]. apply m_cons; auto. apply (IHmembers) ; auto. discriminate.
Qed.

Lemma plain_str_text : forall s, plain_string plain s -> str_text plain s s.
Proof. induction 1 as [|c s (H1 & H2 & H3)]; constructor; auto. Qed.

(** A complete value at a position. *)
Lemma after_value : forall k pre pt v t, Pos k pre pt -> val plain v t -> fitd k v ->
  Inv k (top k) false (pre ++ t) (pt ++ tokens v).
Proof.
  intros k pre pt v t HP Hv Hfit. inversion HP; subst; cbn [top].
  - replace (flat_map tokens vs ++ tokens v) with (flat_map tokens (vs ++ [v])) by (rewrite flat_map_app; cbn [flat_map]; rewrite app_nil_r; reflexivity).
    unfold fitd in Hfit; rewrite zlen_nil in Hfit.
    apply inv_top; [|apply Forall_app; split; [assumption|constructor; [lia|constructor]]].
    rewrite <- (app_nil_r t). apply docs_snoc; auto. constructor.
  - rewrite <- !app_assoc. cbn [app]. change (pt0 ++ TBegA :: tokens v) with (pt0 ++ TBegA :: tokens v).
    rewrite <- (app_nil_r (tokens v)). change (tokens v ++ []) with (flat_map tokens [v]).
    apply (inv_arr k0 pre0 pt0 [v] (w ++ t)); try assumption; try discriminate.
    + rewrite <- (app_nil_r t). apply e_one; auto. constructor.
    + constructor; auto.
  - replace ((pt0 ++ TBegA :: flat_map tokens l) ++ tokens v) with (pt0 ++ TBegA :: flat_map tokens (l ++ [v]))
      by (rewrite flat_map_app; cbn [flat_map]; rewrite app_nil_r, <- app_assoc; reflexivity).
    rewrite <- !app_assoc. apply inv_arr; auto.
    + destruct l; discriminate.
    + pose proof (elems_snoc l t0 H2 H1 v t w [] H4 Hv (Forall_nil _)) as E. rewrite app_nil_r in E. exact E.
    + apply Forall_app; split; auto.
  - replace ((pt0 ++ [TBegO; TProp n]) ++ tokens v) with (pt0 ++ TBegO :: flat_map mtokens [(n, v)])
      by (cbn [flat_map mtokens]; rewrite app_nil_r, <- app_assoc; reflexivity).
    rewrite <- !app_assoc. cbn [app]. apply (inv_obj2 k0 pre0 pt0 [(n, v)]); try assumption; try discriminate; [|constructor; auto].
    pose proof (m_one plain n v n t w [] w' [] H1 (plain_str_text _ H2) (Forall_nil _) H3 Hv (Forall_nil _)) as E.
    rewrite app_nil_r in E. exact E.
  - replace ((pt0 ++ TBegO :: flat_map mtokens l ++ [TProp n]) ++ tokens v) with (pt0 ++ TBegO :: flat_map mtokens (l ++ [(n, v)]))
      by (rewrite flat_map_app; cbn [flat_map mtokens]; rewrite app_nil_r, <- app_assoc; cbn [app]; rewrite <- app_assoc; reflexivity).
    rewrite <- !app_assoc. apply inv_obj2; auto.
    + destruct l; discriminate.
    + pose proof (members_snoc l t0 H2 H1 n n v t [] [] w' [] (Forall_nil _) (plain_str_text _ H4) (Forall_nil _) H5 Hv (Forall_nil _)) as E.
      rewrite app_nil_r in E. exact E.
    + apply Forall_app; split; auto.
Qed.

Lemma pos_ws : forall k t pt w, Pos k t pt -> ws w -> Pos k (t ++ w) pt.
Proof.
  intros k t pt w HP Hw. inversion HP; subst; rewrite <- ?app_assoc.
  - apply pos_top; auto using docs_ws.
  - apply pos_first; auto using ws_app.
  - apply pos_next; auto using ws_app.
  - apply pos_prop1; auto using ws_app.
  - apply pos_prop2; auto using ws_app.
Qed.
Lemma inv_ws : forall k e sc t pt w, Inv k e sc t pt -> ws w -> Inv k e sc (t ++ w) pt.
Proof.
  intros k e sc t pt w HI Hw. inversion HI; subst; rewrite <- ?app_assoc.
  - apply inv_top; auto using docs_ws.
  - apply inv_first; auto using ws_app.
  - apply inv_prop. apply pos_ws; assumption.
  - apply inv_arr; auto using elems_ws.
  - apply inv_obj1; auto using ws_app.
  - apply inv_obj2; auto using members_ws.
Qed.
End Inv.

(** *** One call *)
Definition WInv (plain : Z -> Prop) (w : wr) (toks : list token) : Prop :=
  Inv plain (wmax w) (wstk w) (wexp w) (skip_comma w) (out w) toks.

(** The position after the comma that a value call writes. *)
Lemma comma_pos : forall plain L k e sc t pt, Inv plain L k e sc t pt -> e && top k = false ->
  Pos plain L k (t ++ (match k with l :: _ => if Bool.eqb l false && negb sc then [44] else [] | [] => [] end)) pt.
Proof.
  intros plain L k e sc t pt HI He. inversion HI; subst; cbn [top andb] in He; try discriminate; rewrite ?app_nil_r.
  - apply pos_top; assumption.
  - cbn [Bool.eqb negb andb]. apply pos_first; assumption.
  - cbn [Bool.eqb andb]. assumption.
  - cbn [Bool.eqb negb andb]. rewrite <- !app_assoc.
    pose proof (pos_next plain L k0 pre pt0 l t0 [] H H0 H1 H2 H3 (Forall_nil _)) as P. rewrite app_nil_r in P. exact P.
Qed.

Lemma scalar_inv : forall plain w toks text v t, WInv plain w toks -> val plain v text -> tokens v = [t] -> depth v = 0 -> zlen (wstk w) <= wmax w ->
  wbad (put_scalar w text) = false -> WInv plain (put_scalar w text) (toks ++ [t]).
Proof.
  intros plain w toks text v t HI Hv Ht Hd HL Hg. unfold put_scalar in *. destruct (wexpect w) eqn:E; [discriminate|].
  cbn [wbad w_upd] in Hg.
  destruct (put_chars_spec _ _ Hg) as (G1 & G2 & G3 & G4 & G5 & G6).
  destruct (comma_spec _ _ G1) as (C1 & C2 & C3 & C4 & C5 & C6).
  unfold WInv. cbn [wmax wstk wexp skip_comma out w_upd]. rewrite G2, G3, G4, C2, C3, C4. cbn [andb]. rewrite <- Ht.
  apply after_value; [|assumption|unfold fitd; lia]. apply (comma_pos plain (wmax w) (wstk w) (wexp w) (skip_comma w)); assumption.
Qed.

Lemma pos_levels : forall plain L k t pt, Pos plain L k t pt -> 0 <= L -> zlen k <= L.
Proof. intros plain L k t pt H HL. inversion H; subst; rewrite ?zlen_nil, ?zlen_cons; lia. Qed.
Lemma inv_levels : forall plain L k e sc t pt, Inv plain L k e sc t pt -> 0 <= L -> zlen k <= L.
Proof.
  intros plain L k e sc t pt H HL. inversion H; subst; rewrite ?zlen_nil, ?zlen_cons; try lia.
  apply pos_levels in H0; [|assumption]. rewrite zlen_cons in H0. lia.
Qed.

Lemma begin_inv : forall plain (o : bool) w toks, WInv plain w toks ->
  wbad (if o then put_begin_object w else put_begin_array w) = false ->
  WInv plain (if o then put_begin_object w else put_begin_array w) (toks ++ [if o then TBegO else TBegA]).
Proof.
  intros plain o w toks HI Hg. pose (w1 := put_chars (comma_if w false) [if o then 123 else 91]).
  assert (E : (if o then put_begin_object w else put_begin_array w)
    = if wexpect w then w_set_bad w else w_upd (w_push w1 o) (wstk (w_push w1 o)) o true) by (destruct o; reflexivity).
  rewrite E in *. clear E. destruct (wexpect w) eqn:E; [discriminate|]. cbn [wbad w_upd] in Hg.
  unfold w_push in *. destruct (wmax w1 <=? wlevels w1) eqn:El; [discriminate|]. cbn [wbad w_upd wstk] in *.
  destruct (put_chars_spec _ _ Hg) as (G1 & G2 & G3 & G4 & G5 & G6). fold w1 in G2, G3, G4, G5, G6.
  destruct (comma_spec _ _ G1) as (C1 & C2 & C3 & C4 & C5 & C6).
  unfold wlevels in El. unfold WInv. cbn [wmax wstk wexp skip_comma out w_upd]. rewrite G2, G3, G4, C2, C3, C4 in *.
  pose proof (comma_pos plain (wmax w) (wstk w) (wexp w) (skip_comma w) _ _ HI E) as HP.
  assert (zlen (wstk w) < wmax w) by lia.
  destruct o; cbn [andb].
  - pose proof (inv_obj1 plain (wmax w) _ _ _ [] HP H (Forall_nil _)) as R. rewrite app_nil_r in R. exact R.
  - pose proof (inv_first plain (wmax w) _ _ _ [] HP H (Forall_nil _)) as R. rewrite app_nil_r in R. exact R.
Qed.

Lemma depth_nonneg : forall v, 0 <= depth v.
Proof.
  destruct v; cbn [depth]; try lia.
  - induction l; cbn [map fold_right]; lia.
  - induction l; cbn [map fold_right]; lia.
Qed.
Lemma fold_max_le : forall l b, 0 <= b -> Forall (fun v => depth v <= b) l -> fold_right Z.max 0 (map depth l) <= b.
Proof. induction 2; cbn [map fold_right]; lia. Qed.
Lemma fold_max_le_m : forall l b, 0 <= b -> Forall (fun p => depth (snd p) <= b) l -> fold_right Z.max 0 (map mdepth l) <= b.
Proof. induction 2 as [|[n v]]; cbn [map fold_right mdepth snd] in *; lia. Qed.

Lemma end_array_inv : forall plain w toks, WInv plain w toks ->
  wbad (put_end_array w) = false -> WInv plain (put_end_array w) (toks ++ [TEndA]).
Proof.
  intros plain w toks HI Hg. unfold put_end_array in *. destruct (wexpect w) eqn:E; [discriminate|].
  unfold w_pop in *. cbn [wbad w_upd] in Hg.
  destruct (wstk (put_chars w [93])) as [|l k] eqn:Ek; [discriminate|].
  destruct (Bool.eqb l false) eqn:El; [|discriminate]. cbn [wbad w_upd] in Hg.
  destruct (put_chars_spec _ _ Hg) as (G1 & G2 & G3 & G4 & G5 & G6).
  unfold WInv in *. cbn [wmax wstk wexp skip_comma out w_upd]. rewrite G2, G3 in *.
  apply eqb_prop in El. subst l. rewrite <- G4, Ek in HI. cbn [andb]. fold (top k).
  clear G3; try clear C3; set (L := wmax w) in *; clearbody L. inversion HI; subst.
  - replace ((pt ++ [TBegA]) ++ [TEndA]) with (pt ++ tokens (JArr [])) by (rewrite <- app_assoc; reflexivity).
    rewrite <- app_assoc.
    apply after_value; auto; [apply (v_arr plain [] w0); constructor; auto|unfold fitd; cbn [depth map fold_right]; lia].
  - replace ((pt ++ TBegA :: flat_map tokens l) ++ [TEndA]) with (pt ++ tokens (JArr l)) by (cbn [tokens]; rewrite <- app_assoc; reflexivity).
    rewrite <- app_assoc.
    apply after_value; auto; [apply (v_arr plain l t); auto|]. unfold fitd. cbn [depth].
    enough (fold_right Z.max 0 (map depth l) <= L - zlen k - 1) by lia.
    apply fold_max_le; [lia|]. eapply Forall_impl; [|eassumption]. unfold fitd. intros a Ha. rewrite zlen_cons in Ha. lia.
Qed.

Lemma end_object_inv : forall plain w toks, WInv plain w toks ->
  wbad (put_end_object w) = false -> WInv plain (put_end_object w) (toks ++ [TEndO]).
Proof.
  intros plain w toks HI Hg. unfold put_end_object in *. destruct (negb (wexpect w)) eqn:E; [discriminate|].
  unfold w_pop in *. cbn [wbad w_upd] in Hg.
  destruct (wstk (put_chars w [125])) as [|l k] eqn:Ek; [discriminate|].
  destruct (Bool.eqb l true) eqn:El; [|discriminate]. cbn [wbad w_upd] in Hg.
  destruct (put_chars_spec _ _ Hg) as (G1 & G2 & G3 & G4 & G5 & G6).
  unfold wexpect in E. unfold WInv in *. cbn [wmax wstk wexp skip_comma out w_upd]. rewrite G2, G3 in *.
  apply eqb_prop in El. subst l. rewrite <- G4, Ek in HI, E. cbn [andb]. fold (top k).
  clear G3; try clear C3; set (L := wmax w) in *; clearbody L. replace (wexp w) with true in HI by (destruct (wexp w); [reflexivity|discriminate]).
  inversion HI; subst.
  - replace ((pt ++ [TBegO]) ++ [TEndO]) with (pt ++ tokens (JObj [])) by (rewrite <- app_assoc; reflexivity).
    rewrite <- app_assoc.
    apply after_value; auto; [apply (v_obj plain [] w0); constructor; auto|unfold fitd; cbn [depth map fold_right]; lia].
  - replace ((pt ++ TBegO :: flat_map mtokens l) ++ [TEndO]) with (pt ++ tokens (JObj l)) by (cbn [tokens]; rewrite <- app_assoc; reflexivity).
    rewrite <- app_assoc.
    apply after_value; auto; [apply (v_obj plain l t); auto|]. unfold fitd. cbn [depth]. fold mdepth.
    enough (fold_right Z.max 0 (map mdepth l) <= L - zlen k - 1) by lia.
    apply fold_max_le_m; [lia|]. eapply Forall_impl; [|eassumption]. unfold fitd. intros a Ha. rewrite zlen_cons in Ha. lia.
Qed.

Lemma property_inv : forall plain w toks n, WInv plain w toks -> plain_string plain n ->
  wbad (put_property w n) = false -> WInv plain (put_property w n) (toks ++ [TProp n]).
Proof.
  intros plain w toks n HI Hn Hg. unfold put_property in *. destruct (negb (wexpect w)) eqn:E; [discriminate|].
  cbn [wbad w_upd] in Hg.
  destruct (put_chars_spec _ _ Hg) as (G1 & G2 & G3 & G4 & G5 & G6).
  destruct (comma_spec _ _ G1) as (C1 & C2 & C3 & C4 & C5 & C6).
  unfold wexpect in E. unfold WInv in *. cbn [wmax wstk wexp skip_comma out w_upd]. rewrite G2, G3, G4, C2, C3, C4 in *.
  cbn [andb]. unfold comma_text. destruct (wstk w) as [|[|] k] eqn:Ek; try (rewrite andb_comm in E; discriminate).
  replace (wexp w) with true in HI by (destruct (wexp w); [reflexivity|discriminate]). cbn [Bool.eqb andb].
  clear G3; try clear C3; set (L := wmax w) in *; clearbody L. apply inv_prop.
  inversion HI; subst; cbn [negb].
  - rewrite app_nil_r, <- !app_assoc. cbn [app].
    assert (R : Pos plain L (true :: k) (pre ++ [123] ++ w0 ++ [34] ++ n ++ [34; 58] ++ []) (pt ++ [TBegO; TProp n])) by (apply pos_prop1; auto; constructor).
    rewrite app_nil_r in R. exact R.
  - rewrite <- !app_assoc. cbn [app].
    assert (R : Pos plain L (true :: k) (pre ++ [123] ++ t ++ [44] ++ [34] ++ n ++ [34; 58] ++ []) (pt ++ TBegO :: flat_map mtokens l ++ [TProp n])) by (apply pos_prop2; auto; constructor).
    rewrite app_nil_r in R. exact R.
Qed.

Lemma op_inv : forall plain w toks o, WInv plain w toks -> 0 <= wmax w -> op_ok plain o -> wbad (put_op_run w o) = false ->
  WInv plain (put_op_run w o) (toks ++ op_tokens [o]).
Proof.
  intros plain w toks o HI HL Ho Hg. pose proof (inv_levels _ _ _ _ _ _ _ HI HL) as Hk. destruct o as [t|c]; cbn [put_op_run op_tokens flat_map app] in *.
  - destruct t; cbn [put_token op_ok] in *.
    + discriminate.
    + apply (scalar_inv plain w toks _ JNull); auto. constructor.
    + apply (scalar_inv plain w toks _ (JBool b)); auto. destruct b; constructor.
    + apply (scalar_inv plain w toks _ (JNum text)); auto. constructor; assumption.
    + apply (scalar_inv plain w toks _ (JStr s)); auto. constructor. apply plain_str_text; assumption.
    + apply (begin_inv plain false); assumption.
    + apply end_array_inv; assumption.
    + apply (begin_inv plain true); assumption.
    + apply end_object_inv; assumption.
    + apply property_inv; assumption.
  - destruct (put_chars_spec _ _ Hg) as (G1 & G2 & G3 & G4 & G5 & G6). unfold WInv. rewrite G2, G3, G4, G5, G6, app_nil_r.
    apply (inv_ws plain _ _ _ _ (out w) toks [c]); [assumption|constructor; [assumption|constructor]].
Qed.

Lemma op_wmax : forall w o, wmax (put_op_run w o) = wmax w.
Proof.
  assert (P : forall l w, wmax (put_chars w l) = wmax w).
  { induction l; intros; cbn [put_chars]; [reflexivity|]. destruct (wbad w); [reflexivity|]. rewrite IHl. unfold w_put1. destruct (room w) as [[|]|]; reflexivity. }
  assert (C : forall w l, wmax (comma_if w l) = wmax w) by (intros; unfold comma_if; destruct (_ && _); auto).
  assert (Q : forall w l, wmax (w_push w l) = wmax w) by (intros; unfold w_push; destruct (_ <=? _); reflexivity).
  assert (R : forall w l, wmax (w_pop w l) = wmax w) by (intros; unfold w_pop; destruct (wstk w); [reflexivity|]; destruct (Bool.eqb _ _); reflexivity).
  intros w o. destruct o as [t|c]; cbn [put_op_run]; [|apply P].
  destruct t; cbn [put_token]; unfold put_scalar, put_begin_array, put_end_array, put_begin_object, put_end_object, put_property;
    try reflexivity; match goal with |- context[if ?b then _ else _] => destruct b end; cbn [wmax w_upd w_set_bad]; rewrite ?Q, ?R, ?P, ?C; try reflexivity;
    destruct b; rewrite ?P, ?C; reflexivity.
Qed.

Lemma ops_inv : forall plain ops w toks, WInv plain w toks -> 0 <= wmax w -> Forall (op_ok plain) ops -> wbad (put_ops w ops) = false ->
  WInv plain (put_ops w ops) (toks ++ op_tokens ops).
Proof.
  intros plain ops. induction ops as [|o ops IH]; intros w toks HI HL Ho Hg.
  - cbn [op_tokens flat_map put_ops fold_left]. rewrite app_nil_r. assumption.
  - inversion Ho; subst. change (put_ops w (o :: ops)) with (put_ops (put_op_run w o) ops) in *.
    assert (wbad (put_op_run w o) = false).
    { destruct (wbad (put_op_run w o)) eqn:E; [|reflexivity]. destruct (put_ops_bad ops _ E). congruence. }
    change (op_tokens (o :: ops)) with ((match o with Tok t => [t] | Ws _ => [] end) ++ op_tokens ops). rewrite app_assoc.
    apply IH; auto; [|rewrite op_wmax; assumption].
    pose proof (op_inv plain w toks o HI HL H1 H) as R. unfold op_tokens in R. cbn [flat_map] in R. rewrite app_nil_r in R. exact R.
Qed.

Lemma writer_docs : forall plain L rm ops, 0 <= L -> Forall (op_ok plain) ops ->
  wbad (put_ops (writer L rm) ops) = false -> wstk (put_ops (writer L rm) ops) = [] ->
  exists vs, op_tokens ops = flat_map tokens vs /\ docs plain vs (out (put_ops (writer L rm) ops)) /\ Forall (fun v => depth v <= L) vs.
Proof.
  intros plain L rm ops HL Ho Hg Hk.
  assert (I0 : WInv plain (writer L rm) []).
  { unfold WInv. cbn. apply (inv_top plain L [] [] false); [constructor; constructor|constructor]. }
  pose proof (ops_inv plain ops _ [] I0 HL Ho Hg) as HI. unfold WInv in HI. rewrite Hk in HI.
  assert (EL : wmax (put_ops (writer L rm) ops) = L).
  { assert (forall o w, wmax (put_ops w o) = wmax w) as M; [|apply M]. induction o as [|x o IHo]; intro w; [reflexivity|].
    change (put_ops w (x :: o)) with (put_ops (put_op_run w x) o). rewrite IHo. apply op_wmax. }
  rewrite EL in HI. cbn [app] in HI. inversion HI; subst. exists vs. auto.
Qed.

(** *** Token sequences determine the value *)
Lemma jv_ind' : forall P : jv -> Prop, P JNull -> (forall b, P (JBool b)) -> (forall t, P (JNum t)) -> (forall s, P (JStr s)) ->
  (forall l, Forall P l -> P (JArr l)) -> (forall l, Forall (fun p => P (snd p)) l -> P (JObj l)) -> forall v, P v.
Proof.
  intros P H1 H2 H3 H4 H5 H6. fix F 1. intro v. destruct v as [|b|t|s|l|l].
  - exact H1.
  - apply H2.
  - apply H3.
  - apply H4.
  - apply H5. induction l as [|x l IH]; constructor; [apply F|exact IH].
  - apply H6. induction l as [|[n x] l IH]; constructor; [apply F|exact IH].
Qed.

Lemma tokens_head : forall v, exists h tl, tokens v = h :: tl /\ h <> TEndA /\ h <> TEndO /\ (forall n, h <> TProp n).
Proof. destruct v; cbn [tokens]; eexists _, _; (split; [reflexivity|]); repeat split; discriminate. Qed.

Lemma tokens_inj : forall v v' r r', tokens v ++ r = tokens v' ++ r' -> v = v' /\ r = r'.
Proof.
  induction v using jv_ind'; intros v' r r' H0; destruct v'; cbn [tokens app] in H0; try discriminate;
    try (injection H0; intros; subst; auto; fail).
  - injection H0 as H0. rewrite <- !app_assoc in H0. enough (l = l0 /\ r = r') by (intuition congruence).
    revert l0 H0. induction H as [|v l Hv Hl IH]; intros l0 H0.
    + destruct l0 as [|v0 l0]; cbn [flat_map app] in H0; [injection H0; auto|]. exfalso.
      destruct (tokens_head v0) as (h & tl & Eh & Hh & _). rewrite Eh in H0. cbn [app] in H0. congruence.
    + destruct l0 as [|v0 l0]; cbn [flat_map] in H0.
      * exfalso. destruct (tokens_head v) as (h & tl & Eh & Hh & _). rewrite Eh in H0. cbn [app] in H0. congruence.
      * rewrite <- !app_assoc in H0. apply Hv in H0 as (-> & H0). apply IH in H0 as (-> & ->). auto.
  - injection H0 as H0. rewrite <- !app_assoc in H0. enough (l = l0 /\ r = r') by (intuition congruence).
    revert l0 H0. induction H as [|[n v] l Hv Hl IH]; intros l0 H0.
    + destruct l0 as [|[n0 v0] l0]; cbn [flat_map app] in H0; [injection H0; auto|discriminate].
    + destruct l0 as [|[n0 v0] l0]; cbn [flat_map app] in H0; [discriminate|].
      injection H0 as -> H0. rewrite <- !app_assoc in H0. cbn [snd] in Hv. apply Hv in H0 as (-> & H0). apply IH in H0 as (-> & ->). auto.
Qed.

Lemma one_value : forall v vs, tokens v = flat_map tokens vs -> vs = [v].
Proof.
  intros v vs H. destruct vs as [|v1 vs].
  - destruct (tokens_head v) as (h & tl & E & _). rewrite E in H. discriminate.
  - cbn [flat_map] in H. rewrite <- (app_nil_r (tokens v)) in H. apply tokens_inj in H as (-> & H).
    destruct vs as [|v2 vs]; [reflexivity|]. cbn [flat_map] in H.
    destruct (tokens_head v2) as (h & tl & E & _). rewrite E in H. discriminate.
Qed.

(** *** The writer accepts every tree that is not too deep *)
Definition acc (L : Z) (st : list bool * bool) (t : token) : option (list bool * bool) :=
  let '(k, e) := st in
  match t with
  | TNone => None
  | TProp _ => if e then Some (k, false) else None
  | TBegA => if e then None else if L <=? zlen k then None else Some (false :: k, false)
  | TBegO => if e then None else if L <=? zlen k then None else Some (true :: k, true)
  | TEndA => if e then None else match k with false :: k' => Some (k', top k') | _ => None end
  | TEndO => if e then match k with true :: k' => Some (k', top k') | _ => None end else None
  | _ => if e then None else Some (k, top k)
  end.
Fixpoint accs (L : Z) (st : list bool * bool) (l : list token) : option (list bool * bool) :=
  match l with [] => Some st | t :: l' => match acc L st t with Some st' => accs L st' l' | None => None end end.

Lemma accs_app : forall L a b st, accs L st (a ++ b) = match accs L st a with Some st' => accs L st' b | None => None end.
Proof. induction a; intros; cbn [accs app]; [reflexivity|]. destruct (acc L st a); auto. Qed.

Lemma accs_value : forall L v k, zlen k + depth v <= L -> accs L (k, false) (tokens v) = Some (k, top k).
Proof.
  induction v using jv_ind'; intros k Hd; cbn [tokens depth] in *; try reflexivity.
  - assert (0 <= fold_right Z.max 0 (map depth l)) by (clear; induction l; cbn [fold_right map]; lia).
    cbn [accs acc]. replace (L <=? zlen k) with false by lia. rewrite accs_app.
    replace (accs L (false :: k, false) (flat_map tokens l)) with (Some (false :: k, false)); [reflexivity|].
    symmetry. clear H0. induction H as [|v l Hv Hl IH]; [reflexivity|]. cbn [map fold_right] in Hd.
    cbn [flat_map]. rewrite accs_app, Hv by (rewrite zlen_cons; lia). apply IH. lia.
  - change (map (fun p : list Z * jv => let (_, v) := p in depth v) l) with (map mdepth l) in *.
    assert (0 <= fold_right Z.max 0 (map mdepth l)) by (clear; induction l; cbn [fold_right map]; lia).
    cbn [accs acc]. replace (L <=? zlen k) with false by lia. rewrite accs_app.
    change (flat_map (fun p : list Z * jv => let (n, v) := p in TProp n :: tokens v) l) with (flat_map mtokens l).
    replace (accs L (true :: k, true) (flat_map mtokens l)) with (Some (true :: k, true)); [reflexivity|].
    symmetry. clear H0. induction H as [|[n v] l Hv Hl IH]; [reflexivity|]. cbn [map fold_right mdepth] in Hd. cbn [snd] in Hv.
    cbn [flat_map mtokens app accs acc]. rewrite accs_app, Hv by (rewrite zlen_cons; lia). apply IH. lia.
Qed.

Definition wgood (w : wr) (k : list bool) (e : bool) : Prop := wbad w = false /\ room w = None /\ wstk w = k /\ wexp w = e /\ (e = true -> top k = true).

Lemma put_chars_room : forall l w, wbad w = false -> room w = None -> wbad (put_chars w l) = false /\ room (put_chars w l) = None.
Proof.
  induction l; intros; cbn [put_chars]; [auto|]. rewrite H. apply IHl; unfold w_put1; rewrite H0; cbn; auto.
Qed.
Lemma put_chars_same : forall l w, wstk (put_chars w l) = wstk w /\ wexp (put_chars w l) = wexp w /\ wmax (put_chars w l) = wmax w.
Proof.
  induction l; intros; cbn [put_chars]; [auto|]. destruct (wbad w); [auto|]. destruct (IHl (w_put1 w a)) as (-> & -> & ->). unfold w_put1. destruct (room w) as [[|]|]; auto.
Qed.
Lemma comma_same : forall l w, wstk (comma_if w l) = wstk w /\ wexp (comma_if w l) = wexp w /\ wmax (comma_if w l) = wmax w.
Proof. intros. unfold comma_if. destruct (_ && _); [apply put_chars_same|auto]. Qed.
Lemma comma_room : forall l w, wbad w = false -> room w = None -> wbad (comma_if w l) = false /\ room (comma_if w l) = None.
Proof. intros. unfold comma_if. destruct (_ && _); [apply put_chars_room; assumption|auto]. Qed.

Lemma acc_step : forall w k e t k' e', wgood w k e -> acc (wmax w) (k, e) t = Some (k', e') -> wgood (put_token w t) k' e'.
Proof.
  intros w k e t k' e' (Hb & Hr & Hk & He & Het) Ha.
  assert (Hx : wexpect w = e).
  { unfold wexpect. rewrite He, Hk. fold (top k). destruct e; [rewrite Het; reflexivity|reflexivity]. }
  assert (S : forall x, e = false -> wgood (put_scalar w x) k (top k)).
  { intros x Ee. unfold put_scalar. rewrite Hx, Ee. destruct (comma_room false w Hb Hr) as (B1 & R1).
    destruct (comma_same false w) as (K1 & E1 & M1). destruct (put_chars_room x _ B1 R1) as (B2 & R2).
    destruct (put_chars_same x (comma_if w false)) as (K2 & E2 & M2).
    unfold wgood. cbn [wbad room wstk wexp w_upd]. rewrite K2, K1, Hk. cbn [andb]. auto. }
  assert (Bg : forall (o : bool) x, e = false -> wmax w <=? zlen k = false ->
     let w1 := w_push (put_chars (comma_if w false) x) o in wgood (w_upd w1 (wstk w1) o true) (o :: k) o).
  { intros o x Ee El. destruct (comma_room false w Hb Hr) as (B1 & R1).
    destruct (comma_same false w) as (K1 & E1 & M1). destruct (put_chars_room x _ B1 R1) as (B2 & R2).
    destruct (put_chars_same x (comma_if w false)) as (K2 & E2 & M2). unfold w_push, wlevels. rewrite K2, K1, M2, M1, Hk, El.
    unfold wgood. cbn [wbad room wstk wexp w_upd top]. repeat split; auto; destruct o; (reflexivity || discriminate). }
  assert (En : forall (o : bool) x k0, k = o :: k0 ->
     let w1 := w_pop (put_chars w x) o in wgood (w_upd w1 (wstk w1) true false) k0 (top k0)).
  { intros o x k0 Ek. destruct (put_chars_room x _ Hb Hr) as (B2 & R2).
    destruct (put_chars_same x w) as (K2 & E2 & M2). unfold w_pop. rewrite K2, Hk, Ek, Bool.eqb_reflx.
    unfold wgood. cbn [wbad room wstk wexp w_upd]. repeat split; auto. }
  destruct t; cbn [acc put_token] in *.
  - discriminate.
  - destruct e; [discriminate|]. injection Ha as <- <-. auto.
  - destruct e; [discriminate|]. injection Ha as <- <-. auto.
  - destruct e; [discriminate|]. injection Ha as <- <-. auto.
  - destruct e; [discriminate|]. injection Ha as <- <-. auto.
  - destruct e; [discriminate|]. destruct (wmax w <=? zlen k) eqn:El; [discriminate|]. injection Ha as <- <-.
    unfold put_begin_array. rewrite Hx. apply (Bg false [91]); auto.
  - destruct e; [discriminate|]. destruct k as [|[|] k0]; try discriminate. injection Ha as <- <-.
    unfold put_end_array. rewrite Hx. apply (En false [93]); auto.
  - destruct e; [discriminate|]. destruct (wmax w <=? zlen k) eqn:El; [discriminate|]. injection Ha as <- <-.
    unfold put_begin_object. rewrite Hx. apply (Bg true [123]); auto.
  - destruct e; [|discriminate]. destruct k as [|[|] k0]; try discriminate. injection Ha as <- <-.
    unfold put_end_object. rewrite Hx. apply (En true [125]); auto.
  - destruct e; [|discriminate]. injection Ha as <- <-.
    unfold put_property. rewrite Hx. cbn [negb]. destruct (comma_room true w Hb Hr) as (B1 & R1).
    destruct (comma_same true w) as (K1 & E1 & M1). destruct (put_chars_room ([34] ++ s ++ [34; 58]) _ B1 R1) as (B2 & R2).
    destruct (put_chars_same ([34] ++ s ++ [34; 58]) (comma_if w true)) as (K2 & E2 & M2).
    unfold wgood. cbn [wbad room wstk wexp w_upd]. rewrite K2, K1, Hk. repeat split; auto.
Qed.

Lemma accs_run : forall ops w k e k' e', wgood w k e -> accs (wmax w) (k, e) (op_tokens ops) = Some (k', e') ->
  wgood (put_ops w ops) k' e'.
Proof.
  induction ops as [|o ops IH]; intros w k e k' e' Hg Ha; cbn [op_tokens flat_map] in Ha.
  - injection Ha as <- <-. exact Hg.
  - change (put_ops w (o :: ops)) with (put_ops (put_op_run w o) ops). destruct o as [t|c].
    + cbn [app accs] in Ha. destruct (acc (wmax w) (k, e) t) as [[k1 e1]|] eqn:E; [|discriminate].
      apply (IH _ k1 e1); [apply (acc_step w k e t); assumption|]. rewrite op_wmax. exact Ha.
    + cbn [app] in Ha. cbn [put_op_run]. destruct Hg as (H1 & H2 & H3 & H4 & H5).
      destruct (put_chars_room [c] w H1 H2) as (B & R). destruct (put_chars_same [c] w) as (K & E & M).
      apply (IH _ k e); [unfold wgood; rewrite K, E; auto|]. rewrite M. exact Ha.
Qed.

Lemma writer_accepts : forall L v ops, depth v <= L -> op_tokens ops = tokens v ->
  let w := put_ops (writer L None) ops in wbad w = false /\ wstk w = [].
Proof.
  intros L v ops Hd Ho w. assert (wgood w [] false) as (H1 & _ & H2 & _); [|auto].
  apply (accs_run ops (writer L None) [] false); [repeat split; auto; discriminate|].
  rewrite Ho. apply (accs_value L v []). rewrite zlen_nil. cbn. lia.
Qed.

(** *** From runs of tokens to the calls of the reader *)
Lemma run_get_tokens : forall fuel L b ts c c', Run fuel L b ts c c' -> forall bufs m n,
  (forall i, sizeof_token <= zlen (bufs i) < 2 ^ 64 /\ Forall (tok_fits (zlen (bufs i))) ts) ->
  exists m' n', get_tokens fuel (length ts) bufs (gst L (cinp c) (ck c) (ce c) m n) = Ret (map Some ts, gst L (cinp c') (ck c') (ce c') m' n').
Proof.
  intros fuel L b ts c c' R. induction R as [c|t ts c c1 c2 HT Hb R IH]; intros bufs m n Hbufs.
  - exists m, n. reflexivity.
  - cbn [length get_tokens]. destruct (Hbufs (length ts)) as (Hsz & Hfit). inversion Hfit; subst.
    unfold get_token. replace (zlen (bufs (length ts)) <? sizeof_token) with false by lia.
    destruct (HT (Some (bufs (length ts)))) as (it & m1 & n1 & E & Eo); [split; assumption|].
    change (with_mem (gst L (cinp c) (ck c) (ce c) m n) (Some (bufs (length ts)))) with (gst L (cinp c) (ck c) (ce c) (Some (bufs (length ts))) []).
    cbn [size_of] in E. rewrite E. cbn [bind].
    destruct (IH bufs m1 n1) as (m2 & n2 & E2).
    { intro i. destruct (Hbufs i) as (? & HF). split; [assumption|]. inversion HF; assumption. }
    rewrite E2. cbn [bind]. exists m2, n2. rewrite Eo by discriminate. reflexivity.
Qed.

Lemma run_skip : forall fuel L b ts c c', Run fuel L b ts c c' -> ts <> [] -> zlen (ck c') <= b ->
  forall N m n, (length ts <= N)%nat ->
  exists it m' n', skip_loop fuel N b (gst L (cinp c) (ck c) (ce c) m n) = Ret (it, gst L (cinp c') (ck c') (ce c') m' n').
Proof.
  intros fuel L b ts c c' R. induction R as [c|t ts c c1 c2 HT Hb R IH]; intros Hne Hend N m n HN; [congruence|].
  cbn [length] in HN. destruct N as [|N]; [lia|]. cbn [skip_loop].
  destruct (HT None I) as (it & m1 & n1 & E & _). cbn [size_of] in E.
  change (with_mem (gst L (cinp c) (ck c) (ce c) m n) None) with (gst L (cinp c) (ck c) (ce c) None []). rewrite E. cbn [bind].
  unfold levels. cbn [stk gst]. fold (gst L (cinp c1) (ck c1) (ce c1) m1 n1).
  destruct ts as [|t' ts].
  - inversion R; subst. replace (b <? zlen (ck c2)) with false by lia. eexists _, _, _. reflexivity.
  - replace (b <? zlen (ck c1)) with true by (specialize (Hb ltac:(discriminate)); lia).
    apply IH; [discriminate|assumption|lia].
Qed.

Lemma tokens_nonempty : forall v, tokens v <> [].
Proof. intro v. destruct (tokens_head v) as (h & tl & -> & _). discriminate. Qed.
