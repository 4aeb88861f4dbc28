(** Proofs for C68-C72: the JSON texts of the responses. *)

From Coq Require Import ZArith List Bool Lia.
From Verif Require Import Base ListMem Json_Model Json_Spec Json_Writer.
From Verif Require Import Rest_Spec.
Import ListNotations.
Open Scope list_scope.
Open Scope Z_scope.

(** A good writer with room for [rm] characters. *)
Definition wst (o : list Z) (rm : nat) (L : Z) (k : list bool) (e sc : bool) : wr :=
  {| out := o; room := Some rm; wbad := false; wmax := L; wstk := k; wexp := e; skip_comma := sc |}.

Lemma chars_wst : forall l o rm L k e sc, (length l <= rm)%nat ->
  put_chars (wst o rm L k e sc) l = wst (o ++ l) (rm - length l) L k e sc.
Proof.
  induction l as [|c l IH]; intros o rm L k e sc H; cbn [length put_chars] in *; [rewrite app_nil_r, Nat.sub_0_r; reflexivity|].
  destruct rm as [|rm]; [lia|]. change (w_put1 (wst o (S rm) L k e sc) c) with (wst (o ++ [c]) rm L k e sc). cbn [wbad wst]. fold (wst o (S rm) L k e sc).
  rewrite IH by lia. rewrite <- app_assoc. reflexivity.
Qed.
(** The comma before the next element of an array, or the next member of an object. *)
Definition lead (level : bool) (k : list bool) (sc : bool) : list Z :=
  match k with l :: _ => if Bool.eqb l level && negb sc then [44] else [] | [] => [] end.
Lemma comma_wst : forall level o rm L k e sc, (length (lead level k sc) <= rm)%nat ->
  comma_if (wst o rm L k e sc) level = wst (o ++ lead level k sc) (rm - length (lead level k sc)) L k e sc.
Proof.
  intros level o rm L k e sc H. unfold comma_if. cbn [wst wstk skip_comma wlevels]. fold (wst o rm L k e sc). unfold wlevels. cbn [wst wstk]. fold (wst o rm L k e sc).
  destruct k as [|l k]; cbn [lead] in *.
  - rewrite zlen_nil. cbn [Z.ltb Z.compare andb]. cbn [length]. rewrite app_nil_r, Nat.sub_0_r. reflexivity.
  - rewrite zlen_cons. pose proof (zlen_nonneg _ k). replace (0 <? zlen k + 1) with true by lia. cbn [andb].
    destruct (Bool.eqb l level && negb sc); cbn [length] in *; [apply chars_wst; exact H|]. rewrite app_nil_r, Nat.sub_0_r. reflexivity.
Qed.

(** What a value adds to the text. *)
Definition WR (ops : list put_op) (L : Z) (k : list bool) (e sc : bool) (t : list Z) (k' : list bool) (e' sc' : bool) : Prop :=
  forall o rm, (length t <= rm)%nat -> put_ops (wst o rm L k e sc) ops = wst (o ++ t) (rm - length t) L k' e' sc'.
Lemma wr_app : forall a c L k e sc t k1 e1 sc1 u k2 e2 sc2, WR a L k e sc t k1 e1 sc1 -> WR c L k1 e1 sc1 u k2 e2 sc2 -> WR (a ++ c) L k e sc (t ++ u) k2 e2 sc2.
Proof.
  intros a c L k e sc t k1 e1 sc1 u k2 e2 sc2 A C o rm H. rewrite app_length in H. unfold put_ops. rewrite fold_left_app. fold (put_ops (wst o rm L k e sc) a).
  rewrite A by lia. fold (put_ops (wst (o ++ t) (rm - length t) L k1 e1 sc1) c). rewrite C by lia. rewrite <- app_assoc, app_length. f_equal. lia.
Qed.
Lemma wr_nil : forall L k e sc, WR [] L k e sc [] k e sc.
Proof. intros L k e sc o rm _. cbn. rewrite app_nil_r, Nat.sub_0_r. reflexivity. Qed.
Lemma wr_scalar : forall t text L k e sc, (forall w, put_token w t = put_scalar w text) -> e && top k = false ->
  WR [Tok t] L k e sc (lead false k sc ++ text) k (top k) false.
Proof.
  intros t text L k e sc Ht He o rm H. rewrite app_length in H. cbn [put_ops fold_left put_op_run]. rewrite Ht. unfold put_scalar, wexpect. cbn [wst wexp wstk]. fold (wst o rm L k e sc).
  change (match k with true :: _ => true | _ => false end) with (top k). rewrite He. rewrite comma_wst by lia. rewrite chars_wst by lia. unfold w_upd. cbn [wst out room wbad wmax wstk wexp andb].
  rewrite <- app_assoc, app_length. change (match k with true :: _ => true | _ => false end) with (top k). unfold wst. f_equal. f_equal. lia.
Qed.
Lemma wr_prop : forall s L k sc, WR [Tok (TProp s)] L (true :: k) true sc (lead true (true :: k) sc ++ quoted s ++ [58]) (true :: k) false true.
Proof.
  intros s L k sc o rm H. cbn [put_ops fold_left put_op_run put_token]. unfold put_property, wexpect. cbn [wst wexp wstk andb negb]. fold (wst o rm L (true :: k) true sc).
  rewrite app_length in H. rewrite comma_wst by lia.
  assert (quoted s ++ [58] = [34] ++ s ++ [34; 58]) as Q by (unfold quoted; rewrite <- !app_assoc; reflexivity). rewrite Q in H |- *. rewrite chars_wst by lia.
  unfold w_upd. cbn [wst out room wbad wmax wstk wexp andb]. rewrite <- app_assoc. unfold wst. f_equal. f_equal. rewrite (app_length (lead _ _ _)). lia.
Qed.
Lemma wr_begin : forall (ob : bool) L k e sc, e && top k = false -> zlen k < L ->
  WR [Tok (if ob then TBegO else TBegA)] L k e sc (lead false k sc ++ [if ob then 123 else 91]) (ob :: k) ob true.
Proof.
  intros ob L k e sc He HL o rm H. rewrite app_length in H.
  assert (forall c, (length (lead false k sc) + length [c] <= rm)%nat ->
    put_chars (comma_if (wst o rm L k e sc) false) [c] = wst (o ++ lead false k sc ++ [c]) (rm - length (lead false k sc ++ [c])) L k e sc) as C.
  { intros c Hc. rewrite comma_wst by lia. rewrite chars_wst by lia. rewrite <- app_assoc, app_length. f_equal. lia. }
  destruct ob; cbn [put_ops fold_left put_op_run put_token].
  - unfold put_begin_object, wexpect. cbn [wst wexp wstk]. fold (wst o rm L k e sc). change (match k with true :: _ => true | _ => false end) with (top k). rewrite He, C by exact H.
    unfold w_push, wlevels. cbn [wst wmax wstk]. replace (L <=? zlen k) with false by lia. reflexivity.
  - unfold put_begin_array, wexpect. cbn [wst wexp wstk]. fold (wst o rm L k e sc). change (match k with true :: _ => true | _ => false end) with (top k). rewrite He, C by exact H.
    unfold w_push, wlevels. cbn [wst wmax wstk]. replace (L <=? zlen k) with false by lia. reflexivity.
Qed.
Lemma wr_end : forall (ob : bool) L k sc, WR [Tok (if ob then TEndO else TEndA)] L (ob :: k) ob sc [if ob then 125 else 93] k (top k) false.
Proof.
  intros ob L k sc o rm H. destruct ob; cbn [put_ops fold_left put_op_run put_token].
  - unfold put_end_object, wexpect. cbn [wst wexp wstk andb negb]. fold (wst o rm L (true :: k) true sc). rewrite chars_wst by exact H. unfold w_pop. cbn [wst wstk Bool.eqb]. reflexivity.
  - unfold put_end_array, wexpect. cbn [wst wexp wstk andb]. fold (wst o rm L (false :: k) false sc). rewrite chars_wst by exact H. unfold w_pop. cbn [wst wstk Bool.eqb]. reflexivity.
Qed.

Definition member_text (p : list Z * jv) : list Z := match p with (n, v) => quoted n ++ [58] ++ compact v end.
Lemma wr_value : forall v L k e sc, e && top k = false -> zlen k + depth v <= L ->
  WR (map Tok (tokens v)) L k e sc (lead false k sc ++ compact v) k (top k) false.
Proof.
  intro v. induction v as [|x|t|s|l IH|l IH] using jv_ind'; intros L k e sc He HL; cbn [tokens map compact].
  - apply wr_scalar; auto.
  - replace (if x then true_text else false_text) with (if x then lit_true else lit_false) by (destruct x; reflexivity). apply wr_scalar; auto.
  - apply wr_scalar; auto.
  - apply wr_scalar; auto.
  - cbn [depth] in HL. assert (0 <= fold_right Z.max 0 (map depth l)) as D0 by (clear; induction l; cbn [fold_right map]; lia).
    rewrite map_app. change (Tok TBegA :: map Tok (flat_map tokens l) ++ map Tok [TEndA]) with ([Tok (if false then TBegO else TBegA)] ++ map Tok (flat_map tokens l) ++ [Tok (if false then TEndO else TEndA)]).
    rewrite (app_assoc (lead _ _ _)). eapply wr_app; [apply (wr_begin false); [exact He|lia]|].
    assert (exists sc', WR (map Tok (flat_map tokens l)) L (false :: k) false true (join_with [44] (map compact l)) (false :: k) false sc') as (sc' & W);
      [|eapply wr_app; [exact W|apply (wr_end false)]].
    clear He. assert (forall sc, WR (map Tok (flat_map tokens l)) L (false :: k) false sc (match l with [] => [] | _ => lead false (false :: k) sc end ++ join_with [44] (map compact l)) (false :: k) false (match l with [] => sc | _ => false end)) as A.
    { clear e sc. induction IH as [|x l Hx F IHl]; intros sc; [apply wr_nil|]. cbn [flat_map map] in *. cbn [fold_right] in HL, D0. rewrite map_app. assert (0 <= fold_right Z.max 0 (map depth l)) by (clear; induction l; cbn [fold_right map]; lia).
      assert (WR (map Tok (tokens x)) L (false :: k) false sc (lead false (false :: k) sc ++ compact x) (false :: k) false false) as X by (apply Hx; [reflexivity|rewrite zlen_cons; lia]).
      specialize (IHl ltac:(lia) ltac:(lia) false). destruct l as [|y l].
      - cbn [flat_map map join_with]. rewrite app_nil_r. exact X.
      - change (join_with [44] (compact x :: map compact (y :: l))) with (compact x ++ [44] ++ join_with [44] (map compact (y :: l))). rewrite (app_assoc (lead _ _ _)). eapply wr_app; [exact X|exact IHl]. }
    specialize (A true). destruct l; eexists; exact A.
  - cbn [depth] in HL. change (fun p => match p with (n, v) => quoted n ++ [58] ++ compact v end) with member_text.
    set (mt := fun p => match p with (n, v) => TProp n :: tokens v end).
    assert (forall l, 0 <= fold_right Z.max 0 (map (fun p : list Z * jv => match p with (_, v) => depth v end) l)) as D0 by (clear; intro l; induction l as [|[]]; cbn [fold_right map]; lia). pose proof (D0 l) as D1.
    rewrite map_app. change (Tok TBegO :: map Tok (flat_map mt l) ++ map Tok [TEndO]) with ([Tok (if true then TBegO else TBegA)] ++ map Tok (flat_map mt l) ++ [Tok (if true then TEndO else TEndA)]).
    rewrite (app_assoc (lead _ _ _)). eapply wr_app; [apply (wr_begin true); [exact He|lia]|].
    assert (exists sc', WR (map Tok (flat_map mt l)) L (true :: k) true true (join_with [44] (map member_text l)) (true :: k) true sc') as (sc' & W);
      [|eapply wr_app; [exact W|apply (wr_end true)]].
    clear He. assert (forall sc, WR (map Tok (flat_map mt l)) L (true :: k) true sc (match l with [] => [] | _ => lead true (true :: k) sc end ++ join_with [44] (map member_text l)) (true :: k) true (match l with [] => sc | _ => false end)) as A.
    { clear e sc. induction IH as [|[n x] l Hx F IHl]; intros sc; [apply wr_nil|]. cbn [flat_map map] in *. cbn [fold_right snd] in HL, D1, Hx. rewrite map_app. pose proof (D0 l) as D2.
      assert (WR (map Tok (mt (n, x))) L (true :: k) true sc (lead true (true :: k) sc ++ member_text (n, x)) (true :: k) true false) as X.
      { cbn [mt map member_text]. change (Tok (TProp n) :: map Tok (tokens x)) with ([Tok (TProp n)] ++ map Tok (tokens x)).
        replace (lead true (true :: k) sc ++ quoted n ++ [58] ++ compact x) with ((lead true (true :: k) sc ++ quoted n ++ [58]) ++ lead false (true :: k) true ++ compact x) by (cbn [lead Bool.eqb andb]; rewrite <- !app_assoc; reflexivity).
        eapply wr_app; [apply wr_prop|]. apply Hx; [reflexivity|rewrite zlen_cons; lia]. }
      specialize (IHl ltac:(lia) ltac:(lia) false). destruct l as [|y l].
      - cbn [flat_map map join_with]. rewrite app_nil_r. exact X.
      - change (join_with [44] (member_text (n, x) :: map member_text (y :: l))) with (member_text (n, x) ++ [44] ++ join_with [44] (map member_text (y :: l))). rewrite (app_assoc (lead _ _ _)). eapply wr_app; [exact X|exact IHl]. }
    specialize (A true). destruct l; eexists; exact A.
Qed.

(** The text in the array, with the null behind it. *)
Lemma write_document : forall v rm, depth v <= 16 -> (length (compact v) + 1 <= rm)%nat ->
  out (put_chars (put_ops (writer 16 (Some rm)) (map Tok (tokens v))) [0]) = compact v ++ [0].
Proof.
  intros v rm D H. change (writer 16 (Some rm)) with (wst [] rm 16 [] false false).
  rewrite (wr_value v 16 [] false false eq_refl) by (rewrite ?zlen_nil; cbn [lead app]; lia). cbn [lead app]. rewrite chars_wst by (cbn [length]; lia). reflexivity.
Qed.
