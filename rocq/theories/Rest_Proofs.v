(** Proofs for C68-C72, second part: requests and responses. *)

From Coq Require Import String ZArith QArith List Bool Lia.
From Verif Require Import Base ListMem Ascii_Model Ascii_Spec Table_Model Http_Model Http_Calls Http_Spec Endpoint_Model Endpoint_Spec Rest_Model Rest_Spec.
From Verif Require Import Http_Proofs Http_Order Http_RoundTrip Endpoint_Proofs Ascii_Proofs Rest_Games Rest_Json.
From Verif Require Json_Model Json_Spec Json_Writer.
Import ListNotations.
Open Scope string_scope.
Open Scope list_scope.
Open Scope Z_scope.

(** ** JSON texts *)
Lemma zu_len : forall f n k, 0 <= n < 10 ^ Z.of_nat k -> (0 < k)%nat -> (length (zu f n) <= k)%nat.
Proof.
  induction f as [|f IH]; intros n k H P; cbn [zu]; [cbn; lia|]. destruct (Z.ltb_spec n 10); [cbn [length]; lia|].
  destruct k as [|[|k]]; [lia|cbn in H; lia|]. rewrite app_length. cbn [length].
  assert (length (zu f (n / 10)) <= S k)%nat; [|lia]. apply IH; [|lia].
  rewrite (Nat2Z.inj_succ (S k)), Z.pow_succ_r in H by lia. split; [apply Z.div_pos; lia|apply Z.div_lt_upper_bound; lia].
Qed.
Lemma decimal_len : forall n k, 0 <= n < 10 ^ Z.of_nat k -> (0 < k <= 19)%nat -> (length (decimal n) <= k)%nat.
Proof.
  intros n k H P. unfold decimal, wrap_u64. assert (10 ^ Z.of_nat k <= 10 ^ 19) by (apply Z.pow_le_mono_r; lia). change (10 ^ 19) with 10000000000000000000 in *.
  rewrite Z.mod_small by lia. apply zu_len; lia.
Qed.
Definition tok_nn (t : Json_Model.token) : Prop :=
  match t with Json_Model.TNum s | Json_Model.TStr s | Json_Model.TProp s => no_nul s | _ => True end.
Lemma nn_app : forall x y, no_nul x -> no_nul y -> no_nul (x ++ y).
Proof. intros. apply Forall_app. auto. Qed.
Lemma join_nn : forall l, Forall no_nul l -> no_nul (join_with [44] l).
Proof.
  induction 1 as [|x l Hx F IH]; [constructor|]. destruct l as [|y l]; [exact Hx|].
  change (join_with [44] (x :: y :: l)) with (x ++ [44] ++ join_with [44] (y :: l)). apply nn_app; [exact Hx|]. apply nn_app; [nn|exact IH].
Qed.
Lemma compact_nn : forall v, Forall tok_nn (Json_Spec.tokens v) -> no_nul (compact v).
Proof.
  assert (forall s, no_nul s -> no_nul (quoted s)) as Q by (intros s H; apply nn_app; [nn|]; apply nn_app; [exact H|nn]).
  intro v. induction v as [|x|t|s|l IH|l IH] using Json_Writer.jv_ind'; cbn [Json_Spec.tokens compact]; intros H.
  - nn.
  - destruct x; nn.
  - inversion H; assumption.
  - inversion H. apply Q. assumption.
  - inversion H as [|? ? _ H']; subst. apply Forall_app in H' as (H' & _). apply nn_app; [nn|]. apply nn_app; [|nn]. apply join_nn. apply Forall_map.
    clear H. induction IH as [|x l Hx F IHl]; [constructor|]. cbn [flat_map] in H'. apply Forall_app in H' as (A & B). constructor; auto.
  - inversion H as [|? ? _ H']; subst. apply Forall_app in H' as (H' & _). apply nn_app; [nn|]. apply nn_app; [|nn]. apply join_nn. apply Forall_map.
    clear H. induction IH as [|[n x] l Hx F IHl]; [constructor|]. cbn [flat_map app] in H'. inversion H' as [|? ? Hn H'']; subst. apply Forall_app in H'' as (A & B). constructor; auto.
    apply nn_app; [apply Q, Hn|]. apply nn_app; [nn|]. apply Hx, A.
Qed.
Lemma json_text_ok : forall a v, Json_Spec.depth v <= 16 -> zlen (compact v) + 1 <= zlen a -> Forall tok_nn (Json_Spec.tokens v) ->
  json_text a (Json_Spec.tokens v) = Ret (compact v).
Proof.
  intros a v D H N. unfold json_text. rewrite write_document by (unfold zlen in *; lia). rewrite <- app_assoc. cbn [app]. rewrite c_str_app by (apply compact_nn, N). reflexivity.
Qed.
Lemma decimal_nn : forall n, 0 <= n < 2 ^ 64 -> no_nul (decimal n).
Proof. intros n H. destruct (decimal_digits n H) as (_ & F). eapply Forall_impl; [|exact F]. unfold digit. intros; lia. Qed.

(** The tokens of a listing. *)
Lemma listing_tokens : forall since ms over w,
  Json_Spec.tokens (listing since ms over w) =
  [Json_Model.TBegO; prop "moves"; Json_Model.TBegA] ++ flat_map Json_Spec.tokens (map item (drop since (numbered 0 ms))) ++ [Json_Model.TEndA] ++
  (if over then [prop "winner"; num w] else []) ++ [Json_Model.TEndO].
Proof. intros. unfold listing. cbn [Json_Spec.tokens flat_map app]. destruct over; cbn [winner_member flat_map app]; rewrite <- ?app_assoc; reflexivity. Qed.
Lemma item_tokens : forall i r c, Json_Spec.tokens (item (i, (r, c))) =
  [Json_Model.TBegO; prop "i"; num i; prop "move"; Json_Model.TBegO; prop "row"; num r; prop "col"; num c; Json_Model.TEndO; Json_Model.TEndO].
Proof. reflexivity. Qed.
Lemma numbered_app : forall i l x, numbered i (l ++ x) = numbered i l ++ numbered (i + zlen l) x.
Proof.
  intros i l; revert i; induction l as [|m l IH]; intros i x; cbn [app numbered]; [rewrite zlen_nil, Z.add_0_r; reflexivity|].
  rewrite IH, zlen_cons. cbn [app]. do 3 f_equal. lia.
Qed.
Lemma numbered_len : forall l i, length (numbered i l) = length l.
Proof. induction l as [|m l IH]; intros i; cbn [numbered length]; [reflexivity|]. rewrite IH. reflexivity. Qed.
Lemma skipn_numbered : forall n l i, skipn n (numbered i l) = numbered (i + Z.of_nat n) (skipn n l).
Proof.
  induction n as [|n IH]; intros l i; [rewrite Z.add_0_r; reflexivity|]. destruct l as [|m l]; [reflexivity|]. cbn [numbered skipn]. rewrite IH. f_equal. lia.
Qed.
Lemma skipn_nth : forall A (l : list A) n x, nth_error l n = Some x -> skipn n l = x :: skipn (S n) l.
Proof.
  induction l as [|y l IH]; intros [|n] x H; try discriminate H; cbn [nth_error skipn] in *; [injection H as <-; reflexivity|]. rewrite (IH _ _ H). reflexivity.
Qed.
(** The tokens that get_moves writes for the stored moves. *)
Lemma move_tokens_ok : forall (gm : list (option (Z * Z))) ms n i, firstn (length ms) gm = map Some ms -> (i + n = length ms)%nat ->
  move_tokens gm (Z.of_nat i) n = Some (flat_map Json_Spec.tokens (map item (numbered (Z.of_nat i) (skipn i ms)))).
Proof.
  intros gm ms. induction n as [|n IH]; intros i F H.
  - rewrite skipn_all2 by lia. reflexivity.
  - cbn [move_tokens]. rewrite Nat2Z.id. assert (exists m, nth_error ms i = Some m) as ((r & c) & Nm).
    { destruct (nth_error ms i) eqn:E; [eauto|]. apply nth_error_None in E. lia. }
    assert (nth_error gm i = Some (Some (r, c))) as ->.
    { rewrite <- (firstn_skipn (length ms) gm), F, nth_error_app1 by (rewrite map_length; lia). rewrite nth_error_map, Nm. reflexivity. }
    replace (Z.of_nat i + 1) with (Z.of_nat (S i)) by lia. rewrite IH by (auto; lia). rewrite (skipn_nth _ _ _ _ Nm). cbn [numbered map flat_map].
    rewrite item_tokens. replace (Z.of_nat i + 1) with (Z.of_nat (S i)) by lia. reflexivity.
Qed.
(** A listing fits the array. *)
Definition small_move (m : Z * Z) : Prop := 0 <= fst m < 10 /\ 0 <= snd m < 10.
Lemma one_digit : forall n, 0 <= n < 10 -> length (decimal n) = 1%nat.
Proof.
  intros n H. pose proof (decimal_len n 1 ltac:(change (10 ^ Z.of_nat 1) with 10; lia) ltac:(lia)). destruct (decimal_digits n ltac:(lia)) as (N & _).
  destruct (decimal n); [congruence|cbn [length] in *; lia].
Qed.
Lemma item_len : forall i m, 0 <= i < 100 -> small_move m -> (length (compact (item (i, m))) <= 33)%nat.
Proof.
  intros i (r & c) Hi (Hr & Hc). cbn [fst snd] in *. unfold item, jint. cbn [compact map join_with]. unfold quoted. repeat (rewrite app_length || cbn [length]).
  rewrite (one_digit r Hr), (one_digit c Hc). pose proof (decimal_len i 2 ltac:(change (10 ^ Z.of_nat 2) with 100; lia) ltac:(lia)). change (length (b "i")) with 1%nat; change (length (b "move")) with 4%nat; change (length (b "row")) with 3%nat; change (length (b "col")) with 3%nat. lia.
Qed.
Lemma join_len : forall k (l : list (list Z)), Forall (fun x => (length x <= k)%nat) l -> (length (join_with [44%Z] l) <= length l * S k)%nat.
Proof.
  induction 1 as [|x l Hx F IH]; [cbn; lia|]. destruct l as [|y l]; [cbn [join_with length]; lia|].
  change (join_with [44] (x :: y :: l)) with (x ++ [44] ++ join_with [44] (y :: l)). rewrite !app_length. cbn [length] in *. lia.
Qed.
Lemma items_small : forall ms i, 0 <= i -> i + zlen ms <= 100 -> Forall small_move ms -> Forall (fun x => (length x <= 33)%nat) (map compact (map item (numbered i ms))).
Proof.
  induction ms as [|m ms IH]; intros i Hi Hl F; [constructor|]. inversion F; subst. rewrite zlen_cons in Hl. pose proof (zlen_nonneg _ ms).
  cbn [numbered map]. constructor; [apply item_len; [lia|assumption]|]. apply IH; auto; lia.
Qed.
Lemma Forall_drop : forall A (P : A -> Prop) l n, Forall P l -> Forall P (drop n l).
Proof. intros A P l n H. unfold drop. rewrite <- (firstn_skipn (Z.to_nat n) l) in H. apply Forall_app in H. tauto. Qed.
Lemma map_drop : forall A B (f : A -> B) l n, map f (drop n l) = drop n (map f l).
Proof. intros. unfold drop. symmetry. apply skipn_map. Qed.
Lemma listing_len : forall since ms over w, zlen ms <= 42 -> Forall small_move ms -> 0 <= w < 10 ->
  zlen (compact (listing since ms over w)) <= zlen ms * 34 + 30.
Proof.
  intros since ms over w L F W. unfold zlen in *.
  assert (length (join_with [44%Z] (map compact (map item (drop since (numbered 0 ms))))) <= length ms * 34)%nat as J.
  { etransitivity; [apply (join_len 33)|]; [rewrite !map_drop; apply Forall_drop, items_small; auto; unfold zlen; lia|].
    rewrite !map_length. unfold drop. rewrite skipn_length, numbered_len. lia. }
  unfold listing. cbn [compact]. destruct over; cbn [winner_member map join_with compact]; unfold quoted, jint; repeat (rewrite app_length || cbn [length]);
    cbn [compact]; rewrite ?(one_digit w W); change (length (b "moves")) with 5%nat; change (length (b "winner")) with 6%nat.
  all: lia.
Qed.
Lemma listing_nn : forall since ms over w, Forall small_move ms -> zlen ms <= 42 -> 0 <= w < 10 -> Forall tok_nn (Json_Spec.tokens (listing since ms over w)).
Proof.
  intros since ms over w F L W. rewrite listing_tokens.
  assert (Forall tok_nn (flat_map Json_Spec.tokens (map item (drop since (numbered 0 ms))))) as I.
  { apply Forall_flat_map. apply Forall_map. apply Forall_drop. clear since over.
    assert (forall i, 0 <= i -> i + zlen ms <= 100 -> Forall (fun x => Forall tok_nn (Json_Spec.tokens (item x))) (numbered i ms)) as A; [|apply A; lia].
    clear L. induction F as [|(r & c) ms (Hr & Hc) F IH]; intros i Hi Hl; [constructor|]. rewrite zlen_cons in Hl. pose proof (zlen_nonneg _ ms). cbn [fst snd] in *. cbn [numbered].
    constructor; [|apply IH; lia]. rewrite item_tokens. repeat constructor; cbn [tok_nn prop num]; try (apply decimal_nn; lia); try discriminate. }
  apply Forall_app. split; [repeat constructor; discriminate|]. apply Forall_app. split; [exact I|]. apply Forall_app. split; [repeat constructor|].
  destruct over; repeat constructor; try discriminate. cbn [tok_nn num]. apply decimal_nn. lia.
Qed.
Lemma item_depth : forall x, Json_Spec.depth (item x) = 2.
Proof. intros (i & r & c). reflexivity. Qed.
Lemma listing_depth : forall since ms over w, Json_Spec.depth (listing since ms over w) <= 16.
Proof.
  intros. unfold listing. assert (fold_right Z.max 0 (map Json_Spec.depth (map item (drop since (numbered 0 ms)))) <= 2) as D.
  { induction (drop since (numbered 0 ms)) as [|x l IH]; cbn [map fold_right]; [lia|]. rewrite item_depth. lia. }
  cbn [Json_Spec.depth map fold_right]. destruct over; cbn [winner_member map fold_right jint Json_Spec.depth]; lia.
Qed.

(** ** Resources *)
Definition no_digit (x : list Z) : Prop := match x with c :: _ => ~ digit c | [] => True end.
Lemma scan_digits_text : forall ds rest v, Forall digit ds -> no_digit rest -> 0 <= v ->
  scan_digits (ds ++ rest) (Z.min v (2 ^ 64)) = (Z.min (fold_left (fun a c => 10 * a + (c - 48)) ds v) (2 ^ 64), rest).
Proof.
  induction ds as [|d ds IH]; intros rest v F N V; cbn [app fold_left].
  - destruct rest as [|c rest]; cbn [scan_digits]; [reflexivity|]. destruct ((48 <=? c) && (c <=? 57)) eqn:E; [apply digit_dec in E; contradiction|reflexivity].
  - inversion F as [|? ? D F']; subst. cbn [scan_digits]. rewrite (proj2 (digit_dec d) D). unfold digit in D. rewrite <- IH by (auto; lia). f_equal.
    change (2 ^ 64) with 18446744073709551616. lia.
Qed.
Lemma scan_u_text : forall t n rest, u32_text t n -> no_digit rest -> scan_u (t ++ rest) = Some (n, rest).
Proof.
  intros t n rest (sign & ds & -> & Hs & Nd & F & En) R. destruct ds as [|d ds]; [congruence|]. pose proof F as F0. assert (digit d) as D by (inversion F; assumption).
  pose proof (digits_nonneg (d :: ds) 0 F0 ltac:(lia)) as V. pose proof (scan_digits_text (d :: ds) rest 0 F0 R ltac:(lia)) as E. change (Z.min 0 (2 ^ 64)) with 0 in E.
  change (fold_left (fun a c => 10 * a + (c - 48)) (d :: ds) 0) with (value_of (d :: ds)) in *.
  assert (forall neg : bool, (neg = true <-> sign = [45]) -> (let '(v, s') := scan_digits ((d :: ds) ++ rest) 0 in Some (wrap_u32 (if v =? 2 ^ 64 then 2 ^ 64 - 1 else if neg then - v else v), s')) = Some (n, rest)) as K.
  { intros neg Hn. rewrite E. f_equal. f_equal. rewrite En. unfold wrap_u32. destruct (Z.ltb_spec (value_of (d :: ds)) (2 ^ 64)).
    - rewrite Z.min_l by lia. destruct (Z.eqb_spec (value_of (d :: ds)) (2 ^ 64)); [lia|]. destruct (list_eq_dec Z.eq_dec sign [45]) as [S|S].
      + rewrite (proj2 Hn S). reflexivity.
      + destruct neg; [exfalso; apply S, Hn; reflexivity|reflexivity].
    - rewrite Z.min_r by lia. rewrite Z.eqb_refl. reflexivity. }
  clear E En F0 V. unfold digit in D. unfold scan_u. assert ((48 <=? d) && (d <=? 57) = true) as Dd by lia.
  destruct Hs as [-> |[-> | ->]]; cbn [app skip_scan_spaces].
  - replace (scan_space d) with false by (unfold scan_space; lia).
    assert (match d :: ds ++ rest with 45 :: s' => (true, s') | 43 :: s' => (false, s') | _ => (false, d :: ds ++ rest) end = (false, d :: ds ++ rest)) as ->.
    { destruct d as [|p|p]; try reflexivity. do 6 (destruct p as [p|p|]; try reflexivity); lia. }
    rewrite Dd. apply (K false). split; discriminate.
  - cbn [scan_space Z.eqb Pos.eqb Z.leb Z.compare Pos.compare Pos.compare_cont andb orb]. rewrite Dd. apply (K false). split; discriminate.
  - cbn [scan_space Z.eqb Pos.eqb Z.leb Z.compare Pos.compare Pos.compare_cont andb orb]. rewrite Dd. apply (K true). tauto.
Qed.
Lemma scan_lit : forall p f s, scan (map Char p ++ f) (p ++ s) = scan f s.
Proof. induction p as [|c p IH]; intros f s; [reflexivity|]. cbn [map app scan]. rewrite Z.eqb_refl. apply IH. Qed.
Lemma scan_num : forall f t n rest, u32_text t n -> no_digit rest -> scan ([U] ++ f) (t ++ rest) = Number n :: scan f rest.
Proof. intros f t n rest T R. cbn [app scan]. rewrite (scan_u_text t n rest T R). reflexivity. Qed.
Lemma scan_num_end : forall f t n, u32_text t n -> scan (U :: f) t = Number n :: scan f [].
Proof. intros f t n T. rewrite <- (app_nil_r t). cbn [scan]. rewrite (scan_u_text t n [] T I). reflexivity. Qed.
Lemma scan_since : forall t1 t2 id since, u32_text t1 id -> u32_text t2 since ->
  let t := b "/" ++ t1 ++ b "/moves?since=" ++ t2 in
  scan move_format t = [Number id] /\ scan player_format t = [Number id] /\ scan since_format t = [Number id; Number since].
Proof.
  intros t1 t2 id since T1 T2 t. assert (no_digit (b "/moves?since=" ++ t2)) as N by (cbn; unfold digit; lia).
  unfold move_format, player_format, since_format, chars. fold (b "/"). subst t.
  repeat rewrite (scan_lit (b "/")). rewrite !(scan_num _ t1 id _ T1 N). split; [reflexivity|]. split; [reflexivity|].
  fold (b "/moves?since="). rewrite scan_lit. rewrite (scan_num_end _ t2 since T2). reflexivity.
Qed.
Lemma scan_seat : forall t1 t2 id i, u32_text t1 id -> u32_text t2 i ->
  let t := b "/" ++ t1 ++ b "/players/" ++ t2 in
  scan move_format t = [Number id; Number i] /\ scan player_format t = [Number id; Number i].
Proof.
  intros t1 t2 id i T1 T2 t. assert (no_digit (b "/players/" ++ t2)) as N by (cbn; unfold digit; lia).
  unfold move_format, player_format, chars. fold (b "/"). subst t.
  rewrite !(scan_lit (b "/")). rewrite !(scan_num _ t1 id _ T1 N).
  fold (b "/players/"). rewrite !scan_lit. cbn [app]. rewrite !(scan_num_end _ t2 i T2). split; reflexivity.
Qed.
Lemma scan_chars_all : forall s n, Forall printable s -> scan_chars n s = firstn n s.
Proof.
  induction s as [|c s IH]; intros [|n] H; try reflexivity. inversion H as [|? ? P F]; subst. cbn [scan_chars firstn].
  replace (scan_space c) with false by (unfold printable, scan_space in *; lia). rewrite IH by exact F. reflexivity.
Qed.
Lemma scan_play : forall t1 t2 mv id pid, u32_text t1 id -> u32_text t2 pid -> Forall printable mv -> length mv = 5%nat ->
  scan move_format (b "/" ++ t1 ++ b "/players/" ++ t2 ++ b "/" ++ mv) = [Number id; Number pid; Text mv].
Proof.
  intros t1 t2 mv id pid T1 T2 P Lm. assert (no_digit (b "/players/" ++ t2 ++ b "/" ++ mv)) as N by (cbn; unfold digit; lia).
  assert (no_digit (b "/" ++ mv)) as N' by (cbn; unfold digit; lia).
  unfold move_format, chars. fold (b "/"). rewrite (scan_lit (b "/")). rewrite (scan_num _ t1 id _ T1 N).
  fold (b "/players/"). rewrite scan_lit. rewrite (scan_num _ t2 pid _ T2 N'). rewrite (scan_lit (b "/")). cbn [scan]. rewrite (skip_none mv P), (scan_chars_all mv 6 P), firstn_all2 by lia.
  destruct mv; [discriminate Lm|reflexivity].
Qed.

(** ** From the bytes to the handlers *)
Lemma same_len : forall g (t : string), same_i g (b t) -> length g = length (b t).
Proof. intros g t H. unfold same_i in H. apply (f_equal (@length Z)) in H. rewrite !map_length in H. exact H. Qed.
Section Routes.
Context {K : kind}.
Implicit Types sv : server K.
Lemma route_games : forall e sv m g q y s, no_nul (g ++ q) -> same_i g (b "/games") ->
  process_rest e sv m ((g ++ q) ++ 0 :: y) s = process_games e sv m ((g ++ q) ++ 0 :: y) s /\ drop 6 ((g ++ q) ++ 0 :: y) = q ++ 0 :: y.
Proof.
  intros e sv m g q y s N S. split.
  - unfold process_rest. destruct (starts_i_spec (g ++ q) y "/games" N ltac:(nn)) as (v & E & Sv). rewrite E. cbn [bind]. rewrite (proj2 Sv); [reflexivity|]. exists g, q. auto.
  - rewrite <- app_assoc. assert (zlen g = 6) as <- by (unfold zlen; rewrite (same_len g "/games" S); reflexivity). apply drop_app_exact.
Qed.
Lemma route_in_game : forall e sv m r t1 id tail y s, no_nul r -> in_game r t1 id tail ->
  process_rest e sv m (r ++ 0 :: y) s =
  match scan move_format (b "/" ++ t1 ++ tail) with
  | [Number id; Number pid; Text moves] => accept_move e sv m s id pid moves
  | _ => match scan player_format (b "/" ++ t1 ++ tail) with
         | [Number id; Number i] => claim_player e sv m s id i
         | _ => match scan since_format (b "/" ++ t1 ++ tail) with
                | [Number id; Number since] => get_moves e sv m s id since
                | _ => answer_with sv s []
                end
         end
  end.
Proof.
  intros e sv m r t1 id tail y s N (g & -> & S & T). destruct (route_games e sv m g (b "/" ++ t1 ++ tail) y s N S) as (E & D). rewrite E. unfold process_games. rewrite D.
  apply Forall_app in N as (_ & N). destruct (equals_i_spec (b "/" ++ t1 ++ tail) y "" N ltac:(nn)) as (v & Ev & Sv). rewrite Ev. cbn [bind].
  destruct v; [exfalso; pose proof (proj1 Sv eq_refl) as X; discriminate X|]. rewrite (c_str_app _ y N). reflexivity.
Qed.
Lemma route_since : forall e sv m r y s id since, no_nul r -> since_resource r id since -> process_rest e sv m (r ++ 0 :: y) s = get_moves e sv m s id since.
Proof.
  intros e sv m r y s id since N (t1 & t2 & G & T2). rewrite (route_in_game e sv m r t1 id _ y s N G). destruct G as (g & _ & _ & T1).
  destruct (scan_since t1 t2 id since T1 T2) as (-> & -> & ->). reflexivity.
Qed.
Lemma route_seat : forall e sv m r y s id i, no_nul r -> seat_resource r id i -> process_rest e sv m (r ++ 0 :: y) s = claim_player e sv m s id i.
Proof.
  intros e sv m r y s id i N (t1 & t2 & G & T2). rewrite (route_in_game e sv m r t1 id _ y s N G). destruct G as (g & _ & _ & T1).
  destruct (scan_seat t1 t2 id i T1 T2) as (-> & ->). reflexivity.
Qed.
Lemma route_play : forall e sv m r y s id pid, no_nul r -> Forall printable r -> play_resource r id pid -> exists mv, same_i mv (b "moves") /\ no_nul mv /\ process_rest e sv m (r ++ 0 :: y) s = accept_move e sv m s id pid mv.
Proof.
  intros e sv m r y s id pid N P (t1 & t2 & mv & G & T2 & S). rewrite (route_in_game e sv m r t1 id _ y s N G). destruct G as (g & -> & _ & T1).
  assert (Forall printable mv) as Pm by (do 6 (apply Forall_app in P; destruct P as (_ & P)); exact P).
  assert (no_nul mv) as Nm by (do 6 (apply Forall_app in N; destruct N as (_ & N)); exact N).
  rewrite (scan_play t1 t2 mv id pid T1 T2 Pm) by (rewrite (same_len mv "moves" S); reflexivity). exists mv. auto.
Qed.
Lemma route_all : forall e sv m r y s, no_nul r -> same_i r (b "/games") -> process_rest e sv m (r ++ 0 :: y) s = create_game e sv m s.
Proof.
  intros e sv m r y s N S. rewrite <- (app_nil_r r) in N. destruct (route_games e sv m r [] y s N S) as (E & D). rewrite app_nil_r in E, D. rewrite E. unfold process_games. rewrite D. cbn [app].
  destruct (equals_i_spec [] y "" ltac:(nn) ltac:(nn)) as (v & Ev & Sv). cbn [app] in Ev. rewrite Ev. cbn [bind]. rewrite (proj2 Sv); reflexivity.
Qed.
(** What is done with a request line that fits. *)
Lemma serve_raw : forall c root e sv l m r p rest, ready c root -> l = m ++ [32] ++ r ++ [32] ++ p ++ CRLF ++ rest -> start_line_ok request m r p ->
  zlen m <= 32 -> zlen root + zlen r <= 2047 -> zlen p <= 16 -> ~ file_asked (c_config c) m r ->
  exists x y g, no_nul m /\ no_nul r /\ Forall printable r /\
    serve c e sv l = do rp <- process_rest e sv (m ++ 0 :: x) (r ++ 0 :: y) (N header_name g rest);
                     do w <- write_calls response (r_calls rp) (server_writer (r_stream rp) true);
                     Ret ({| a_file := None; a_shut := r_shut rp; a_calls := r_calls rp; a_out := wout w |}, r_server rp).
Proof.
  intros c root e sv l m r p rest (Hr & Ha & Hp & Hl) El Ok Lm Lr Lp Nf.
  assert (exists x y g, read_line (c_config c) (c_mb c) (c_pb c) (c_qb c) l = Ret (m ++ 0 :: x, root ++ r ++ 0 :: y, N header_name g rest) /\ no_nul m /\ no_nul r) as (x & y & g & E & Nm & Nr).
  { destruct (three_reads root _ _ _ Ha l) as (m' & r' & q & x & y & z & s1 & s2 & s3 & E1 & G1 & F1 & E2 & G2 & F2 & E3 & G3).
    destruct (rb_len root _ _ _ Ha) as (RL & RL'). pose proof Ha as (M & P & Qb & _ & R). unfold method_size, resource_size, protocol_size in *.
    pose proof (zlen_nonneg _ m). pose proof (zlen_nonneg _ r). pose proof (zlen_nonneg _ p).
    destruct (read_start request m r p (c_mb c) (0 :: drop (zlen root + 1) (c_pb c)) (c_qb c) [] rest Ok) as (g & E). { unfold start_room, room_for. lia. }
    assert (start_line_text request m r p ++ rest = l) as Et. { rewrite El. unfold start_line_text. rewrite <- !app_assoc. reflexivity. }
    rewrite Et in E. cbn [start_line_gets app read_calls bind] in E. rewrite E1 in E. cbn [bind] in E. rewrite E2 in E. cbn [bind] in E. rewrite E3 in E. cbn [bind] in E.
    rewrite G1, G2, G3, !take_app_exact in E. injection E as -> -> -> ->.
    exists x, y, g. split; [|split; apply text_no_nul; assumption].
    unfold read_line. rewrite E1. cbn [bind]. rewrite Hr. destruct (Z.ltb_spec (zlen (c_pb c)) (zlen root + 1)); [lia|]. rewrite E2. cbn [bind]. rewrite E3. reflexivity. }
  exists x, y, g. split; [exact Nm|]. split; [exact Nr|]. split; [apply Ok|].
  unfold serve. rewrite E. cbn [bind]. rewrite Hr, drop_app_exact.
  destruct (is_file (c_config c) m r x y Hp Nm Nr) as (v & Ev & Sv). rewrite Ev. destruct v; [exfalso; apply Nf, Sv; reflexivity|]. rewrite Hl. reflexivity.
Qed.
(** The answer, if the handler has sent a response. *)
Lemma rest_answer : forall (rp : reply K) code reason ct body, is_good (r_stream rp) = true -> r_calls rp = simple_response code reason ct body ->
  code <> [] -> Forall digit code -> reason_text reason -> spaced_words ct -> zlen body < 2 ^ 64 ->
  exists a, (do w <- write_calls response (r_calls rp) (server_writer (r_stream rp) true); Ret ({| a_file := None; a_shut := r_shut rp; a_calls := r_calls rp; a_out := wout w |}, r_server rp)) = Ret (a, r_server rp) /\
    a_shut a = r_shut rp /\ a_file a = None /\ responds (a_out a) code reason (Some ct) body.
Proof.
  intros rp code reason ct body Gs Ec Nc Dc Rr Sw Lb. rewrite Ec, (server_writer_good _ Gs).
  destruct (simple_out code reason ct body Nc Dc Rr Sw Lb) as (w & W & O). rewrite W. cbn [bind]. eexists. split; [reflexivity|]. cbn. auto.
Qed.
Lemma serve_good : forall c root e sv l m r, ready c root -> request_line root l m r -> ~ file_asked (c_config c) m r ->
  exists x y s, no_nul m /\ no_nul r /\ Forall printable r /\ is_good s = true /\
    forall rp code reason ct body, process_rest e sv (m ++ 0 :: x) (r ++ 0 :: y) s = Ret rp -> is_good (r_stream rp) = true -> r_calls rp = simple_response code reason ct body ->
    code <> [] -> Forall digit code -> reason_text reason -> spaced_words ct -> zlen body < 2 ^ 64 ->
    exists a, serve c e sv l = Ret (a, r_server rp) /\ a_shut a = r_shut rp /\ a_file a = None /\ responds (a_out a) code reason (Some ct) body.
Proof.
  intros c root e sv l m r Rd (p & rest & El & Ok & Lm & Lr & Lp) Nf. destruct (serve_raw c root e sv l m r p rest Rd El Ok Lm Lr Lp Nf) as (x & y & g & Nm & Nr & Pr & E).
  exists x, y, (N header_name g rest). split; [exact Nm|]. split; [exact Nr|]. split; [exact Pr|]. split; [reflexivity|].
  intros rp code reason ct body Er Gs Ec Nc Dc Rr Sw Lb. rewrite E, Er. cbn [bind]. apply rest_answer; assumption.
Qed.
End Routes.

(** ** The handlers that read no body *)
Lemma u32_range : forall t n, u32_text t n -> 0 <= n < 2 ^ 32.
Proof. intros t n (sign & ds & _ & _ & _ & _ & ->). apply Z.mod_pos_bound. lia. Qed.
Section Handlers.
Variables (K : kind) (R : rules K) (rep : k_board K -> list (Z * Z) -> Prop).
Hypothesis L : laws K R rep.
Implicit Types sv : server K.

Lemma find_at : forall sv g, server_ok K rep sv -> In g (s_games sv) -> find_game (s_games sv) (g_id g) = Some (O, g) /\ s_games sv = [g].
Proof.
  intros sv g (N & _) H. unfold max_game_count in N. destruct (s_games sv) as [|g' [|g'' l]]; [destruct H| |cbn [length] in N; lia].
  destruct H as [-> |[]]. cbn [find_game]. rewrite Z.eqb_refl. auto.
Qed.
Lemma find_nowhere : forall sv id, (forall g, In g (s_games sv) -> g_id g <> id) -> find_game (s_games sv) id = None.
Proof.
  intros sv id H. induction (s_games sv) as [|g l IH]; [reflexivity|]. cbn [find_game]. destruct (Z.eqb_spec (g_id g) id) as [E|E]; [exfalso; apply (H g); [left; reflexivity|exact E]|].
  rewrite IH; [reflexivity|]. intros g' I'. apply H. right. exact I'.
Qed.
Lemma ok_in : forall sv g, server_ok K rep sv -> In g (s_games sv) -> exists ms, game_ok K rep g ms.
Proof. intros sv g (_ & F) H. rewrite Forall_forall in F. apply F, H. Qed.

Lemma coords_small : forall g ms, game_ok K rep g ms -> Forall small_move (rev ms) /\ zlen (rev ms) <= 42 /\ 0 <= k_winner K (g_board g) < 10.
Proof.
  intros g ms (P & _). split; [|split].
  - apply Forall_rev. eapply Forall_impl; [|exact (l_coord _ _ _ L _ _ P)]. intros m H. exact H.
  - pose proof (l_cells _ _ _ L _ _ P). destruct (l_room _ _ _ L). unfold zlen. rewrite rev_length. lia.
  - exact (l_winner _ _ _ L _ _ P).
Qed.
Lemma listing_written : forall e g ms since, sized e -> game_ok K rep g ms -> 0 <= since ->
  move_tokens (g_moves g) since (Z.to_nat (k_count K (g_board g) - since)) = Some (flat_map Json_Spec.tokens (map item (drop since (numbered 0 (rev ms))))) /\
  json_text (e_body e (k_moves_size K)) ([Json_Model.TBegO; prop "moves"; Json_Model.TBegA] ++ flat_map Json_Spec.tokens (map item (drop since (numbered 0 (rev ms)))) ++ [Json_Model.TEndA] ++ winner_tokens (g_board g) ++ [Json_Model.TEndO])
  = Ret (compact (listing since (rev ms) (k_over K (g_board g)) (k_winner K (g_board g)))).
Proof.
  intros e g ms since (_ & _ & Sb) G Hs. pose proof G as (P & Lm & F & _). destruct (coords_small g ms G) as (Cs & Cl & Cw). split.
  - pose proof (l_count _ _ _ L _ _ P) as C. rewrite C. unfold drop. rewrite skipn_numbered, Z.add_0_l. rewrite <- (rev_length ms) in F.
    destruct (Z.le_gt_cases since (zlen ms)) as [A|A].
    + rewrite <- (Z2Nat.id since Hs) at 1. rewrite (move_tokens_ok (g_moves g) (rev ms)); [reflexivity|exact F|]. rewrite rev_length. unfold zlen in *. lia.
    + replace (Z.to_nat (zlen ms - since)) with O by lia. rewrite skipn_all2 by (rewrite rev_length; unfold zlen in A; lia). reflexivity.
  - change (winner_tokens (g_board g)) with (if k_over K (g_board g) then [prop "winner"; num (k_winner K (g_board g))] else []). rewrite <- listing_tokens.
    apply json_text_ok; [apply listing_depth| |apply listing_nn; assumption]. destruct (l_room _ _ _ L) as (R1 & R2). rewrite Sb by lia.
    pose proof (listing_len since (rev ms) (k_over K (g_board g)) (k_winner K (g_board g)) Cl Cs Cw) as Ll. pose proof (l_cells _ _ _ L _ _ P). unfold zlen in *. rewrite rev_length in *. lia.
Qed.
Lemma moves_handler : forall e sv m x s id since g ms, sized e -> server_ok K rep sv -> no_nul m -> same_i m (b "GET") -> id <> 0 -> 0 <= since -> In g (s_games sv) -> g_id g = id -> game_ok K rep g ms ->
  get_moves e sv (m ++ 0 :: x) s id since =
  Ret {| r_server := sv; r_shut := false; r_calls := json_response (compact (listing since (rev ms) (k_over K (g_board g)) (k_winner K (g_board g)))); r_stream := s |}.
Proof.
  intros e sv m x s id since g ms Se So Nm Gm Ni Hs Hg <- G. unfold get_moves. destruct (equals_i_spec m x "GET" Nm ltac:(nn)) as (v & -> & Sv). cbn [bind]. rewrite (proj2 Sv Gm). cbn [negb].
  destruct (Z.eqb_spec (g_id g) 0); [contradiction|]. destruct (find_at sv g So Hg) as (-> & _). destruct (listing_written e g ms since Se G Hs) as (-> & ->). reflexivity.
Qed.
Lemma not_get : forall e sv m x s id since, no_nul m -> ~ same_i m (b "GET") -> get_moves e sv (m ++ 0 :: x) s id since = answer_with sv s expect_get.
Proof.
  intros e sv m x s id since Nm Gm. unfold get_moves. destruct (equals_i_spec m x "GET" Nm ltac:(nn)) as (v & -> & Sv). cbn [bind]. destruct v; [exfalso; apply Gm, Sv; reflexivity|reflexivity].
Qed.
Lemma moves_nowhere : forall e sv m x s id since, no_nul m -> same_i m (b "GET") -> id <> 0 -> (forall g, In g (s_games sv) -> g_id g <> id) ->
  get_moves e sv (m ++ 0 :: x) s id since = answer_with sv s game_not_found.
Proof.
  intros e sv m x s id since Nm Gm Ni H. unfold get_moves. destruct (equals_i_spec m x "GET" Nm ltac:(nn)) as (v & -> & Sv). cbn [bind]. rewrite (proj2 Sv Gm). cbn [negb].
  destruct (Z.eqb_spec id 0); [contradiction|]. rewrite (find_nowhere sv id H). reflexivity.
Qed.
Lemma moves_zero : forall e sv m x s since, no_nul m -> same_i m (b "GET") -> get_moves e sv (m ++ 0 :: x) s 0 since = answer_with sv s invalid_resource.
Proof.
  intros e sv m x s since Nm Gm. unfold get_moves. destruct (equals_i_spec m x "GET" Nm ltac:(nn)) as (v & -> & Sv). cbn [bind]. rewrite (proj2 Sv Gm). reflexivity.
Qed.

(** Small objects with one number. *)
Lemma id_text : forall e (name : string) n, sized e -> no_nul (b name) -> (length (b name) <= 20)%nat -> 0 <= n < 2 ^ 32 ->
  json_text (e_body e 1025) [Json_Model.TBegO; prop name; num n; Json_Model.TEndO] = Ret (compact (Json_Spec.JObj [(b name, jint n)])).
Proof.
  intros e name n (_ & _ & Sb) Nn Ln H. apply (json_text_ok _ (Json_Spec.JObj [(b name, jint n)])); [cbn; lia| |repeat constructor; [exact Nn|apply decimal_nn; lia]].
  rewrite Sb by lia. unfold zlen. cbn [compact map join_with]. unfold quoted, jint. cbn [compact]. repeat (rewrite app_length || cbn [length]).
  pose proof (decimal_len n 19 ltac:(change (10 ^ Z.of_nat 19) with 10000000000000000000; lia) ltac:(lia)). lia.
Qed.
Definition claimed (g : game K) (i : Z) : bool := if i =? 0 then g_xclaimed g else g_oclaimed g.
Definition seat_of (g : game K) (i : Z) : Z := if i =? 0 then g_xid g else g_oid g.
Lemma claim_handler : forall e sv m x s id i g, sized e -> server_ok K rep sv -> no_nul m -> same_i m (b "POST") -> id <> 0 -> 0 <= i <= 1 -> In g (s_games sv) -> g_id g = id ->
  if claimed g i then claim_player e sv (m ++ 0 :: x) s id i = answer_with sv s (text_response "403" "Forbidden" "This play has already been claimed.")
  else exists g', game_claim g i = Some (seat_of g i, g') /\
    claim_player e sv (m ++ 0 :: x) s id i = Ret {| r_server := {| s_games := [g']; s_rand := s_rand sv |}; r_shut := false;
      r_calls := json_response (compact (Json_Spec.JObj [(b "playerId", jint (seat_of g i))])); r_stream := s |}.
Proof.
  intros e sv m x s id i g Se So Nm Pm Ni Hi Hg <-. destruct (find_at sv g So Hg) as (Ef & Eg). destruct (ok_in sv g So Hg) as (ms & G).
  assert (claim_player e sv (m ++ 0 :: x) s (g_id g) i = match game_claim g i with
      | None => answer_with sv s (text_response "403" "Forbidden" "This play has already been claimed.")
      | Some (p, g') => do t <- json_text (e_body e 1025) [Json_Model.TBegO; prop "playerId"; num p; Json_Model.TEndO];
          Ret {| r_server := {| s_games := set_game (s_games sv) 0 g'; s_rand := s_rand sv |}; r_shut := false; r_calls := json_response t; r_stream := s |} end) as E.
  { unfold claim_player. destruct (equals_i_spec m x "POST" Nm ltac:(nn)) as (v & -> & Sv). cbn [bind]. rewrite (proj2 Sv Pm). cbn [negb].
    destruct (Z.eqb_spec (g_id g) 0); [contradiction|]. destruct (Z.ltb_spec 1 i); [lia|]. cbn [orb]. rewrite Ef. reflexivity. }
  rewrite E. unfold claimed, seat_of.
  assert (forall p g', game_claim g i = Some (p, g') -> 0 <= p < 2 ^ 32) as Rp by (intros p g' Ec; apply (claim_ok K rep g ms i p g' G Ec)).
  destruct (game_claim g i) as [[p g']|] eqn:Ec.
  - rewrite (id_text e "playerId" p Se ltac:(nn) ltac:(cbn; lia) (Rp _ _ eq_refl)). cbn [bind]. rewrite Eg. unfold game_claim in Ec.
    destruct (i =? 0); [destruct (g_xclaimed g)|destruct (g_oclaimed g)]; try discriminate Ec; injection Ec as <- <-; eexists; split; reflexivity.
  - unfold game_claim in Ec. destruct (i =? 0); [destruct (g_xclaimed g)|destruct (g_oclaimed g)]; try discriminate Ec; reflexivity.
Qed.
End Handlers.
