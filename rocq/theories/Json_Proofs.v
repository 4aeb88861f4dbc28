(** Proofs about the JSON reader on well-formed text (C03, C04, C09). *)

From Coq Require Import ZArith List Bool Lia ZifyBool.
From Verif Require Import Base ListMem Ascii_Model Table_Model Json_Model Json_Spec.
Import ListNotations.
Open Scope Z_scope.

Lemma good_st : forall L l k e m n, is_good {| inp := l; eofb := false; failb := false; badb := false; maxl := L; stk := k; expp := e; mem := m; num := n |} = true.
Proof. reflexivity. Qed.

(** A good stream. *)
Definition gst (L : Z) (l : list Z) (k : list bool) (e : bool) (m : option (list Z)) (n : list Z) : rd :=
  {| inp := l; eofb := false; failb := false; badb := false; maxl := L; stk := k; expp := e; mem := m; num := n |}.

Lemma peek_g : forall L c l k e m n, peek_char (gst L (c :: l) k e m n) = (c, gst L (c :: l) k e m n).
Proof. reflexivity. Qed.
Lemma get_g : forall L c l k e m n, get (gst L (c :: l) k e m n) = (c, gst L l k e m n).
Proof. reflexivity. Qed.

Lemma ws_space : forall c, is_ws c -> json_is_space c = true.
Proof. intros c [-> | [-> | [-> | ->]]]; reflexivity. Qed.

Lemma skip_chars_g : forall pred w fuel L c r k e m n,
  Forall (fun x => pred x = true) w -> pred c = false -> (length w < fuel)%nat ->
  skip_chars fuel pred (gst L (w ++ c :: r) k e m n) = Ret (zlen w, gst L (c :: r) k e m n).
Proof.
  induction w as [|x w IH]; intros fuel L c r k e m n Hw Hc Hf; destruct fuel as [|fuel]; cbn [length] in Hf; try lia.
  - cbn [skip_chars app]. change (is_good _) with true. cbv iota. rewrite peek_g, Hc. reflexivity.
  - inversion Hw; subst. cbn [skip_chars app]. change (is_good _) with true. cbv iota.
    rewrite peek_g, H1, get_g, IH by (auto; lia). f_equal. f_equal. rewrite zlen_cons. lia.
Qed.

Lemma skip_spaces_g : forall w fuel L c r k e m n,
  ws w -> json_is_space c = false -> (length w < fuel)%nat ->
  skip_spaces fuel (gst L (w ++ c :: r) k e m n) = Ret (gst L (c :: r) k e m n).
Proof.
  intros. unfold skip_spaces. rewrite skip_chars_g; auto.
  eapply Forall_impl; [|apply H]. apply ws_space.
Qed.

Lemma get_chars_g : forall pred l fuel lim i L c r k e m n,
  Forall (fun x => pred x = true) l -> pred c = false -> (length l < fuel)%nat -> i + zlen l <= lim ->
  get_chars fuel pred lim i (gst L (l ++ c :: r) k e m n) = Ret (l, gst L (c :: r) k e m n).
Proof.
  induction l as [|x w IH]; intros fuel lim i L c r k e m n Hw Hc Hf Hl; destruct fuel as [|fuel]; cbn [length] in Hf; try lia.
  - cbn [get_chars app]. change (is_good _) with true. cbv iota. rewrite peek_g, Hc. reflexivity.
  - inversion Hw; subst. cbn [get_chars app]. change (is_good _) with true. cbv iota.
    rewrite zlen_cons in Hl. pose proof (zlen_nonneg _ w).
    rewrite peek_g, H1, get_g. replace (i =? lim) with false by lia.
    rewrite IH by (auto; lia). reflexivity.
Qed.

(** *** Strings *)
Lemma esc_chunk : forall plain s t, str_text plain s t ->
  exists p s' t', s = p ++ s' /\ t = p ++ t' /\ Forall (fun c => c <> 34 /\ c <> 92) p
    /\ ((s' = [] /\ t' = [])
        \/ (exists e c s2 t2, In (e, c) escapes /\ s' = c :: s2 /\ t' = 92 :: e :: t2 /\ str_text plain s2 t2)
        \/ (exists a b x y s2 t2, hex_value a x /\ hex_value b y /\ ~ is_hex_digit (hd 0 (t2 ++ [34]))
             /\ s' = 16 * x + y :: s2 /\ t' = 92 :: 117 :: 48 :: 48 :: a :: b :: t2 /\ str_text plain s2 t2)).
Proof.
  induction 1.
  - exists [], [], []. repeat split; auto.
  - destruct IHstr_text as (p & s' & t' & -> & -> & Hp & Hc). exists (c :: p), s', t'.
    repeat split; auto.
  - exists [], (c :: s), (92 :: e :: t). repeat split; auto. right; left. exists e, c, s, t. auto.
  - exists [], (16 * x + y :: s), (92 :: 117 :: 48 :: 48 :: a :: b :: t). repeat split; auto.
    right; right. exists a, b, x, y, s, t. auto 10.
Qed.

Lemma content_char : forall c, json_is_string_content c = negb (c =? 34) && negb (c =? 92).
Proof. intro c. unfold json_is_string_content. reflexivity. Qed.

Lemma hex_value_is_hex : forall c v, hex_value c v -> is_hex c = true /\ hex c = v /\ 0 <= v < 16.
Proof.
  intros c v H. unfold hex_value in H. unfold is_hex, hex, is_digit, is_between.
  destruct H as [[H ->] | [[H ->] | [H ->]]];
    repeat match goal with |- context[if ?b then _ else _] => destruct b eqn:? end; lia.
Qed.
Lemma not_hex : forall c, ~ is_hex_digit c -> is_hex c = false.
Proof.
  intros c H. destruct (is_hex c) eqn:E; [|reflexivity]. exfalso; apply H.
  unfold is_hex, is_digit, is_between in E. unfold is_hex_digit, hex_value.
  destruct ((48 <=? c) && (c <=? 57)) eqn:E1; [exists (c - 48); lia|].
  destruct ((65 <=? c) && (c <=? 70)) eqn:E2; [exists (c - 55); lia|]. exists (c - 87); lia.
Qed.

Lemma escape_simple : forall ec c fuel L r k e m n, In (ec, c) escapes ->
  get_escaped_char fuel (gst L (92 :: ec :: r) k e m n) = Ret (c, gst L r k e m n).
Proof.
  intros ec c fuel L r k e m n H. unfold get_escaped_char. rewrite peek_g, get_g, peek_g. cbn [Z.eqb Pos.eqb].
  repeat (destruct H as [H | H]; [injection H as <- <-; reflexivity|]). destruct H.
Qed.

Lemma lor_hex : forall x y, 0 <= x < 16 -> 0 <= y < 16 -> Z.lor (Z.shiftl x 4) y = 16 * x + y.
Proof.
  intros x y Hx Hy. rewrite Z.shiftl_mul_pow2 by lia.
  assert (Z.land (x * 2 ^ 4) y = 0).
  { apply Z.bits_inj'. intros i Hi. rewrite Z.land_spec, Z.bits_0.
    destruct (Z.ltb_spec i 4).
    - rewrite Z.mul_pow2_bits_low by lia. reflexivity.
    - assert (Hb : Z.testbit y i = false); [|rewrite Hb; apply andb_false_r].
      destruct (Z.eq_dec y 0) as [->|]; [apply Z.bits_0|]. apply Z.bits_above_log2; [lia|].
      apply Z.lt_le_trans with 4; [|lia]. apply Z.log2_lt_pow2; lia. }
  rewrite <- Z.lxor_lor, <- Z.add_nocarry_lxor by assumption. lia.
Qed.

Lemma escape_hex : forall a b x y fuel L t r k e m n, hex_value a x -> hex_value b y -> ~ is_hex_digit (hd 0 (t ++ [34])) ->
  (4 < fuel)%nat ->
  get_escaped_char fuel (gst L (92 :: 117 :: 48 :: 48 :: a :: b :: t ++ 34 :: r) k e m n) = Ret (16 * x + y, gst L (t ++ 34 :: r) k e m n).
Proof.
  intros a b x y fuel L t r k e m n Ha Hb Ht Hf. unfold get_escaped_char. rewrite peek_g, get_g, peek_g, get_g. cbn [Z.eqb Pos.eqb orb].
  destruct (hex_value_is_hex _ _ Ha) as (Ia & Ea & Ra). destruct (hex_value_is_hex _ _ Hb) as (Ib & Eb & Rb).
  assert (exists c r', t ++ 34 :: r = c :: r' /\ is_hex c = false) as (c & r' & Er & Hc).
  { destruct t as [|c t]; [exists 34, r; auto|]. exists c, (t ++ 34 :: r). split; [reflexivity|]. apply not_hex. exact Ht. }
  rewrite Er. pose proof (get_chars_g is_hex [48; 48; a; b] fuel (limit_of 5) 0 L c r' k e m n) as G.
  cbn [app] in G. rewrite G; [|repeat constructor; auto|exact Hc|cbn [length]; lia|cbv; discriminate].
  cbn [Z.eqb Pos.eqb andb]. rewrite Ea, Eb, lor_hex by assumption. reflexivity.
Qed.

Lemma store_some : forall a b w L l k e n, zlen w <= zlen b ->
  forall p, zlen a = value_offset + p ->
  store (gst L l k e (Some (a ++ b)) n) p w = Ret (gst L l k e (Some (a ++ w ++ drop (zlen w) b)) n).
Proof.
  intros. unfold store. cbn [mem gst]. rewrite <- H0, write_at_prefix by assumption. reflexivity.
Qed.

Lemma limit_small : forall z, 0 < z < 2 ^ 64 -> limit_of (wrap_u64 z) = z - 1.
Proof. intros. unfold limit_of, wrap_u64. rewrite (Z.mod_small z) by lia. apply Z.mod_small. lia. Qed.

Lemma plain_content : forall p, Forall (fun c => c <> 34 /\ c <> 92) p -> Forall (fun x => json_is_string_content x = true) p.
Proof. intros. eapply Forall_impl; [|eassumption]. cbn beta. intros. rewrite content_char. lia. Qed.

Lemma content_some : forall p fuel g size a b L c r k e n,
  Forall (fun c => c <> 34 /\ c <> 92) p -> json_is_string_content c = false -> (length p < fuel)%nat ->
  0 <= g -> g + zlen p < size -> size < 2 ^ 64 -> zlen a = 8 + g -> zlen p < zlen b ->
  exists b', string_content fuel g (wrap_u64 (size - g)) (gst L (p ++ c :: r) k e (Some (a ++ b)) n)
    = Ret (zlen p, gst L (c :: r) k e (Some ((a ++ p) ++ b')) n) /\ zlen b' = zlen b - zlen p.
Proof.
  intros. unfold string_content. cbn [mem gst]. pose proof (zlen_nonneg _ p).
  change ({| inp := p ++ c :: r; eofb := false; failb := false; badb := false; maxl := L; stk := k; expp := e; mem := Some (a ++ b); num := n |}) with (gst L (p ++ c :: r) k e (Some (a ++ b)) n).
  rewrite limit_small by lia. rewrite get_chars_g by (auto using plain_content; lia).
  rewrite store_some; [|zl|unfold value_offset; lia].
  eexists. split; [rewrite <- !app_assoc; reflexivity|].
  rewrite zlen_app, zlen_drop by zl. rewrite zlen_app, zlen_cons, zlen_nil. lia.
Qed.

Lemma string_loop_some : forall plain N s t, (length t <= N)%nat -> str_text plain s t ->
  forall fuel size g a b L r k e n,
  zlen a = 8 + g -> 0 <= g -> g + zlen s < size -> size < 2 ^ 64 -> zlen s < zlen b -> (length t + 1 < fuel)%nat ->
  exists b', string_loop fuel size g (gst L (t ++ 34 :: r) k e (Some (a ++ b)) n)
    = Ret (g + zlen s, gst L r k e (Some ((a ++ s) ++ b')) n) /\ zlen b' = zlen b - zlen s.
Proof.
  intros plain N. induction N as [N IH] using lt_wf_ind. intros s t HN Hst fuel size g a b L r k e n Ha Hg Hsz Hs64 Hb Hf.
  destruct fuel as [|fuel]; [lia|].
  destruct (esc_chunk _ _ _ Hst) as (p & s' & t' & -> & -> & Hp & Hcase).
  rewrite zlen_app in Hsz, Hb. rewrite app_length in HN, Hf. pose proof (zlen_nonneg _ p). pose proof (zlen_nonneg _ s').
  cbn [string_loop].
  destruct Hcase as [[-> ->] | [(ec & c & s2 & t2 & Hin & -> & -> & H2) | (ha & hb & x & y & s2 & t2 & Hx & Hy & Hnh & -> & -> & H2)]].
  - rewrite app_nil_r.
    destruct (content_some p fuel g size a b L 34 r k e n) as (b' & E & Eb); auto; [cbn [length] in *; lia|lia|zl|].
    rewrite E, peek_g, get_g. cbn [Z.eqb Pos.eqb snd]. exists b'. split; [reflexivity|lia].
  - rewrite <- app_assoc. cbn [app].
    destruct (content_some p fuel g size a b L 92 (ec :: t2 ++ 34 :: r) k e n) as (b' & E & Eb); auto; [lia|zl|zl|].
    rewrite E, peek_g. cbn [Z.eqb Pos.eqb]. rewrite escape_simple with (c := c) by assumption. cbn [mem gst].
    fold (gst L (t2 ++ 34 :: r) k e (Some ((a ++ p) ++ b')) n).
    rewrite zlen_cons in Hsz, Hb. cbn [length] in HN, Hf. pose proof (zlen_nonneg _ s2).
    rewrite store_some; [|zl|unfold value_offset; zl].
    destruct (IH (length t2)) with (s := s2) (t := t2) (fuel := fuel) (size := size) (g := g + zlen p + 1) (a := (a ++ p) ++ [c])
      (b := drop (zlen [c]) b') (L := L) (r := r) (k := k) (e := e) (n := n) as (b2 & E2 & Eb2); try (zl; fail); auto.
    rewrite (app_assoc (a ++ p)), E2. exists b2. split.
    + do 2 f_equal; [zl|]. do 2 f_equal. rewrite <- !app_assoc. reflexivity.
    + rewrite Eb2, zlen_drop by zl. zl.
  - rewrite <- app_assoc. cbn [app].
    destruct (content_some p fuel g size a b L 92 (117 :: 48 :: 48 :: ha :: hb :: t2 ++ 34 :: r) k e n) as (b' & E & Eb); auto; [lia|zl|zl|].
    rewrite E, peek_g. cbn [Z.eqb Pos.eqb]. cbn [length] in HN, Hf. rewrite escape_hex with (x := x) (y := y) by (auto; lia). cbn [mem gst].
    fold (gst L (t2 ++ 34 :: r) k e (Some ((a ++ p) ++ b')) n).
    rewrite zlen_cons in Hsz, Hb. pose proof (zlen_nonneg _ s2).
    rewrite store_some; [|zl|unfold value_offset; zl].
    destruct (IH (length t2)) with (s := s2) (t := t2) (fuel := fuel) (size := size) (g := g + zlen p + 1) (a := (a ++ p) ++ [16 * x + y])
      (b := drop (zlen [16 * x + y]) b') (L := L) (r := r) (k := k) (e := e) (n := n) as (b2 & E2 & Eb2); try (zl; fail); auto.
    rewrite (app_assoc (a ++ p)), E2. exists b2. split.
    + do 2 f_equal; [zl|]. do 2 f_equal. rewrite <- !app_assoc. reflexivity.
    + rewrite Eb2, zlen_drop by zl. zl.
Qed.

Lemma string_loop_none : forall plain N s t, (length t <= N)%nat -> str_text plain s t ->
  forall fuel size g L r k e n, (length t + 1 < fuel)%nat ->
  exists g', string_loop fuel size g (gst L (t ++ 34 :: r) k e None n) = Ret (g', gst L r k e None n).
Proof.
  intros plain N. induction N as [N IH] using lt_wf_ind. intros s t HN Hst fuel size g L r k e n Hf.
  destruct fuel as [|fuel]; [lia|].
  destruct (esc_chunk _ _ _ Hst) as (p & s' & t' & -> & -> & Hp & Hcase).
  rewrite app_length in HN, Hf.
  cbn [string_loop]. unfold string_content. cbn [mem gst].
  destruct Hcase as [[-> ->] | [(ec & c & s2 & t2 & Hin & -> & -> & H2) | (ha & hb & x & y & s2 & t2 & Hx & Hy & Hnh & -> & -> & H2)]].
  - rewrite app_nil_r. fold (gst L (p ++ 34 :: r) k e None n).
    rewrite skip_chars_g by (auto using plain_content; cbn [length] in *; lia).
    rewrite peek_g, get_g. cbn [Z.eqb Pos.eqb snd]. eexists; reflexivity.
  - rewrite <- app_assoc. cbn [app]. fold (gst L (p ++ 92 :: ec :: t2 ++ 34 :: r) k e None n).
    rewrite skip_chars_g by (auto using plain_content; cbn [length] in *; lia).
    rewrite peek_g. cbn [Z.eqb Pos.eqb]. rewrite escape_simple with (c := c) by assumption. cbn [mem gst length] in *.
    fold (gst L (t2 ++ 34 :: r) k e None n). apply (IH (length t2)) with (s := s2); auto; lia.
  - rewrite <- app_assoc. cbn [app]. fold (gst L (p ++ 92 :: 117 :: 48 :: 48 :: ha :: hb :: t2 ++ 34 :: r) k e None n).
    rewrite skip_chars_g by (auto using plain_content; cbn [length] in *; lia).
    rewrite peek_g. cbn [Z.eqb Pos.eqb length] in *. rewrite escape_hex with (x := x) (y := y) by (auto; lia). cbn [mem gst].
    fold (gst L (t2 ++ 34 :: r) k e None n). apply (IH (length t2)) with (s := s2); auto; lia.
Qed.

Lemma c_str_app : forall s b, ~ In 0 s -> c_str (s ++ 0 :: b) = Some s.
Proof.
  induction s as [|c s IH]; intros b H; [reflexivity|]. cbn [app c_str].
  replace (c =? 0) with false by (assert (c <> 0) by (intro; subst; apply H; left; reflexivity); lia).
  rewrite IH; [reflexivity|]. intro; apply H; right; assumption.
Qed.

(** The buffer: None when skipping, otherwise one the token fits. *)
Definition buf_ok (m : option (list Z)) (t : token) : Prop :=
  match m with None => True | Some m => sizeof_token <= zlen m < 2 ^ 64 /\ tok_fits (zlen m) t end.
Definition size_of (m : option (list Z)) : Z := match m with None => 0 | Some m => zlen m end.

Lemma get_string : forall plain s t fuel L r k e m n,
  str_text plain s t -> buf_ok m (TStr s) -> (length t + 2 < fuel)%nat ->
  exists g m', get_or_skip_string fuel (wrap_u64 (size_of m - sizeof_item)) (gst L (34 :: t ++ 34 :: r) k e m n)
      = Ret (g, gst L r k e m' n)
    /\ match m, m' with
       | None, None => True
       | Some _, Some m' => c_str (drop value_offset m') = Some s
       | _, _ => False
       end.
Proof.
  intros plain s t fuel L r k e m n Hst Hm Hf. unfold get_or_skip_string. rewrite peek_g, get_g. cbn [Z.eqb Pos.eqb snd].
  destruct m as [m|].
  - unfold buf_ok, sizeof_token in Hm. cbn [tok_fits] in Hm. destruct Hm as (H1 & H2 & H3). cbn [size_of]. unfold sizeof_item, wrap_u64.
    rewrite Z.mod_small by (pose proof (zlen_nonneg _ s); lia).
    assert (zlen (take 8 m) = 8) by (apply zlen_take; lia).
    assert (zlen (drop 8 m) = zlen m - 8) by (apply zlen_drop; lia).
    destruct (string_loop_some plain (length t) s t) with (fuel := fuel) (size := zlen m - 2) (g := 0) (a := take 8 m) (b := drop 8 m) (L := L) (r := r) (k := k) (e := e) (n := n)
      as (b' & E & Eb); auto; try lia.
    rewrite take_drop in E. rewrite E. cbn [Z.add].
    assert (0 <= zlen s) by apply zlen_nonneg.
    rewrite store_some; [|rewrite zlen_cons, zlen_nil; lia|unfold value_offset; rewrite zlen_app; lia].
    eexists _, _. split; [reflexivity|]. cbn beta iota.
    rewrite <- !app_assoc. unfold value_offset. rewrite <- H at 1. rewrite drop_app_exact. apply c_str_app. assumption.
  - destruct (string_loop_none plain (length t) s t) with (fuel := fuel) (size := wrap_u64 (size_of None - sizeof_item)) (g := 0) (L := L) (r := r) (k := k) (e := e) (n := n)
      as (g' & E); auto; [lia|].
    rewrite E. unfold store. cbn [mem gst]. eexists _, None. split; [reflexivity|exact I].
Qed.

(** *** Numbers *)
Lemma get_digits_g : forall l fuel i L c r k e m n,
  Forall dig l -> is_digit c = false -> (length l < fuel)%nat -> 0 <= i -> i + zlen l <= 25 ->
  get_digits fuel i (gst L (l ++ c :: r) k e m n) = Ret (l, gst L (c :: r) k e m n).
Proof.
  intros. unfold get_digits, digits_size. pose proof (zlen_nonneg _ l). rewrite limit_small by lia.
  rewrite get_chars_g; auto; try lia.
  - replace (i + zlen l + 1 <=? 26) with true by lia. reflexivity.
  - eapply Forall_impl; [|eassumption]. unfold dig, is_digit, is_between. intros. lia.
Qed.
Lemma get_digit_char_g : forall d L c r k e m n, zlen d <= 25 ->
  get_digit_char d (gst L (c :: r) k e m n) = Ret (d ++ [c], gst L r k e m n).
Proof. intros. unfold get_digit_char. rewrite get_g. unfold digits_size. replace (zlen d + 1 <=? 26) with true by lia. reflexivity. Qed.

(** The character after a number. *)
Definition ends_number (c : Z) : Prop := is_digit c = false /\ c <> 46 /\ c <> 101 /\ c <> 69.

Definition num_of (m : option (list Z)) (t n : list Z) : list Z := match m with None => n | Some _ => t end.

Lemma number_int_g : forall sign int fuel L c r k e m n,
  (sign = [] \/ sign = [45]) -> digits1 int -> is_digit c = false -> zlen (sign ++ int) <= 25 -> (length (sign ++ int) < fuel)%nat ->
  number_int fuel (gst L (sign ++ int ++ c :: r) k e m n) = Ret (sign ++ int, gst L (c :: r) k e m n).
Proof.
  intros sign int fuel L c r k e m n Hs (Hi0 & Hi) Hc Hlen Hf. rewrite zlen_app in Hlen. rewrite app_length in Hf.
  pose proof (zlen_nonneg _ sign). unfold number_int. destruct Hs as [-> | ->]; cbn [app].
  - destruct int as [|i0 it]; [congruence|]. cbn [app]. rewrite peek_g.
    replace ((i0 =? 43) || (i0 =? 45)) with false by (inversion Hi; unfold dig in *; subst; lia).
    cbn [bind]. rewrite zlen_nil. change (i0 :: it ++ c :: r) with ((i0 :: it) ++ c :: r).
    rewrite get_digits_g by (auto; rewrite ?zlen_nil in *; cbn [length] in *; lia). reflexivity.
  - rewrite peek_g. cbn [Z.eqb Pos.eqb orb]. rewrite get_digit_char_g by (rewrite zlen_nil; lia). cbn [bind app].
    rewrite get_digits_g by (auto; rewrite ?zlen_cons, ?zlen_nil in *; cbn [length] in *; lia). reflexivity.
Qed.

Lemma number_frac_g : forall d frac fuel L c r k e m n,
  (frac = [] \/ exists f, frac = 46 :: f /\ digits1 f) -> is_digit c = false -> c <> 46 -> zlen (d ++ frac) <= 25 -> (length frac < fuel)%nat ->
  number_frac fuel d (gst L (frac ++ c :: r) k e m n) = Ret (d ++ frac, gst L (c :: r) k e m n).
Proof.
  intros d frac fuel L c r k e m n Hs Hc Hc2 Hlen Hf. rewrite zlen_app in Hlen.
  pose proof (zlen_nonneg _ d). unfold number_frac. destruct Hs as [-> | (f & -> & Hd0 & Hd)]; cbn [app].
  - rewrite peek_g. replace (c =? 46) with false by lia. rewrite app_nil_r. reflexivity.
  - rewrite peek_g. cbn [Z.eqb Pos.eqb]. rewrite zlen_cons in Hlen. pose proof (zlen_nonneg _ f).
    rewrite get_digit_char_g by lia. cbn [bind].
    rewrite get_digits_g by (auto; rewrite ?zlen_app, ?zlen_cons, ?zlen_nil; cbn [length] in *; lia). cbn [bind].
    rewrite <- app_assoc. reflexivity.
Qed.

Lemma number_exp_g : forall d exp fuel L c r k e m n,
  (exp = [] \/ exists ee s x, exp = ee :: s ++ x /\ (ee = 101 \/ ee = 69) /\ (s = [] \/ s = [43] \/ s = [45]) /\ digits1 x) ->
  is_digit c = false -> c <> 101 -> c <> 69 -> zlen (d ++ exp) <= 25 -> (length exp < fuel)%nat ->
  number_exp fuel d (gst L (exp ++ c :: r) k e m n) = Ret (d ++ exp, gst L (c :: r) k e m n).
Proof.
  intros d exp fuel L c r k e m n Hs Hc Hc2 Hc3 Hlen Hf. rewrite zlen_app in Hlen.
  pose proof (zlen_nonneg _ d). unfold number_exp. destruct Hs as [-> | (ee & s & x & -> & He & Hs & Hd0 & Hd)]; cbn [app].
  - rewrite peek_g. replace ((c =? 101) || (c =? 69)) with false by lia. rewrite app_nil_r. reflexivity.
  - rewrite peek_g. replace ((ee =? 101) || (ee =? 69)) with true by lia. rewrite zlen_cons, zlen_app in Hlen.
    pose proof (zlen_nonneg _ s). pose proof (zlen_nonneg _ x). cbn [length] in Hf. rewrite app_length in Hf.
    rewrite get_digit_char_g by lia. cbn [bind]. rewrite <- app_assoc.
    destruct Hs as [-> | Hs].
    + cbn [app]. destruct x as [|x0 x]; [congruence|]. cbn [app]. rewrite peek_g.
      replace ((x0 =? 43) || (x0 =? 45)) with false by (inversion Hd; unfold dig in *; subst; lia).
      cbn [bind]. change (x0 :: x ++ c :: r) with ((x0 :: x) ++ c :: r).
      rewrite get_digits_g by (auto; rewrite ?zlen_app, ?zlen_cons, ?zlen_nil in *; cbn [length] in *; lia). cbn [bind].
      rewrite <- app_assoc. reflexivity.
    + assert (exists g, s = [g] /\ ((g =? 43) || (g =? 45)) = true) as (g & -> & Hg) by (destruct Hs as [-> | ->]; eexists; split; reflexivity).
      cbn [app]. rewrite peek_g, Hg. rewrite zlen_cons, zlen_nil in *. rewrite get_digit_char_g by (rewrite zlen_app, zlen_cons, zlen_nil; lia).
      cbn [bind]. rewrite get_digits_g by (auto; rewrite ?zlen_app, ?zlen_cons, ?zlen_nil in *; cbn [length] in *; lia). cbn [bind].
      rewrite <- !app_assoc. reflexivity.
Qed.

Lemma get_number : forall t fuel L c r k e m n,
  number_text t -> zlen t <= 25 -> ends_number c -> (length t < fuel)%nat ->
  get_or_skip_number fuel (gst L (t ++ c :: r) k e m n) = Ret (gst L (c :: r) k e m (num_of m t n)).
Proof.
  intros t fuel L c r k e m n (sign & int & frac & exp & -> & Hs & Hi & _ & Hfr & Hex) Hlen (Hc1 & Hc2 & Hc3 & Hc4) Hf.
  assert (Hexp : exists x y, exp ++ c :: r = x :: y /\ is_digit x = false /\ x <> 46).
  { destruct Hex as [-> | (ee & es & ed & -> & He & _)]; [exists c, r; auto|].
    eexists ee, _. split; [reflexivity|]. destruct He as [-> | ->]; repeat split; try discriminate. }
  destruct Hexp as (x & y & Exy & Hx1 & Hx2).
  assert (Hfrac : exists u v, frac ++ exp ++ c :: r = u :: v /\ is_digit u = false).
  { destruct Hfr as [-> | (f & -> & _)]; [exists x, y; auto|]. eexists 46, _. split; reflexivity. }
  destruct Hfrac as (u & v & Euv & Hu1).
  rewrite !zlen_app in Hlen. rewrite !app_length in Hf. rewrite <- !app_assoc. rewrite Euv.
  pose proof (zlen_nonneg _ sign). pose proof (zlen_nonneg _ int). pose proof (zlen_nonneg _ frac). pose proof (zlen_nonneg _ exp).
  unfold get_or_skip_number. rewrite number_int_g by (auto; rewrite ?zlen_app, ?app_length; lia). cbn [bind].
  rewrite <- Euv, Exy. rewrite number_frac_g by (auto; rewrite ?zlen_app; lia). cbn [bind].
  rewrite <- Exy. rewrite number_exp_g by (auto; rewrite ?zlen_app; lia). cbn [bind].
  unfold digits_size. rewrite !zlen_app. replace (zlen sign + zlen int + zlen frac + zlen exp + 1 <=? 26) with true by lia.
  rewrite <- !app_assoc. cbn [mem gst]. destruct m; reflexivity.
Qed.

(** *** Tokens *)
Lemma trailing_g : forall k rest rest' fuel L m n, k <> [] -> follow k rest rest' -> (length rest < fuel)%nat ->
  trailing fuel (gst L rest k (top k) m n) = Ret (gst L rest' k (top k) m n).
Proof.
  intros k rest rest' fuel L m n Hk Hfo Hf. destruct k as [|b k]; [congruence|].
  destruct Hfo as (w & Hw & [-> | (r & -> & ->)]); unfold trailing; rewrite app_length in Hf.
  - rewrite skip_spaces_g by (auto; lia). cbn [bind]. rewrite peek_g, get_g. reflexivity.
  - unfold closer. destruct b; cbn [top]; rewrite skip_spaces_g by (auto; lia); reflexivity.
Qed.

Lemma finish_g : forall k rest rest' fuel L m n (it : item), follow k rest rest' -> (length rest < fuel)%nat ->
  (do s <- (if true && (0 <? levels (gst L rest k (top k) m n)) then trailing fuel (gst L rest k (top k) m n) else Ret (gst L rest k (top k) m n));
   Ret (it, s)) = Ret (it, gst L rest' k (top k) m n).
Proof.
  intros k rest rest' fuel L m n it Hfo Hf. unfold levels. cbn [stk gst andb]. destruct k as [|b k].
  - cbn [follow] in Hfo. subst. reflexivity.
  - rewrite zlen_cons. pose proof (zlen_nonneg _ k). replace (0 <? zlen k + 1) with true by lia.
    rewrite (trailing_g (b :: k) rest rest') by (auto; discriminate). reflexivity.
Qed.

Lemma token_start : forall w ch r fuel size L k e m n, ws w -> json_is_space ch = false -> (length w < fuel)%nat ->
  get_or_skip_token fuel size (gst L (w ++ ch :: r) k e m n) =
  (do (r, s) <- (if e && top k then token_property fuel size ch (gst L (ch :: r) k e m n) else token_value fuel size ch (gst L (ch :: r) k e m n));
   let '(it, trail) := r in
   do s <- (if trail && (0 <? levels s) then trailing fuel s else Ret s);
   Ret (it, s)).
Proof.
  intros. unfold get_or_skip_token. rewrite skip_spaces_g by auto. cbn [bind]. rewrite peek_g. reflexivity.
Qed.

Record core := mk { cinp : list Z; ck : list bool; ce : bool }.
Definition TokR (fuel : nat) (L : Z) (t : token) (c c' : core) : Prop :=
  forall m, buf_ok m t ->
  exists it m' n', get_or_skip_token fuel (size_of m) (gst L (cinp c) (ck c) (ce c) m []) = Ret (it, gst L (cinp c') (ck c') (ce c') m' n')
    /\ (m <> None -> observe it (gst L (cinp c') (ck c') (ce c') m' n') = Some t).

Ltac tok_start := intros; intros m Hm; cbn [cinp ck ce] in *; rewrite ?app_length in *; cbn [length] in *.

Lemma set_expect_g : forall L l k e m n x, set_expect_property (gst L l k e m n) x = gst L l k (x && top k) m n.
Proof. reflexivity. Qed.

Lemma tok_literal : forall v t w rest rest' fuel L k e,
  (v = TNull /\ t = null_text \/ v = TBool true /\ t = true_text \/ v = TBool false /\ t = false_text) ->
  e && top k = false -> ws w -> follow k rest rest' -> (length (w ++ t ++ rest) < fuel)%nat ->
  TokR fuel L v (mk (w ++ t ++ rest) k e) (mk rest' k (top k)).
Proof.
  intros v t w rest rest' fuel L k e Hv He Hw Hfo Hf m Hm. cbn [cinp ck ce] in *. rewrite ?app_length in *.
  destruct Hv as [[-> ->] | [[-> ->] | [-> ->]]].
  - unfold null_text. cbn [app]. rewrite token_start by (auto; lia). rewrite He.
    change (token_value _ _ _ _) with (Ret ((null, true), gst L rest k (true && top k) m [])). cbn [bind andb].
    pose proof (finish_g k rest rest' fuel L m [] null Hfo ltac:(lia)) as F. cbn [andb] in F. rewrite F.
    eexists _, _, _. split; [reflexivity|]. reflexivity.
  - unfold true_text. cbn [app]. rewrite token_start by (auto; lia). rewrite He.
    destruct m as [m|].
    + assert (Em : exists b m1 m2, m = m1 ++ b :: m2 /\ zlen m1 = 8).
      { destruct Hm as (Hm & _). unfold sizeof_token in Hm. exists (hd 0 (drop 8 m)), (take 8 m), (tl (drop 8 m)).
        split; [|apply zlen_take; lia]. rewrite <- (take_drop _ 8 m) at 1. f_equal.
        destruct (drop 8 m) eqn:E; [|reflexivity]. apply (f_equal zlen) in E. rewrite zlen_drop, zlen_nil in E by lia. lia. }
      destruct Em as (b & m1 & m2 & -> & Hm1).
      unfold token_value. cbn [Z.eqb Pos.eqb].
      change (get_literal lit_true _) with (gst L rest k e (Some (m1 ++ b :: m2)) []). change (is_good _) with true. cbv iota.
      rewrite store_some; [|rewrite !zlen_cons, zlen_nil; pose proof (zlen_nonneg _ m2); lia|exact Hm1].
      cbn [bind]. rewrite set_expect_g. cbn [andb].
      pose proof (fun m => finish_g k rest rest' fuel L m [] boolean Hfo ltac:(lia)) as F. cbn [andb] in F. rewrite F.
      eexists _, _, _. split; [reflexivity|]. intros _. unfold observe. cbn [mem gst]. unfold value_offset. rewrite <- Hm1, drop_app_exact. reflexivity.
    + change (token_value _ _ _ _) with (Ret ((boolean, true), gst L rest k (true && top k) None [])). cbn [bind andb].
      pose proof (finish_g k rest rest' fuel L None [] boolean Hfo ltac:(lia)) as F. cbn [andb] in F. rewrite F.
      eexists _, _, _. split; [reflexivity|]. congruence.
  - unfold false_text. cbn [app]. rewrite token_start by (auto; lia). rewrite He.
    destruct m as [m|].
    + assert (Em : exists b m1 m2, m = m1 ++ b :: m2 /\ zlen m1 = 8).
      { destruct Hm as (Hm & _). unfold sizeof_token in Hm. exists (hd 0 (drop 8 m)), (take 8 m), (tl (drop 8 m)).
        split; [|apply zlen_take; lia]. rewrite <- (take_drop _ 8 m) at 1. f_equal.
        destruct (drop 8 m) eqn:E; [|reflexivity]. apply (f_equal zlen) in E. rewrite zlen_drop, zlen_nil in E by lia. lia. }
      destruct Em as (b & m1 & m2 & -> & Hm1).
      unfold token_value. cbn [Z.eqb Pos.eqb].
      change (get_literal lit_false _) with (gst L rest k e (Some (m1 ++ b :: m2)) []). change (is_good _) with true. cbv iota.
      rewrite store_some; [|rewrite !zlen_cons, zlen_nil; pose proof (zlen_nonneg _ m2); lia|exact Hm1].
      cbn [bind]. rewrite set_expect_g. cbn [andb].
      pose proof (fun m => finish_g k rest rest' fuel L m [] boolean Hfo ltac:(lia)) as F. cbn [andb] in F. rewrite F.
      eexists _, _, _. split; [reflexivity|]. intros _. unfold observe. cbn [mem gst]. unfold value_offset. rewrite <- Hm1, drop_app_exact. reflexivity.
    + change (token_value _ _ _ _) with (Ret ((boolean, true), gst L rest k (true && top k) None [])). cbn [bind andb].
      pose proof (finish_g k rest rest' fuel L None [] boolean Hfo ltac:(lia)) as F. cbn [andb] in F. rewrite F.
      eexists _, _, _. split; [reflexivity|]. congruence.
Qed.

Definition num_end (rest : list Z) : Prop := exists c r, rest = c :: r /\ ends_number c.

Lemma follow_num_end : forall k rest rest', k <> [] -> follow k rest rest' -> num_end rest.
Proof.
  intros k rest rest' Hk Hfo. destruct k as [|b k]; [congruence|]. destruct Hfo as (w & Hw & H).
  destruct w as [|c w].
  - destruct H as [-> | (r & -> & ->)]; [exists 44, rest'; split; [reflexivity|repeat split; discriminate]|].
    exists (closer (b :: k)), r. split; [reflexivity|]. unfold closer. destruct b; repeat split; discriminate.
  - exists c. inversion Hw as [|? ? Hc]; subst. destruct H as [-> | (r & -> & ->)]; (eexists; split; [reflexivity|]);
      destruct Hc as [-> | [-> | [-> | ->]]]; repeat split; discriminate.
Qed.

Lemma number_head : forall t, number_text t -> exists c t', t = c :: t' /\ (c = 45 \/ dig c).
Proof.
  intros t (sign & int & frac & exp & -> & Hs & (Hi0 & Hi) & _). destruct Hs as [-> | ->].
  - destruct int as [|c int]; [congruence|]. inversion Hi; subst. exists c. eexists. split; [reflexivity|auto].
  - eexists 45, _. split; [reflexivity|auto].
Qed.

Lemma tok_number : forall t w rest rest' fuel L k e,
  number_text t -> zlen t <= 25 -> num_end rest ->
  e && top k = false -> ws w -> follow k rest rest' -> (length (w ++ t ++ rest) < fuel)%nat ->
  TokR fuel L (TNum t) (mk (w ++ t ++ rest) k e) (mk rest' k (top k)).
Proof.
  intros t w rest rest' fuel L k e Ht Hlen (c & r & -> & Hc) He Hw Hfo Hf m Hm. cbn [cinp ck ce] in *. rewrite ?app_length in *.
  destruct (number_head t Ht) as (c0 & t' & Et & Hc0).
  rewrite Et. cbn [app].
  assert (json_is_space c0 = false /\ (c0 =? 110) = false /\ (c0 =? 102) = false /\ (c0 =? 116) = false
          /\ is_digit c0 || (c0 =? 43) || (c0 =? 45) = true) as (A1 & A2 & A3 & A4 & A5).
  { unfold dig in Hc0. unfold json_is_space, is_space, is_digit, is_between. lia. }
  rewrite token_start by (auto; lia). rewrite He.
  change (c0 :: t' ++ c :: r) with ((c0 :: t') ++ c :: r). rewrite <- Et.
  unfold token_value. rewrite A2, A3, A4, A5. rewrite get_number by (auto; lia). cbn [bind]. rewrite set_expect_g. cbn [andb].
  pose proof (fun m n => finish_g k (c :: r) rest' fuel L m n number Hfo ltac:(cbn [length] in *; lia)) as F. cbn [andb] in F. rewrite F.
  eexists _, _, _. split; [reflexivity|]. intro Hmm. unfold observe. cbn [num gst]. destruct m; [reflexivity|congruence].
Qed.

Lemma tok_string : forall plain s t w rest rest' fuel L k e,
  str_text plain s t ->
  e && top k = false -> ws w -> follow k rest rest' -> (length w + length t + length rest + 2 < fuel)%nat ->
  TokR fuel L (TStr s) (mk (w ++ [34] ++ t ++ [34] ++ rest) k e) (mk rest' k (top k)).
Proof.
  intros plain s t w rest rest' fuel L k e Ht He Hw Hfo Hf m Hm. cbn [cinp ck ce] in *. rewrite ?app_length in *. cbn [app length] in *.
  rewrite token_start by (auto; lia). rewrite He. unfold token_value. cbn [Z.eqb Pos.eqb is_digit is_between Z.leb Z.compare Pos.compare Pos.compare_cont andb orb].
  destruct (get_string plain s t fuel L rest k e m [] Ht Hm ltac:(lia)) as (g & m' & E & Em). rewrite E. cbn [bind].
  change (is_good _) with true. cbv iota. rewrite set_expect_g. cbn [andb].
  pose proof (fun m n => finish_g k rest rest' fuel L m n string Hfo ltac:(lia)) as F. cbn [andb] in F. rewrite F.
  eexists _, _, _. split; [reflexivity|]. intro Hmm. unfold observe. cbn [mem gst]. destruct m as [m|]; [|congruence].
  destruct m' as [m'|]; [|destruct Em]. rewrite Em. reflexivity.
Qed.

Lemma tok_property : forall plain s t w w2 rest fuel L k,
  str_text plain s t -> ws w -> ws w2 -> (length w + length t + length w2 + length rest + 3 < fuel)%nat ->
  TokR fuel L (TProp s) (mk (w ++ [34] ++ t ++ [34] ++ w2 ++ [58] ++ rest) (true :: k) true) (mk rest (true :: k) false).
Proof.
  intros plain s t w w2 rest fuel L k Ht Hw Hw2 Hf m Hm. cbn [cinp ck ce] in *. rewrite ?app_length in *. cbn [app length] in *.
  rewrite token_start by (auto; lia). cbn [andb top]. unfold token_property. cbn [Z.eqb Pos.eqb].
  destruct (get_string plain s t fuel L (w2 ++ 58 :: rest) (true :: k) true m [] Ht Hm ltac:(lia)) as (g & m' & E & Em). rewrite E. cbn [bind].
  change (is_good _) with true. cbv iota. rewrite skip_spaces_g by (auto; lia). cbn [bind].
  rewrite peek_g, get_g. cbn [Z.eqb Pos.eqb snd bind andb]. rewrite set_expect_g. cbn [andb].
  eexists _, _, _. split; [reflexivity|]. intro Hmm. unfold observe. cbn [mem gst]. destruct m as [m|]; [|congruence].
  destruct m' as [m'|]; [|destruct Em]. rewrite Em. reflexivity.
Qed.

Lemma tok_begin : forall (o : bool) w rest fuel L k e,
  e && top k = false -> ws w -> zlen k < L -> (length w < fuel)%nat ->
  TokR fuel L (if o then TBegO else TBegA) (mk (w ++ [if o then 123 else 91] ++ rest) k e) (mk rest (o :: k) o).
Proof.
  intros o w rest fuel L k e He Hw HL Hf m Hm. cbn [cinp ck ce] in *. cbn [app].
  rewrite token_start by (destruct o; auto). rewrite He. unfold token_value. destruct o.
  - cbn [Z.eqb Pos.eqb is_digit is_between Z.leb Z.compare Pos.compare Pos.compare_cont andb orb]. rewrite get_g.
    unfold push_level, levels. cbn [maxl stk gst]. replace (L <=? zlen k) with false by lia.
    eexists _, _, _. split; reflexivity.
  - cbn [Z.eqb Pos.eqb is_digit is_between Z.leb Z.compare Pos.compare Pos.compare_cont andb orb]. rewrite get_g.
    unfold push_level, levels. cbn [maxl stk gst]. replace (L <=? zlen k) with false by lia.
    eexists _, _, _. split; reflexivity.
Qed.

Lemma tok_end : forall (o : bool) w rest rest' fuel L k,
  ws w -> follow k rest rest' -> (length (w ++ rest) < fuel)%nat ->
  TokR fuel L (if o then TEndO else TEndA) (mk (w ++ [if o then 125 else 93] ++ rest) (o :: k) o) (mk rest' k (top k)).
Proof.
  intros o w rest rest' fuel L k Hw Hfo Hf m Hm. cbn [cinp ck ce] in *. cbn [app]. rewrite app_length in Hf.
  rewrite token_start by (destruct o; auto; lia). destruct o; cbn [andb top].
  - unfold token_property. cbn [Z.eqb Pos.eqb]. rewrite get_g. unfold pop_level. cbn [stk gst Bool.eqb].
    unfold upd_stk. cbn [inp eofb failb badb maxl mem num gst negb set_bad_if]. fold (gst L rest k true m []).
    change (expp _) with true. fold (gst L rest k true m []). rewrite set_expect_g. cbn [andb bind].
    pose proof (fun m n => finish_g k rest rest' fuel L m n end_object Hfo ltac:(lia)) as F. cbn [andb] in F. rewrite F.
    eexists _, _, _. split; reflexivity.
  - unfold token_value. cbn [Z.eqb Pos.eqb is_digit is_between Z.leb Z.compare Pos.compare Pos.compare_cont andb orb]. rewrite get_g. unfold pop_level. cbn [stk gst Bool.eqb].
    unfold upd_stk. cbn [inp eofb failb badb maxl mem num gst negb set_bad_if bind].
    change (expp _) with false. fold (gst L rest k false m []). rewrite set_expect_g. cbn [andb bind].
    pose proof (fun m n => finish_g k rest rest' fuel L m n end_array Hfo ltac:(lia)) as F. cbn [andb] in F. rewrite F.
    eexists _, _, _. split; reflexivity.
Qed.

(** *** Sequences of tokens; before each token but the first the depth exceeds [b]. *)
Inductive Run (fuel : nat) (L b : Z) : list token -> core -> core -> Prop :=
| run_nil : forall c, Run fuel L b [] c c
| run_cons : forall t ts c c1 c2, TokR fuel L t c c1 -> (ts <> [] -> b < zlen (ck c1)) -> Run fuel L b ts c1 c2 ->
    Run fuel L b (t :: ts) c c2.

Lemma run_weaken : forall fuel L b b' ts c c', Run fuel L b ts c c' -> b' <= b -> Run fuel L b' ts c c'.
Proof.
  induction 1; intros; [constructor|]. econstructor; eauto. intros. specialize (H0 H3). lia.
Qed.
Lemma run_app : forall fuel L b ts c c', Run fuel L b ts c c' -> forall ts' c2, Run fuel L b ts' c' c2 -> b < zlen (ck c') ->
  Run fuel L b (ts ++ ts') c c2.
Proof.
  induction 1; intros; [assumption|]. cbn [app]. econstructor; eauto.
  intros _. destruct ts; [inversion H1; subst; assumption|apply H0; discriminate].
Qed.
Lemma run_one : forall fuel L b t c c', TokR fuel L t c c' -> Run fuel L b [t] c c'.
Proof. intros. econstructor; eauto using run_nil. congruence. Qed.

Scheme val_mut := Induction for val Sort Prop
with elems_mut := Induction for elems Sort Prop
with members_mut := Induction for members Sort Prop.
Combined Scheme text_mut from val_mut, elems_mut, members_mut.

Definition max_depth (l : list jv) : Z := fold_right Z.max 0 (map depth l).
Definition mtokens (p : list Z * jv) : list token := match p with (n, v) => TProp n :: tokens v end.
Definition mdepth (p : list Z * jv) : Z := match p with (_, v) => depth v end.

Lemma run_val_all : forall plain,
  (forall v t, val plain v t -> forall fuel L w rest rest' k e,
     e && top k = false -> ws w -> follow k rest rest' -> (is_num v = true -> num_end rest) ->
     zlen k + depth v <= L -> Forall num_fits (tokens v) -> (length w + length t + length rest + 2 < fuel)%nat ->
     Run fuel L (zlen k) (tokens v) (mk (w ++ t ++ rest) k e) (mk rest' k (top k)))
  /\ (forall l t, elems plain l t -> forall fuel L rest k,
     zlen k + 1 + fold_right Z.max 0 (map depth l) <= L -> Forall num_fits (flat_map tokens l) -> (length t + length rest + 4 < fuel)%nat ->
     exists w, ws w /\ (length w <= length t)%nat
       /\ Run fuel L (zlen k) (flat_map tokens l) (mk (t ++ [93] ++ rest) (false :: k) false) (mk (w ++ [93] ++ rest) (false :: k) false))
  /\ (forall l t, members plain l t -> forall fuel L rest k,
     zlen k + 1 + fold_right Z.max 0 (map mdepth l) <= L -> Forall num_fits (flat_map mtokens l) -> (length t + length rest + 4 < fuel)%nat ->
     exists w, ws w /\ (length w <= length t)%nat
       /\ Run fuel L (zlen k) (flat_map mtokens l) (mk (t ++ [125] ++ rest) (true :: k) true) (mk (w ++ [125] ++ rest) (true :: k) true)).
Proof.
  intro plain. apply text_mut.
  - intros fuel L w rest rest' k e He Hw Hfo Hn Hd Hnf Hf. apply run_one. apply tok_literal; auto. rewrite !app_length. lia.
  - intros fuel L w rest rest' k e He Hw Hfo Hn Hd Hnf Hf. apply run_one. apply tok_literal; auto. rewrite !app_length. lia.
  - intros fuel L w rest rest' k e He Hw Hfo Hn Hd Hnf Hf. apply run_one. apply tok_literal; auto. rewrite !app_length. lia.
  - intros t Ht fuel L w rest rest' k e He Hw Hfo Hn Hd Hnf Hf. apply run_one. inversion Hnf; subst. apply tok_number; auto. rewrite !app_length. lia.
  - intros s t Ht fuel L w rest rest' k e He Hw Hfo Hn Hd Hnf Hf. apply run_one. cbn [app length] in *. rewrite app_length in Hf. cbn [length] in Hf.
    rewrite <- !app_assoc. apply (tok_string plain); auto. lia.
  - (* array *)
    intros l t Ht IH fuel L w rest rest' k e He Hw Hfo Hn Hd Hnf Hf.
    cbn [tokens depth] in *. inversion Hnf as [|? ? _ Hnf']; subst. apply Forall_app in Hnf' as (Hnf' & _).
    cbn [app length] in Hf. rewrite app_length in Hf. cbn [length] in Hf.
    assert (0 <= fold_right Z.max 0 (map depth l)) by (clear; induction l; cbn [fold_right map]; lia).
    destruct (IH fuel L rest k) as (w' & Hw' & Hlw & R); [lia|assumption|lia|].
    apply run_cons with (c1 := mk (t ++ [93] ++ rest) (false :: k) false).
    + replace (w ++ ([91] ++ t ++ [93]) ++ rest) with (w ++ [91] ++ t ++ [93] ++ rest) by (rewrite <- !app_assoc; reflexivity).
      apply (tok_begin false w (t ++ [93] ++ rest)); auto; lia.
    + intros _. cbn [ck]. rewrite zlen_cons. lia.
    + eapply run_app; [exact R| |cbn [ck]; rewrite zlen_cons; lia].
      apply run_one. apply (tok_end false); auto. rewrite app_length. lia.
  - (* object *)
    intros l t Ht IH fuel L w rest rest' k e He Hw Hfo Hn Hd Hnf Hf.
    cbn [tokens depth] in *. fold mtokens in *. fold mdepth in *. inversion Hnf as [|? ? _ Hnf']; subst. apply Forall_app in Hnf' as (Hnf' & _).
    cbn [app length] in Hf. rewrite app_length in Hf. cbn [length] in Hf.
    assert (0 <= fold_right Z.max 0 (map mdepth l)) by (clear; induction l; cbn [fold_right map]; lia).
    destruct (IH fuel L rest k) as (w' & Hw' & Hlw & R); [lia|assumption|lia|].
    apply run_cons with (c1 := mk (t ++ [125] ++ rest) (true :: k) true).
    + replace (w ++ ([123] ++ t ++ [125]) ++ rest) with (w ++ [123] ++ t ++ [125] ++ rest) by (rewrite <- !app_assoc; reflexivity).
      apply (tok_begin true w (t ++ [125] ++ rest)); auto; lia.
    + intros _. cbn [ck]. rewrite zlen_cons. lia.
    + eapply run_app; [exact R| |cbn [ck]; rewrite zlen_cons; lia].
      apply run_one. apply (tok_end true); auto. rewrite app_length. lia.
  - (* e_nil *)
    intros w Hw fuel L rest k Hd Hnf Hf. exists w. repeat split; auto. constructor.
  - (* e_one *)
    intros v t w1 w2 Hw1 Hv IH Hw2 fuel L rest k Hd Hnf Hf. cbn [flat_map map fold_right] in *. rewrite app_nil_r in *.
    rewrite !app_length in Hf.
    exists []. split; [constructor|]. split; [cbn; lia|]. cbn [app]. rewrite <- !app_assoc.
    apply run_weaken with (b := zlen (false :: k)); [|rewrite zlen_cons; lia].
    assert (follow (false :: k) (w2 ++ 93 :: rest) (93 :: rest)).
    { exists w2. split; [assumption|]. right. exists rest. split; reflexivity. }
    apply IH; auto.
    + intros _. eapply follow_num_end; [|eassumption]. discriminate.
    + rewrite zlen_cons. lia.
    + rewrite app_length. cbn [length]. lia.
  - (* e_cons *)
    intros v t w1 w2 v' l t' Hw1 Hv IH Hw2 Hl IHl fuel L rest k Hd Hnf Hf.
    change (flat_map tokens (v :: v' :: l)) with (tokens v ++ flat_map tokens (v' :: l)) in *.
    change (fold_right Z.max 0 (map depth (v :: v' :: l))) with (Z.max (depth v) (fold_right Z.max 0 (map depth (v' :: l)))) in *.
    apply Forall_app in Hnf as (Hnf1 & Hnf2).
    rewrite !app_length in Hf. cbn [length] in Hf.
    destruct (IHl fuel L rest k) as (w' & Hw' & Hlw & R); [lia|assumption|lia|].
    exists w'. split; [assumption|]. split; [rewrite !app_length; cbn [length]; lia|].
    rewrite <- !app_assoc.
    eapply run_app; [|exact R|cbn [ck]; rewrite zlen_cons; lia].
    apply run_weaken with (b := zlen (false :: k)); [|rewrite zlen_cons; lia].
    assert (follow (false :: k) (w2 ++ [44] ++ t' ++ [93] ++ rest) (t' ++ [93] ++ rest)).
    { exists w2. split; [assumption|]. left. reflexivity. }
    apply IH; auto.
    + intros _. eapply follow_num_end; [|eassumption]. discriminate.
    + rewrite zlen_cons. lia.
    + rewrite !app_length. cbn [length]. lia.
  - (* m_nil *)
    intros w Hw fuel L rest k Hd Hnf Hf. exists w. repeat split; auto. constructor.
  - (* m_one *)
    intros n v nt t w1 w2 w3 w4 Hw1 Hn Hw2 Hw3 Hv IH Hw4 fuel L rest k Hd Hnf Hf.
    cbn [flat_map map fold_right mtokens mdepth] in *. rewrite app_nil_r in *.
    rewrite !app_length in Hf. cbn [length] in Hf. inversion Hnf as [|? ? _ Hnf']; subst.
    exists []. split; [constructor|]. split; [cbn; lia|]. rewrite <- !app_assoc. cbn [app].
    change (125 :: rest) with ([125] ++ rest).
    apply run_cons with (c1 := mk (w3 ++ t ++ w4 ++ [125] ++ rest) (true :: k) false).
    + apply (tok_property plain); auto. rewrite !app_length. cbn [length]. lia.
    + intros _. cbn [ck]. rewrite zlen_cons. lia.
    + apply run_weaken with (b := zlen (true :: k)); [|rewrite zlen_cons; lia].
      assert (follow (true :: k) (w4 ++ [125] ++ rest) (125 :: rest)).
      { exists w4. split; [assumption|]. right. exists rest. split; reflexivity. }
      apply IH; auto.
      * intros _. eapply follow_num_end; [|eassumption]. discriminate.
      * rewrite zlen_cons. lia.
      * rewrite app_length. cbn [length app]. lia.
  - (* m_cons *)
    intros n v nt t w1 w2 w3 w4 m l t' Hw1 Hn Hw2 Hw3 Hv IH Hw4 Hl IHl fuel L rest k Hd Hnf Hf.
    change (flat_map mtokens ((n, v) :: m :: l)) with (TProp n :: tokens v ++ flat_map mtokens (m :: l)) in *.
    change (fold_right Z.max 0 (map mdepth ((n, v) :: m :: l))) with (Z.max (depth v) (fold_right Z.max 0 (map mdepth (m :: l)))) in *.
    inversion Hnf as [|? ? _ Hnf']; subst. apply Forall_app in Hnf' as (Hnf1 & Hnf2).
    rewrite !app_length in Hf. cbn [length] in Hf.
    destruct (IHl fuel L rest k) as (w' & Hw' & Hlw & R); [lia|assumption|lia|].
    exists w'. split; [assumption|]. split; [rewrite !app_length; cbn [length]; lia|].
    rewrite <- !app_assoc.
    apply run_cons with (c1 := mk (w3 ++ t ++ w4 ++ [44] ++ t' ++ [125] ++ rest) (true :: k) false).
    + apply (tok_property plain); auto. rewrite !app_length. cbn [length]. lia.
    + intros _. cbn [ck]. rewrite zlen_cons. lia.
    + eapply run_app; [|exact R|cbn [ck]; rewrite zlen_cons; lia].
      apply run_weaken with (b := zlen (true :: k)); [|rewrite zlen_cons; lia].
      assert (follow (true :: k) (w4 ++ [44] ++ t' ++ [125] ++ rest) (t' ++ [125] ++ rest)).
      { exists w4. split; [assumption|]. left. reflexivity. }
      apply IH; auto.
      * intros _. eapply follow_num_end; [|eassumption]. discriminate.
      * rewrite zlen_cons. lia.
      * rewrite !app_length. cbn [length]. lia.
Qed.
