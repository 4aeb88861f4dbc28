(** Proofs about the SMBus model. *)

From Coq Require Import ZArith List Bool Lia.
From Verif Require Import Base ListMem Smbus_Model Smbus_Spec.
Import ListNotations.
Open Scope Z_scope.
Set Warnings "-unused-intro-pattern".

Ltac pr := cbn [has_log addr fd_addr calls evs] in *.

(** _addr tells what the kernel has selected, unless nothing was selected yet. *)
Definition consistent (b : bus) : Prop := addr b = 0 \/ fd_addr b = Some (addr b).

Lemma ensure_spec : forall D b a ok b', locks_work D -> ensure_address D b a = (ok, b') ->
  has_log b' = has_log b /\
  exists new, evs b' = evs b ++ new /\ delivered new = [] /\ (forall to m k, ~ In (EXfer to m k) new) /\
  (has_log b = true -> (ok = false <-> exists e, In e new /\ event_failed e)) /\
  (has_log b = false -> ok = true) /\
  (has_log b = true -> consistent b -> consistent b' /\ (ok = true -> a <> 0 -> fd_addr b' = Some a)) /\
  (has_log b = false -> ~ In (ESelect a false) new -> fd_addr b' = Some a).
Proof.
  intros D b a ok b' L H. unfold ensure_address, ioctl_select in H.
  destruct ((addr b =? a) && has_log b) eqn:E.
  - injection H as <- <-. split; [reflexivity|]. apply andb_prop in E as [E1 E2]. apply Z.eqb_eq in E1. exists [].
    rewrite app_nil_r. split; [reflexivity|]. split; [reflexivity|]. split; [intros to m k []|]. rewrite E2. split.
    + intros _. split; [discriminate|intros (e & [] & _)].
    + split; [discriminate|]. split; [|discriminate]. intros _ C. split; [exact C|]. intros _ N. destruct C as [C|C]; congruence.
  - destruct (D (calls b)) as [r| |] eqn:Q; [| |elim (L _ Q)].
    + cbn in H. injection H as <- <-. pr. unfold set_addr. pr. split; [reflexivity|]. exists [ESelect a true].
      split; [reflexivity|]. split; [reflexivity|]. split; [intros to m k [K|[]]; discriminate|]. split.
      * intros _. split; [discriminate|]. intros (e & [<-|[]] & F). discriminate F.
      * split; [reflexivity|]. split; [|intros _ _; reflexivity]. intros _ C. split; [right; reflexivity|reflexivity].
    + cbn in H. destruct (has_log b) eqn:W; cbn in H; injection H as <- <-; pr; unfold set_addr; pr.
      * split; [first [exact W|reflexivity]|]. exists [ESelect a false]. split; [reflexivity|]. split; [reflexivity|]. split; [intros to m k [K|[]]; discriminate|].
        split; [|split; [discriminate|split; [|discriminate]]].
        -- intros _. split; [|reflexivity]. intros _. exists (ESelect a false). split; [left; reflexivity|reflexivity].
        -- intros _ C. split; [exact C|discriminate].
      * split; [first [exact W|reflexivity]|]. exists [ESelect a false]. split; [reflexivity|]. split; [reflexivity|]. split; [intros to m k [K|[]]; discriminate|].
        split; [discriminate|]. split; [reflexivity|]. split; [discriminate|]. intros _ N. elim N. left. reflexivity.
Qed.

(** What one selection and message do *)
Definition xfer_post (D : nat -> answer) (b b' : bus) (a : Z) (m : msg) (res : option (option reply)) : Prop :=
  has_log b' = has_log b /\
  exists new, evs b' = evs b ++ new /\
  (has_log b = true ->
     match res with
     | Some (Some r) => delivered new = [(m, r)] /\ (forall e, In e new -> ~ event_failed e) /\ exists n, D n = ADone r
     | Some None => False
     | None => delivered new = [] /\ exists e, In e new /\ event_failed e
     end) /\
  (has_log b = false -> res <> None) /\
  (has_log b = true -> consistent b -> consistent b' /\ (a <> 0 -> all_to a new)) /\
  (has_log b = false -> ~ In (ESelect a false) new -> all_to a new).

Lemma delivered_app : forall l l', delivered (l ++ l') = delivered l ++ delivered l'.
Proof. induction l as [|[a ok|to m r] l IH]; intro l'; [reflexivity|apply IH|]. destruct r; cbn; rewrite IH; reflexivity. Qed.

Lemma smbus_spec : forall D b m, locks_work D ->
  (exists r, D (calls b) = ADone r /\ ioctl_smbus D b m =
     (0, Some r, {| has_log := has_log b; addr := addr b; fd_addr := fd_addr b; calls := S (calls b); evs := evs b ++ [EXfer (fd_addr b) m (Some r)] |})) \/
  (D (calls b) = AFail /\ ioctl_smbus D b m =
     (-1, None, {| has_log := has_log b; addr := addr b; fd_addr := fd_addr b; calls := S (calls b); evs := evs b ++ [EXfer (fd_addr b) m None] |})).
Proof.
  intros D b m L. unfold ioctl_smbus. destruct (D (calls b)) as [r| |] eqn:Q; [left; eauto|right; auto|elim (L _ Q)].
Qed.

(** The part after the selection *)
Lemma finish_spec : forall D b b1 a m ok new1, locks_work D -> has_log b1 = has_log b -> evs b1 = evs b ++ new1 -> delivered new1 = [] ->
  (forall to m k, ~ In (EXfer to m k) new1) ->
  (has_log b = true -> (ok = false <-> exists e, In e new1 /\ event_failed e)) -> (has_log b = false -> ok = true) ->
  (has_log b = true -> consistent b -> consistent b1 /\ (ok = true -> a <> 0 -> fd_addr b1 = Some a)) ->
  (has_log b = false -> ~ In (ESelect a false) new1 -> fd_addr b1 = Some a) ->
  forall res b',
  (if negb ok && has_log b1 then (None, b1)
   else let '(r, rep, b2) := ioctl_smbus D b1 m in if (r <? 0) && has_log b2 then (None, b2) else (Some rep, b2)) = (res, b') ->
  xfer_post D b b' a m res.
Proof.
  intros D b b1 a m ok new1 L HL E DN NX O1 O2 C1 C2 res b' H. unfold xfer_post. rewrite HL in H.
  destruct (negb ok && has_log b) eqn:G.
  - injection H as <- <-. apply andb_prop in G as [G1 G2]. apply negb_true_iff in G1. split; [exact HL|]. exists new1. split; [exact E|].
    split; [intros _; split; [exact DN|apply O1; assumption]|]. split; [congruence|]. split.
    + intros _ C. destruct (C1 G2 C) as [K _]. split; [exact K|]. intros _ to m' k I. elim (NX _ _ _ I).
    + congruence.
  - destruct (smbus_spec D b1 m L) as [(r & Q & S1)|(Q & S1)]; rewrite S1 in H; clear S1; pr.
    + cbn [Z.ltb Z.compare andb] in H. injection H as <- <-. pr. split; [exact HL|]. exists (new1 ++ [EXfer (fd_addr b1) m (Some r)]).
      rewrite E, app_assoc. split; [reflexivity|]. split.
      { intro W. rewrite delivered_app, DN. split; [reflexivity|]. split.
        - intros e I F. apply in_app_or in I as [I|[<-|[]]]; [|discriminate F].
          assert (ok = false) by (apply O1; eauto). subst ok. rewrite W in G. discriminate.
        - eauto. }
      split; [discriminate|]. split.
      * intros W C. destruct (C1 W C) as [K F]. split; [destruct K as [K|K]; [left|right]; exact K|]. intros N to m' k I.
        apply in_app_or in I as [I|[I|[]]]; [elim (NX _ _ _ I)|]. injection I as <- _ _. apply F; [|exact N].
        destruct ok; [reflexivity|]. rewrite W in G. discriminate.
      * intros W N to m' k I. apply in_app_or in I as [I|[I|[]]]; [elim (NX _ _ _ I)|]. injection I as <- _ _. apply C2; [exact W|].
        intro I. apply N. apply in_or_app. left. exact I.
    + change (-1 <? 0) with true in H. cbn [andb] in H. rewrite HL in H.
      assert (P : evs b' = evs b ++ new1 ++ [EXfer (fd_addr b1) m None] /\ has_log b' = has_log b /\ fd_addr b' = fd_addr b1 /\ addr b' = addr b1
                  /\ res = if has_log b then None else Some None).
      { destruct (has_log b); injection H as <- <-; pr; rewrite E, app_assoc; auto. }
      destruct P as (E' & HL' & F' & A' & R'). split; [exact HL'|]. exists (new1 ++ [EXfer (fd_addr b1) m None]). split; [exact E'|].
      split; [|split; [|split]].
      * intros W. rewrite W in R'. subst res. rewrite delivered_app, DN. split; [reflexivity|]. eexists. split; [apply in_or_app; right; left; reflexivity|reflexivity].
      * intros W. rewrite W in R'. congruence.
      * intros W C. destruct (C1 W C) as [K F]. split; [unfold consistent; rewrite F', A'; exact K|]. intros N to m' k I.
        apply in_app_or in I as [I|[I|[]]]; [elim (NX _ _ _ I)|]. injection I as <- _ _. apply F; [|exact N].
        destruct ok; [reflexivity|]. rewrite W in G. discriminate.
      * intros W N to m' k I. apply in_app_or in I as [I|[I|[]]]; [elim (NX _ _ _ I)|]. injection I as <- _ _. apply C2; [exact W|].
        intro I. apply N. apply in_or_app. left. exact I.
Qed.

Lemma transfer_spec : forall D b t m res b', locks_work D -> transfer D b t m = (res, b') -> xfer_post D b b' (t_addr t) m res.
Proof.
  intros D b t m res b' L H. unfold transfer in H. destruct (ensure_address D b (t_addr t)) as [ok b1] eqn:E.
  destruct (ensure_spec _ _ _ _ _ L E) as (HL & new & EV & DN & NX & O1 & O2 & C1 & C2).
  eapply finish_spec; eauto.
Qed.

(** put_block is a transfer once the size is accepted. *)
Lemma put_block_transfer : forall D b t reg block, zlen block <= 33 -> (has_log b = true -> zlen block <= 32) ->
  put_block D b t reg block =
  match transfer D b t {| m_write := true; m_cmd := reg; m_kind := KBlockData;
                          m_data := PBlock (zlen block :: block ++ repeat 0 (33 - length block)) |} with
  | (None, b) => Ret false SNone b
  | (Some _, b) => Ret true SNone b
  end.
Proof.
  intros D b t reg block Z1 Z2. unfold put_block, transfer.
  replace (wrap_u8 (zlen block)) with (zlen block)
    by (symmetry; apply Z.mod_small; unfold zlen in *; change (2 ^ 8) with 256; lia).
  replace (Z.to_nat (union_size - 1 - zlen block)) with (33 - length block)%nat by (unfold zlen, union_size; lia).
  replace (union_size <? 1 + zlen block) with false by (symmetry; apply Z.ltb_ge; unfold union_size; lia).
  destruct ((block_max <? zlen block) && has_log b) eqn:G.
  { apply andb_prop in G as [G1 G2]. apply Z.ltb_lt in G1. specialize (Z2 G2). unfold block_max in G1. lia. }
  destruct (ensure_address D b (t_addr t)) as [ok b1]. destruct (negb ok && has_log b1); [reflexivity|].
  destruct (ioctl_smbus D b1 _) as [[r rep] b2]. destruct ((r <? 0) && has_log b2); reflexivity.
Qed.

Lemma swap_swapped : forall w, 0 <= w < 65536 -> swap_bytes w = swapped w.
Proof.
  intros w W. unfold swap_bytes, swapped. rewrite (Z.land_ones _ 8) by lia. rewrite (Z.land_ones _ 8) by lia.
  rewrite Z.shiftr_div_pow2 by lia. rewrite Z.shiftl_mul_pow2 by lia. change (2 ^ 8) with 256.
  rewrite (Z.mod_small (w / 256)) by (split; [apply Z.div_pos; lia|apply Z.div_lt_upper_bound; lia]).
  assert (B : 0 <= w / 256 < 256) by (split; [apply Z.div_pos; lia|apply Z.div_lt_upper_bound; lia]).
  remember (w / 256) as h. remember (w mod 256) as l. clear Heqh Heql W.
  rewrite (Z.mul_comm l 256).
  assert (K : Z.land (256 * l) h = 0).
  { apply Z.bits_inj'. intros n Hn. rewrite Z.land_spec, Z.bits_0.
    replace (256 * l) with (Z.shiftl l 8) by (rewrite Z.shiftl_mul_pow2 by lia; lia).
    destruct (Z.ltb_spec n 8).
    - rewrite Z.shiftl_spec_low by lia. reflexivity.
    - replace h with (h mod 2 ^ 8) by (apply Z.mod_small; lia). rewrite Z.mod_pow2_bits_high by lia. apply andb_false_r. }
  rewrite <- (Z.lxor_lor _ _ K), <- (Z.add_nocarry_lxor _ _ K). reflexivity.
Qed.
Lemma lor_join : forall h l, 0 <= l < 256 -> 0 <= h < 256 -> Z.lor (Z.shiftl h 8) l = 256 * h + l.
Proof.
  intros h l L Hh. assert (W : 0 <= 256 * l + h < 65536) by lia. assert (S := swap_swapped _ W). unfold swap_bytes, swapped in S.
  rewrite (Z.land_ones _ 8), (Z.land_ones _ 8), Z.shiftr_div_pow2 in S by lia. change (2 ^ 8) with 256 in S.
  assert (Q : (256 * l + h) / 256 = l) by (symmetry; apply Z.div_unique with h; lia).
  assert (M : (256 * l + h) mod 256 = h) by (symmetry; apply Z.mod_unique with l; lia).
  rewrite Q, M, (Z.mod_small l) in S by lia. exact S.
Qed.
Lemma swapped_range : forall w, 0 <= w < 65536 -> 0 <= swapped w < 65536.
Proof.
  intros w W. unfold swapped. assert (0 <= w mod 256 < 256) by (apply Z.mod_pos_bound; lia).
  assert (0 <= w / 256 < 256) by (split; [apply Z.div_pos; lia|apply Z.div_lt_upper_bound; lia]). lia.
Qed.
Lemma swapped_swapped : forall w, 0 <= w < 65536 -> swapped (swapped w) = w.
Proof.
  intros w W. unfold swapped at 1. assert (0 <= w mod 256 < 256) by (apply Z.mod_pos_bound; lia).
  assert (0 <= w / 256 < 256) by (split; [apply Z.div_pos; lia|apply Z.div_lt_upper_bound; lia]).
  replace (swapped w mod 256) with (w / 256) by (unfold swapped; apply Z.mod_unique with (w mod 256); lia).
  replace (swapped w / 256) with (w mod 256) by (unfold swapped; apply Z.div_unique with (w / 256); lia).
  rewrite (Z.div_mod w 256) at 3 by lia. lia.
Qed.

(** ** A whole call *)
Definition op_post (b b' : bus) (o : op) (ret : bool) (out : stored) : Prop :=
  has_log b' = has_log b /\
  exists new, evs b' = evs b ++ new /\
  (has_log b = true ->
     ((exists e, In e new /\ event_failed e) -> ret = false) /\ (ret = false -> out = SNone) /\
     (ret = true -> map fst (delivered new) = op_messages o /\ out = op_value o (map snd (delivered new)))) /\
  (has_log b = false -> ret = true) /\
  (has_log b = true -> consistent b -> consistent b' /\ (t_addr (op_target o) <> 0 -> all_to (t_addr (op_target o)) new)) /\
  (has_log b = false -> ~ In (ESelect (t_addr (op_target o)) false) new -> all_to (t_addr (op_target o)) new).

(** A call made of one transfer *)
Lemma post_of_xfer : forall D b b' o m res ret out, xfer_post D b b' (t_addr (op_target o)) m res ->
  op_messages o = [m] -> (has_log b = false -> ret = true) ->
  (has_log b = true -> res = None -> ret = false /\ out = SNone) ->
  (has_log b = true -> forall r n, D n = ADone r -> res = Some (Some r) -> (ret = true -> out = op_value o [r]) /\ (ret = false -> out = SNone)) ->
  op_post b b' o ret out.
Proof.
  intros D b b' o m res ret out (HL & new & E & X1 & X2 & X3 & X4) M RN R0 R1. split; [exact HL|]. exists new.
  split; [exact E|]. split; [|split; [exact RN|split; [exact X3|exact X4]]]. intro W. specialize (X1 W). destruct res as [[r|]|]; [|contradiction|].
  - destruct X1 as (DL & NF & n & Q). destruct (R1 W r n Q eq_refl) as [A B]. split; [|split].
    + intros (e & I & F). elim (NF e I F).
    + exact B.
    + intro T. rewrite DL. cbn. rewrite M. auto.
  - destruct (R0 W eq_refl) as [-> ->]. split; [reflexivity|]. split; [reflexivity|discriminate].
Qed.

Ltac simple_call D b t m L :=
  let res := fresh "res" in let b' := fresh "b'" in let E := fresh "E" in let X := fresh "X" in
  destruct (transfer D b t m) as [res b'] eqn:E; assert (X := transfer_spec _ _ _ _ _ _ L E);
  assert (XN : has_log b = false -> res <> None) by (destruct X as (_ & ? & _ & _ & K & _); exact K);
  assert (XS : has_log b = true -> res <> Some None) by (intros ? ->; destruct X as (_ & ? & _ & K & _); apply K; assumption).

Lemma noreg_spec : forall D b t, locks_work D ->
  exists ret out b', get_noreg D b t = Ret ret out b' /\ op_post b b' (GetNoreg t) ret out /\ (ret = true -> exists z, out = SByte z /\ (typed_device D -> 0 <= z < 256)).
Proof.
  intros D b t L. unfold get_noreg. simple_call D b t {| m_write := false; m_cmd := 0; m_kind := KByte; m_data := PByte 0 |} L.
  destruct res as [[r|]|].
  - eexists _, _, _. split; [reflexivity|]. split.
    + eapply post_of_xfer; [exact X|reflexivity|reflexivity|discriminate|]. intros _ r' n _ K. injection K as <-. split; [reflexivity|discriminate].
    + intros _. exists (r_byte r). split; [reflexivity|]. intro T.
      unfold transfer in E. destruct (ensure_address D b (t_addr t)) as [ok b1]. destruct (negb ok && has_log b1); [discriminate|].
      destruct (smbus_spec D b1 {| m_write := false; m_cmd := 0; m_kind := KByte; m_data := PByte 0 |} L) as [(r' & Q & S1)|(Q & S1)]; rewrite S1 in E;
        destruct (_ && _); try discriminate. injection E as E _. subst r'. apply (T _ _ Q).
  - eexists _, _, _. split; [reflexivity|]. split.
    + eapply post_of_xfer; [exact X|reflexivity|reflexivity|discriminate|discriminate].
    + intros _. exists 0. split; [reflexivity|lia].
  - eexists _, _, _. split; [reflexivity|]. split.
    + eapply post_of_xfer; [exact X|reflexivity|intro W; elim (XN W); reflexivity|auto|discriminate].
    + discriminate.
Qed.

Lemma all_to_app : forall a l l', all_to a l -> all_to a l' -> all_to a (l ++ l').
Proof. intros a l l' A B to m r I. apply in_app_or in I as [I|I]; eauto. Qed.

Lemma run_spec : forall D b o, locks_work D -> good_device D -> typed_device D -> op_ok o ->
  (has_log b = true -> exists ret out b', run D b o = Ret ret out b') /\
  (forall ret out b', run D b o = Ret ret out b' -> op_post b b' o ret out).
Proof.
  intros D b o L G T O. destruct o as [t reg|t reg byte|t reg w|t reg block|t|t|t reg|t reg|t reg size]; cbn [run op_ok] in *.
  - unfold put_nodata. simple_call D b t {| m_write := true; m_cmd := reg; m_kind := KByte; m_data := PNone |} L.
    split; [intros _; destruct res as [r|]; eauto|]. intros ret out b'' H. destruct res as [r|]; injection H as <- <- <-.
    + eapply post_of_xfer; [exact X|reflexivity|reflexivity|discriminate|]. split; [reflexivity|discriminate].
    + eapply post_of_xfer; [exact X|reflexivity|intro W; elim (XN W); reflexivity|auto|discriminate].
  - unfold put_byte. simple_call D b t {| m_write := true; m_cmd := reg; m_kind := KByteData; m_data := PByte byte |} L.
    split; [intros _; destruct res as [r|]; eauto|]. intros ret out b'' H. destruct res as [r|]; injection H as <- <- <-.
    + eapply post_of_xfer; [exact X|reflexivity|reflexivity|discriminate|]. split; [reflexivity|discriminate].
    + eapply post_of_xfer; [exact X|reflexivity|intro W; elim (XN W); reflexivity|auto|discriminate].
  - unfold put_word.
    replace (if t_swap t then swap_bytes w else w) with (if t_swap t then swapped w else w) by (rewrite swap_swapped by exact O; reflexivity).
    simple_call D b t {| m_write := true; m_cmd := reg; m_kind := KWordData; m_data := PWord (if t_swap t then swapped w else w) |} L.
    split; [intros _; destruct res as [r|]; eauto|]. intros ret out b'' H. destruct res as [r|]; injection H as <- <- <-.
    + eapply post_of_xfer; [exact X|reflexivity|reflexivity|discriminate|]. split; [reflexivity|discriminate].
    + eapply post_of_xfer; [exact X|reflexivity|intro W; elim (XN W); reflexivity|auto|discriminate].
  - destruct ((block_max <? zlen block) && has_log b) eqn:Q.
    { unfold put_block. rewrite Q. apply andb_prop in Q as [Q1 Q2]. split; [eauto|]. intros ret out b' H. injection H as <- <- <-.
      split; [reflexivity|]. exists []. rewrite app_nil_r. split; [reflexivity|]. split.
      - intros _. split; [reflexivity|]. split; [reflexivity|discriminate].
      - split; [congruence|]. split; [intros _ C; split; [exact C|intros _ to m r []]|]. intros _ _ to m r []. }
    destruct (Z.leb_spec (zlen block) 33) as [Z1|Z1].
    + rewrite put_block_transfer; [|exact Z1|].
      2: { intro W. rewrite W, andb_true_r in Q. apply Z.ltb_ge in Q. exact Q. }
      simple_call D b t {| m_write := true; m_cmd := reg; m_kind := KBlockData; m_data := PBlock (zlen block :: block ++ repeat 0 (33 - length block)) |} L.
      split; [intros _; destruct res as [r|]; eauto|]. intros ret out b'' H. destruct res as [r|]; injection H as <- <- <-.
      * eapply post_of_xfer; [exact X|reflexivity|reflexivity|discriminate|]. split; [reflexivity|discriminate].
      * eapply post_of_xfer; [exact X|reflexivity|intro W; elim (XN W); reflexivity|auto|discriminate].
    + assert (W : has_log b = false).
      { destruct (has_log b); [|reflexivity]. rewrite andb_true_r in Q. apply Z.ltb_ge in Q. unfold block_max in Q. lia. }
      split; [congruence|]. intros ret out b' H. unfold put_block in H. rewrite Q in H.
      destruct (ensure_address D b (t_addr t)) as [ok b1] eqn:E. destruct (ensure_spec _ _ _ _ _ L E) as (HL & _). rewrite HL, W, andb_false_r in H.
      replace (union_size <? 1 + zlen block) with true in H by (symmetry; apply Z.ltb_lt; unfold union_size; lia). discriminate.
  - destruct (noreg_spec D b t L) as (ret & out & b' & E & P & _). rewrite E. split; [eauto|]. intros ? ? ? H. injection H as <- <- <-. exact P.
  - unfold get_noreg_2. destruct (noreg_spec D b t L) as (ret & out & b' & E & P & V). rewrite E.
    destruct (noreg_spec D b' t L) as (ret1 & out1 & b1 & E1 & P1 & V1). rewrite E1.
    destruct P as (HL & new & EV & A & A0 & C & N). destruct P1 as (HL1 & new1 & EV1 & A1 & A01 & C1 & N1).
    assert (KK : has_log b = true -> consistent b -> consistent b1 /\ (t_addr t <> 0 -> all_to (t_addr t) (new ++ new1))).
    { intros W K. destruct (C W K) as [K1 T1]. destruct (C1 (eq_trans HL W) K1) as [K2 T2]. split; [exact K2|]. intro Z0. apply all_to_app; [apply T1|apply T2]; exact Z0. }
    assert (NN : has_log b = false -> ~ In (ESelect (t_addr t) false) (new ++ new1) -> all_to (t_addr t) (new ++ new1)).
    { intros W K. rewrite HL in N1. apply all_to_app; [apply N|apply N1]; try exact W; intro I; apply K; apply in_or_app; auto. }
    destruct (negb ret && has_log b') eqn:Q.
    { split; [eauto|]. intros ? ? ? H. injection H as <- <- <-. apply andb_prop in Q as [Q1 Q2]. apply negb_true_iff in Q1. subst ret.
      split; [exact HL|]. exists new. split; [exact EV|]. split; [|split; [intro W; specialize (A0 W); discriminate|split; [exact C|exact N]]].
      intro W. split; [reflexivity|]. split; [reflexivity|discriminate]. }
    rewrite HL1. destruct (negb ret1 && has_log b') eqn:Q1.
    { split; [eauto|]. intros ? ? ? H. injection H as <- <- <-. apply andb_prop in Q1 as [Q1 Q2]. apply negb_true_iff in Q1. subst ret1.
      split; [congruence|]. exists (new ++ new1). rewrite app_assoc, <- EV. split; [exact EV1|].
      split; [|split; [intro W; rewrite HL, W in A01; specialize (A01 eq_refl); discriminate|split; [exact KK|exact NN]]].
      intro W. split; [reflexivity|]. split; [reflexivity|discriminate]. }
    assert (RT : ret = true /\ ret1 = true).
    { destruct (has_log b') eqn:W.
      - destruct ret; [|discriminate]. destruct ret1; [auto|discriminate].
      - split; [apply A0; congruence|apply A01; congruence]. }
    destruct RT as [-> ->]. destruct (V eq_refl) as (z0 & -> & R0). destruct (V1 eq_refl) as (z1 & -> & R1). specialize (R0 T). specialize (R1 T).
    match goal with |- context [SWord ?x] => remember x as w eqn:EW end.
    split; [eauto|]. intros ? ? ? H. injection H as <- <- <-. split; [congruence|]. exists (new ++ new1). rewrite app_assoc, <- EV. split; [exact EV1|].
    split; [|split; [reflexivity|split; [exact KK|exact NN]]]. intro W. destruct (A W) as (F & _ & S0). rewrite HL in A1. destruct (A1 W) as (F1 & _ & S1).
    split; [|split; [discriminate|]].
    + intros (e & I & K). apply in_app_or in I as [I|I]; [specialize (F (ex_intro _ e (conj I K)))|specialize (F1 (ex_intro _ e (conj I K)))]; discriminate.
    + intros _. destruct (S0 eq_refl) as [M0 O0]. destruct (S1 eq_refl) as [M1 O1]. rewrite delivered_app, !map_app.
      destruct (delivered new) as [|[m0 r0] [|]]; try discriminate M0. destruct (delivered new1) as [|[m1 r1] [|]]; try discriminate M1.
      cbn [map fst snd op_messages op_value app] in *. injection M0 as ->. injection M1 as ->. injection O0 as ->. injection O1 as ->.
      split; [reflexivity|]. rewrite EW. destruct (t_swap t); rewrite lor_join by assumption; reflexivity.
  - unfold get_byte. simple_call D b t {| m_write := false; m_cmd := reg; m_kind := KByteData; m_data := PByte 0 |} L.
    split; [intros W; destruct res as [[r|]|]; eauto|]. intros ret out b'' H. destruct res as [[r|]|]; injection H as <- <- <-.
    + eapply post_of_xfer; [exact X|reflexivity|reflexivity|discriminate|]. intros _ r' n _ K. injection K as <-. split; [reflexivity|discriminate].
    + eapply post_of_xfer; [exact X|reflexivity|reflexivity|discriminate|]. discriminate.
    + eapply post_of_xfer; [exact X|reflexivity|intro W; elim (XN W); reflexivity|auto|discriminate].
  - unfold get_word. simple_call D b t {| m_write := false; m_cmd := reg; m_kind := KWordData; m_data := PWord 0 |} L.
    split; [intros W; destruct res as [[r|]|]; eauto|]. intros ret out b'' H. destruct res as [[r|]|]; injection H as <- <- <-.
    + eapply post_of_xfer; [exact X|reflexivity|reflexivity|discriminate|]. intros _ r' n Q K. injection K as <-. split; [|discriminate].
      intros _. cbn [op_value]. rewrite swap_swapped by apply (T _ _ Q). reflexivity.
    + eapply post_of_xfer; [exact X|reflexivity|reflexivity|discriminate|]. discriminate.
    + eapply post_of_xfer; [exact X|reflexivity|intro W; elim (XN W); reflexivity|auto|discriminate].
  - unfold get_block. change (Z.to_nat (union_size - 1)) with 33%nat. unfold wrap_u8. change (2 ^ 8) with 256.
    simple_call D b t {| m_write := false; m_cmd := reg; m_kind := KBlockData; m_data := PBlock (size mod 256 :: repeat 0 33) |} L.
    destruct res as [[r|]|].
    + assert (Q : exists n, D n = ADone r).
      { unfold transfer in E. destruct (ensure_address D b (t_addr t)) as [ok b1]. destruct (negb ok && has_log b1); [discriminate|].
        destruct (smbus_spec D b1 {| m_write := false; m_cmd := reg; m_kind := KBlockData; m_data := PBlock (size mod 256 :: repeat 0 33) |} L) as [(r' & Q & S1)|(Q & S1)]; rewrite S1 in E;
        destruct (_ && _); try discriminate. injection E as E _. subst r'. eauto. }
      destruct Q as (n0 & Q). destruct (G _ _ Q) as (k & rest & RB & LR & K). rewrite RB.
      assert (HL : has_log b' = has_log b) by apply X.
      destruct ((size <? k) && has_log b') eqn:Q1.
      { apply andb_prop in Q1 as [Q1 Q2]. split; [eauto|]. intros ? ? ? H. injection H as <- <- <-.
        destruct X as (_ & new & EV & X1 & X2 & X3 & X4). split; [exact HL|]. exists new. split; [exact EV|]. split; [|split; [congruence|split; [exact X3|exact X4]]].
        intros _. split; [reflexivity|]. split; [reflexivity|discriminate]. }
      destruct ((size <? k) || (zlen rest <? k)) eqn:Q2.
      { split; [|discriminate]. intro W. apply orb_prop in Q2 as [Q2|Q2].
        - rewrite Q2, HL, W in Q1. discriminate.
        - apply Z.ltb_lt in Q2. unfold zlen in Q2. lia. }
      split; [eauto|]. intros ? ? ? H. injection H as <- <- <-.
      eapply post_of_xfer; [exact X|reflexivity|reflexivity|discriminate|]. intros _ r' n _ K'. injection K' as <-. split; [|discriminate].
      intros _. cbn [op_value]. rewrite RB. reflexivity.
    + split; [intro W; elim (XS W); reflexivity|]. intros ret out b'' H.
      assert (W : has_log b = false) by (destruct (has_log b); [elim (XS eq_refl); reflexivity|reflexivity]).
      assert (HL : has_log b' = has_log b) by apply X. rewrite HL, W, andb_false_r in H.
      destruct (_ || _); [discriminate|]. injection H as <- <- <-.
      eapply post_of_xfer; [exact X|reflexivity|reflexivity|discriminate|discriminate].
    + split; [eauto|]. intros ? ? ? H. injection H as <- <- <-.
      eapply post_of_xfer; [exact X|reflexivity|intro W; elim (XN W); reflexivity|auto|discriminate].
Qed.

(** ** Sequences of calls *)
Lemma skipn_evs : forall (A : Type) (l l' : list A), skipn (length l) (l ++ l') = l'.
Proof. induction l as [|x l IH]; intro l'; [reflexivity|apply IH]. Qed.

Lemma run_all_spec : forall D, locks_work D -> good_device D -> typed_device D ->
  forall l b, has_log b = true -> consistent b -> Forall op_ok l -> Forall (fun o => t_addr (op_target o) <> 0) l ->
  exists res, run_all D b l = Some res /\ map fst res = l /\ Forall (fun p => all_to (t_addr (op_target (fst p))) (snd p)) res.
Proof.
  intros D L G T. induction l as [|o l IH]; intros b W C O N.
  - exists []. split; [reflexivity|]. split; [reflexivity|constructor].
  - inversion O as [|? ? O1 O2]; subst. inversion N as [|? ? N1 N2]; subst. destruct (run_spec D b o L G T O1) as [R P].
    destruct (R W) as (ret & out & b' & E). cbn [run_all]. rewrite E. destruct (P _ _ _ E) as (HL & new & EV & _ & _ & K & _).
    destruct (K W C) as [C' A]. destruct (IH b' (eq_trans HL W) C' O2 N2) as (res & E' & M & F). rewrite E'. eexists. split; [reflexivity|].
    cbn [map fst]. rewrite M. split; [reflexivity|]. constructor; [|exact F]. cbn [fst snd]. rewrite EV, skipn_evs. apply A, N1.
Qed.

Lemma run_all_nolog : forall D, locks_work D -> good_device D -> typed_device D ->
  forall l b res, has_log b = false -> Forall op_ok l -> run_all D b l = Some res ->
  Forall (fun p => ~ In (ESelect (t_addr (op_target (fst p))) false) (snd p) -> all_to (t_addr (op_target (fst p))) (snd p)) res.
Proof.
  intros D L G T. induction l as [|o l IH]; intros b res W O H; cbn [run_all] in H.
  - injection H as <-. constructor.
  - inversion O as [|? ? O1 O2]; subst. destruct (run_spec D b o L G T O1) as [_ P]. destruct (run D b o) as [ret out b'|] eqn:E; [|discriminate].
    destruct (P _ _ _ eq_refl) as (HL & new & EV & _ & _ & _ & A). destruct (run_all D b' l) as [res'|] eqn:E'; [|discriminate]. injection H as <-.
    constructor; [|apply (IH b'); [congruence|exact O2|exact E']]. cbn [fst snd]. rewrite EV, skipn_evs. apply A, W.
Qed.

(** ** Threads that use one and the same target *)
Definition holds (p : pc) : Prop := p = PcStore \/ p = PcXfer.
Definition sys_inv (a : Z) (s : sys) : Prop :=
  has_log (s_bus s) = true /\ (forall th, In th (s_threads s) -> t_addr (th_target th) = a) /\
  (addr (s_bus s) = a -> fd_addr (s_bus s) = Some a) /\
  (forall th, In th (s_threads s) -> holds (th_pc th) -> fd_addr (s_bus s) = Some a) /\
  (forall i to, In (i, to) (s_sent s) -> to = Some a).

Lemma in_upd : forall (A : Type) (l : list A) n x y, In y (upd l n x) -> y = x \/ In y l.
Proof.
  induction l as [|z l IH]; intros n x y H; [destruct H|]. destruct n; cbn in H.
  - destruct H as [H|H]; [left; congruence|right; right; exact H].
  - destruct H as [H|H]; [right; left; exact H|]. destruct (IH _ _ _ H) as [K|K]; [left; exact K|right; right; exact K].
Qed.

Lemma sys_step_inv : forall D a s i, locks_work D -> sys_inv a s -> sys_inv a (sys_step D s i).
Proof.
  intros D a s i L (W & T & A & F & S0). unfold sys_step. destruct (nth_error (s_threads s) i) as [th|] eqn:E; [|repeat split; assumption].
  assert (I := nth_error_In _ _ E). assert (TA := T th I).
  assert (UT : forall p th', In th' (upd (s_threads s) i (set_pc th p)) -> t_addr (th_target th') = a).
  { intros p th' K. apply in_upd in K as [->|K]; [exact TA|apply T, K]. }
  assert (UF : forall p th', In th' (upd (s_threads s) i (set_pc th p)) -> holds (th_pc th') -> holds p \/ fd_addr (s_bus s) = Some a).
  { intros p th' K Hh. apply in_upd in K as [->|K]; [left; exact Hh|right; apply (F th' K Hh)]. }
  rewrite TA. destruct (th_pc th) eqn:P.
  - rewrite W, andb_true_r. destruct (Z.eqb_spec (addr (s_bus s)) a) as [Q|Q]; (split; [exact W|]); cbn [s_bus s_threads s_sent];
      (split; [apply UT|]); (split; [exact A|]); (split; [|exact S0]).
    + intros th' K Hh. apply A, Q.
    + intros th' K Hh. destruct (UF _ _ K Hh) as [[C|C]|C]; [discriminate|discriminate|exact C].
  - unfold ioctl_select. destruct (D (calls (s_bus s))) as [r| |] eqn:Q; [| |elim (L _ Q)].
    + cbn [Z.ltb Z.compare andb]. unfold sys_inv. cbn [s_bus s_threads s_sent has_log addr fd_addr]. split; [exact W|]. split; [apply UT|]. auto.
    + change (-1 <? 0) with true. cbn [andb has_log]. rewrite W. unfold sys_inv. cbn [s_bus s_threads s_sent has_log addr fd_addr].
      split; [reflexivity|]. split; [apply UT|]. split; [exact A|]. split; [|exact S0].
      intros th' K Hh. destruct (UF _ _ K Hh) as [[C|C]|C]; [discriminate|discriminate|exact C].
  - assert (FA : fd_addr (s_bus s) = Some a) by (apply (F th I); left; exact P).
    unfold sys_inv, set_addr. cbn [s_bus s_threads s_sent has_log addr fd_addr]. split; [exact W|]. split; [apply UT|]. auto.
  - assert (FA : fd_addr (s_bus s) = Some a) by (apply (F th I); right; exact P).
    destruct (smbus_spec D (s_bus s) (th_msg th) L) as [(r & Q & S1)|(Q & S1)]; rewrite S1; unfold sys_inv; cbn [s_bus s_threads s_sent has_log addr fd_addr];
      (split; [exact W|]); (split; [apply UT|]); (split; [auto|]); (split; [auto|]); intros j to K;
      (apply in_app_or in K as [K|[K|[]]]; [apply (S0 _ _ K)|injection K as _ <-; exact FA]).
  - split; [exact W|]. repeat split; assumption.
Qed.
Lemma sys_run_inv : forall D a l s, locks_work D -> sys_inv a s -> sys_inv a (sys_run D s l).
Proof. intros D a l. induction l as [|i l IH]; intros s L H; [exact H|]. apply IH; [exact L|]. apply sys_step_inv; assumption. Qed.

(** ** PWM *)
Lemma bit_count_spec : forall n f p, (n <= f)%nat -> 4 ^ (Z.of_nat n - 1) <= p < 4 ^ Z.of_nat n -> (0 < n)%nat -> bit_count f p = Some (Z.of_nat n).
Proof.
  induction n as [|n IH]; intros f p F B N; [lia|]. destruct f as [|f]; [lia|]. cbn [bit_count].
  replace (Z.of_nat (S n) - 1) with (Z.of_nat n) in B by lia. replace (Z.of_nat (S n)) with (Z.of_nat n + 1) in * by lia.
  rewrite Z.pow_add_r in B by lia. change (4 ^ 1) with 4 in B. assert (0 < 4 ^ Z.of_nat n) by (apply Z.pow_pos_nonneg; lia).
  destruct (Z.eqb_spec p 0); [lia|]. rewrite Z.shiftr_div_pow2 by lia. change (2 ^ 2) with 4. destruct n as [|n].
  - change (Z.of_nat 0) with 0 in *. change (4 ^ 0) with 1 in B. rewrite Z.div_small by lia. destruct f; reflexivity.
  - rewrite (IH f); [cbn [option_map]; f_equal; lia|lia| |lia]. split.
    + apply Z.div_le_lower_bound; [lia|]. replace (Z.of_nat (S n) - 1) with (Z.of_nat n) by lia. replace (Z.of_nat (S n)) with (Z.of_nat n + 1) in B by lia.
      rewrite Z.pow_add_r in B by lia. change (4 ^ 1) with 4 in B. lia.
    + apply Z.div_lt_upper_bound; lia.
Qed.
Lemma autoreload_cases : forall p, 0 <= p < 4 ^ 16 ->
  (p < 4 ^ 9 /\ autoreload_of p = Some 0) \/ (4 ^ 9 <= p < 4 ^ 10 /\ autoreload_of p = Some 1000) \/ (4 ^ 10 <= p < 4 ^ 11 /\ autoreload_of p = Some 2000) \/
  (4 ^ 11 <= p < 4 ^ 12 /\ autoreload_of p = Some 4000) \/ (4 ^ 12 <= p < 4 ^ 13 /\ autoreload_of p = Some 8000) \/ (4 ^ 13 <= p < 4 ^ 14 /\ autoreload_of p = Some 16000) \/
  (4 ^ 14 <= p < 4 ^ 15 /\ autoreload_of p = Some 32000) \/ (4 ^ 15 <= p < 4 ^ 16 /\ autoreload_of p = Some 65000).
Proof.
  intros p B. unfold autoreload_of.
  destruct (Z.ltb_spec p 1); [left; replace p with 0 by lia; split; [lia|reflexivity]|].
  destruct (Z.ltb_spec p (4 ^ 1)); [left; rewrite (bit_count_spec 1) by (try lia; cbn in *; lia); split; [lia|reflexivity]|].
  destruct (Z.ltb_spec p (4 ^ 2)); [left; rewrite (bit_count_spec 2) by (try lia; cbn in *; lia); split; [lia|reflexivity]|].
  destruct (Z.ltb_spec p (4 ^ 3)); [left; rewrite (bit_count_spec 3) by (try lia; cbn in *; lia); split; [lia|reflexivity]|].
  destruct (Z.ltb_spec p (4 ^ 4)); [left; rewrite (bit_count_spec 4) by (try lia; cbn in *; lia); split; [lia|reflexivity]|].
  destruct (Z.ltb_spec p (4 ^ 5)); [left; rewrite (bit_count_spec 5) by (try lia; cbn in *; lia); split; [lia|reflexivity]|].
  destruct (Z.ltb_spec p (4 ^ 6)); [left; rewrite (bit_count_spec 6) by (try lia; cbn in *; lia); split; [lia|reflexivity]|].
  destruct (Z.ltb_spec p (4 ^ 7)); [left; rewrite (bit_count_spec 7) by (try lia; cbn in *; lia); split; [lia|reflexivity]|].
  destruct (Z.ltb_spec p (4 ^ 8)); [left; rewrite (bit_count_spec 8) by (try lia; cbn in *; lia); split; [lia|reflexivity]|].
  destruct (Z.ltb_spec p (4 ^ 9)); [left; rewrite (bit_count_spec 9) by (try lia; cbn in *; lia); split; [lia|reflexivity]|]. right.
  destruct (Z.ltb_spec p (4 ^ 10)); [left; rewrite (bit_count_spec 10) by (try lia; cbn in *; lia); split; [lia|reflexivity]|]. right.
  destruct (Z.ltb_spec p (4 ^ 11)); [left; rewrite (bit_count_spec 11) by (try lia; cbn in *; lia); split; [lia|reflexivity]|]. right.
  destruct (Z.ltb_spec p (4 ^ 12)); [left; rewrite (bit_count_spec 12) by (try lia; cbn in *; lia); split; [lia|reflexivity]|]. right.
  destruct (Z.ltb_spec p (4 ^ 13)); [left; rewrite (bit_count_spec 13) by (try lia; cbn in *; lia); split; [lia|reflexivity]|]. right.
  destruct (Z.ltb_spec p (4 ^ 14)); [left; rewrite (bit_count_spec 14) by (try lia; cbn in *; lia); split; [lia|reflexivity]|]. right.
  destruct (Z.ltb_spec p (4 ^ 15)); [left; rewrite (bit_count_spec 15) by (try lia; cbn in *; lia); split; [lia|reflexivity]|]. right.
  rewrite (bit_count_spec 16) by (try lia; cbn in *; lia); split; [lia|reflexivity].
Qed.

(** The registers computed from a period of an accepted length *)
Lemma ar_ps : forall per, 262144 <= per < 4259905000 ->
  exists ar, autoreload_of per = Some ar /\ 1000 <= ar <= 65000 /\ 1 <= per / ar <= 65536.
Proof.
  intros per B. destruct (autoreload_cases per) as [[? E]|[[? E]|[[? E]|[[? E]|[[? E]|[[? E]|[[? E]|[? E]]]]]]]]; [cbn; lia|cbn in *; lia|..];
    (eexists; split; [exact E|]; split; [lia|]; cbn in *; split; [apply Z.div_le_lower_bound; lia|]);
    match goal with |- per / ?d <= 65536 => assert (per / d < 65537) by (apply Z.div_lt_upper_bound; lia); lia end.
Qed.

Lemma pwm_new_some : forall clk mn mx freq, 0 < freq -> 262144 <= clk / freq < 4259905000 ->
  exists p, pwm_new clk mn mx freq = Some p /\ period p = clk / freq /\ autoreload_of (period p) = Some (autoreload p) /\
    1000 <= autoreload p <= 65000 /\ prescaler p = period p / autoreload p /\ 1 <= prescaler p <= 65536 /\
    (let tick us := wrap_u64 (us * clk) / 1000000 in
     (mx = 0 -> min_w p = mn /\ max_w p = autoreload p) /\
     (mx <> 0 -> tick mx = 0 -> min_w p = tick mn /\ max_w p = autoreload p) /\
     (mx <> 0 -> tick mx <> 0 -> min_w p = tick mn / prescaler p /\ max_w p = tick mx / prescaler p)).
Proof.
  intros clk mn mx freq F B. destruct (ar_ps _ B) as (ar & E & A & P). unfold pwm_new.
  destruct (Z.eqb_spec freq 0); [lia|]. rewrite E. destruct (Z.eqb_spec ar 0); [lia|]. destruct (Z.eqb_spec (clk / freq / ar) 0); [lia|].
  destruct (Z.eqb_spec mx 0) as [M|M].
  - subst mx. cbn [Z.eqb]. eexists. split; [reflexivity|]. cbn. do 5 (split; [assumption || reflexivity || lia|]). split; [auto|split; intros K; exfalso; apply K; reflexivity].
  - destruct (Z.eqb_spec (wrap_u64 (mx * clk) / 1000000) 0) as [T|T]; (eexists; split; [reflexivity|]; cbn;
      do 5 (split; [assumption || reflexivity || lia|]); split; [intro K; elim (M K)|]); split; intros; auto; contradiction.
Qed.

Lemma div_mono : forall a b c, 0 < c -> a <= b -> a / c <= b / c.
Proof. intros. apply Z.div_le_mono; lia. Qed.

(** The capture value of a duty cycle strictly between the ends *)
Lemma capture_mid : forall p d, 0 < d < 100 -> 0 <= min_w p <= max_w p -> max_w p <= 65536 ->
  capture p d = min_w p + d * (max_w p - min_w p) / 100.
Proof.
  intros p d Dd M X. unfold capture. destruct (Z.ltb_spec d 0); [lia|]. destruct (Z.ltb_spec 100 d); [lia|].
  destruct (Z.eqb_spec d 0); [lia|]. destruct (Z.eqb_spec d 100); [lia|]. unfold wrap_u64.
  rewrite (Z.mod_small (max_w p - min_w p)) by lia.
  assert (0 <= d * (max_w p - min_w p) <= 100 * 65536) by nia. rewrite (Z.mod_small (d * (max_w p - min_w p))) by lia.
  assert (0 <= d * (max_w p - min_w p) / 100 <= 65536) by (split; [apply Z.div_pos; lia|apply Z.div_le_upper_bound; lia]).
  apply Z.mod_small. lia.
Qed.
Lemma capture_bounds : forall p d, 0 <= min_w p <= max_w p -> max_w p <= autoreload p <= 65000 -> 0 <= d -> 0 <= capture p d <= autoreload p.
Proof.
  intros p d M X Dd. destruct (Z.eqb_spec d 0) as [->|]; [cbn; lia|]. destruct (Z.ltb_spec d 100) as [L|L].
  - rewrite capture_mid by lia. assert (0 <= d * (max_w p - min_w p) / 100 <= max_w p - min_w p); [|lia].
    split; [apply Z.div_pos; nia|]. apply Z.div_le_upper_bound; nia.
  - unfold capture. destruct (Z.ltb_spec d 0); [lia|]. destruct (Z.ltb_spec 100 d); cbn.
    + lia.
    + replace d with 100 by lia. cbn. lia.
Qed.
Lemma capture_mono : forall p d d', 0 <= min_w p <= max_w p -> max_w p <= autoreload p <= 65000 -> 0 <= d <= d' -> capture p d <= capture p d'.
Proof.
  intros p d d' M X Dd. assert (K := capture_bounds p d M X). assert (K' := capture_bounds p d' M X).
  destruct (Z.eqb_spec d 0) as [->|]; [change (capture p 0) with 0; lia|]. destruct (Z.ltb_spec d' 100) as [L|L].
  - rewrite !capture_mid by lia. assert (d * (max_w p - min_w p) / 100 <= d' * (max_w p - min_w p) / 100) by (apply div_mono; nia). lia.
  - replace (capture p d') with (autoreload p); [lia|]. unfold capture. destruct (Z.ltb_spec d' 0); [lia|]. destruct (Z.ltb_spec 100 d'); [reflexivity|].
    replace d' with 100 by lia. reflexivity.
Qed.

(** ** Calibration *)
Lemma wrap_s16_range : forall x, -32768 <= wrap_s16 x <= 32767.
Proof. intro x. unfold wrap_s16. change (2 ^ 15) with 32768. change (2 ^ 16) with 65536. assert (0 <= (x + 32768) mod 65536 < 65536) by (apply Z.mod_pos_bound; lia). lia. Qed.
Lemma wrap_s16_id : forall x, -32768 <= x <= 32767 -> wrap_s16 x = x.
Proof. intros x B. unfold wrap_s16. change (2 ^ 15) with 32768. change (2 ^ 16) with 65536. rewrite Z.mod_small by lia. lia. Qed.
Lemma sum_exact : forall l s, (forall k, -32768 <= s + zsum (firstn k l) <= 32767) -> fold_left (fun s x => wrap_s16 (s + x)) l s = s + zsum l.
Proof.
  induction l as [|x l IH]; intros s B; [cbn; lia|]. cbn [fold_left]. assert (B1 := B 1%nat). change (zsum (firstn 1 (x :: l))) with (x + 0) in B1. rewrite wrap_s16_id by lia. rewrite IH.
  - change (zsum (x :: l)) with (x + zsum l). lia.
  - intro k. specialize (B (S k)). change (zsum (firstn (S k) (x :: l))) with (x + zsum (firstn k l)) in B. lia.
Qed.
Lemma sum_range : forall l s, -32768 <= s <= 32767 -> -32768 <= fold_left (fun s x => wrap_s16 (s + x)) l s <= 32767.
Proof. induction l as [|x l IH]; intros s B; [exact B|]. apply IH, wrap_s16_range. Qed.
Lemma calibrate_range : forall l, -1638 <= calibrate l <= 1638.
Proof.
  intro l. unfold calibrate. assert (B := sum_range (skipn 5 (firstn 25 l)) 0 ltac:(lia)). set (s := fold_left _ _ 0) in *. clearbody s.
  assert (-1638 <= Z.quot s 20 <= 1638).
  { split; [rewrite <- (Z.opp_involutive s), Z.quot_opp_l by lia|]; [assert (Z.quot (- s) 20 <= 1638); [|lia]|];
      (destruct (Z.leb_spec 0 s); [|]).
    all: try (rewrite Z.quot_div_nonneg by lia; apply Z.lt_succ_r; apply Z.div_lt_upper_bound; lia).
    - rewrite Z.quot_opp_l by lia. assert (0 <= Z.quot s 20) by (apply Z.quot_pos; lia). lia.
    - rewrite <- (Z.opp_involutive s), Z.quot_opp_l by lia. assert (0 <= Z.quot (- s) 20) by (apply Z.quot_pos; lia). lia. }
  rewrite wrap_s16_id by lia. exact H.
Qed.

(** The destructor of the tracker. *)
Definition tp_rank (p : tpc) : nat := match p with TDone => 0 | TMeasure => 2 | _ => 1 end.
Definition op_rank (o : opc) : nat := match o with OGone => 0 | OJoin => 1 | _ => 2 end.
Definition ending (k : tracker) : Prop :=
  k_quit k = true /\ (k_owner k = ODtor1 /\ (k_pc k = TWait \/ k_pc k = TWoken \/ k_pc k = TMeasure \/ k_pc k = TTop \/ k_pc k = TDone) \/
    k_owner k = OJoin /\ (k_pc k = TWoken \/ k_pc k = TMeasure \/ k_pc k = TTop \/ k_pc k = TDone) \/ k_owner k = OGone /\ k_pc k = TDone).
Lemma ending_step : forall k w k', ending k -> tracker_step k w = Some k' -> ending k' /\ (S (tp_rank (k_pc k') + op_rank (k_owner k')) <= tp_rank (k_pc k) + op_rank (k_owner k))%nat.
Proof.
  intros [r q p o] w k' (Q & H) E. cbn [k_quit k_pc k_owner] in *. subst q.
  destruct H as [(-> & H)|[(-> & H)|(-> & H)]]; [destruct H as [->|[->|[->|[-> | ->]]]]|destruct H as [->|[->|[-> | ->]]]|subst p]; destruct w; cbn in E; try discriminate E; injection E as <-;
    unfold ending; cbn; (split; [split; [reflexivity|tauto]|repeat constructor]).
Qed.
Lemma destroyed : forall k l k', k_owner k = ODtor1 -> k_quit k = true ->
  (k_pc k = TWait \/ k_pc k = TWoken \/ k_pc k = TMeasure \/ k_pc k = TTop \/ k_pc k = TDone) -> tracker_run k l = Some k' ->
  (length l <= 4)%nat /\ (k_owner k' = OGone -> k_pc k' = TDone) /\ (k_owner k' = OGone \/ exists w, tracker_step k' w <> None).
Proof.
  intros k l k' O Q P R.
  assert (forall l k, ending k -> tracker_run k l = Some k' -> ending k' /\ (length l + (tp_rank (k_pc k') + op_rank (k_owner k')) <= tp_rank (k_pc k) + op_rank (k_owner k))%nat) as Run.
  { clear. induction l as [|w l IH]; intros k E R; cbn [tracker_run] in R; [injection R as <-; split; [exact E|cbn; lia]|].
    destruct (tracker_step k w) as [k1|] eqn:S1; [|discriminate R]. destruct (ending_step k w k1 E S1) as (E1 & L1). destruct (IH k1 E1 R) as (E2 & L2).
    split; [exact E2|cbn [length]; lia]. }
  destruct (Run l k) as (E & L); [split; [exact Q|left; split; [exact O|exact P]]|exact R|].
  assert (tp_rank (k_pc k) + op_rank (k_owner k) <= 4)%nat as M. { rewrite O. destruct (k_pc k); cbn; lia. }
  split; [lia|]. destruct k' as [r q p o]. destruct E as (Q' & E). cbn [k_owner k_pc k_quit] in *. subst q.
  destruct E as [(-> & H)|[(-> & H)|(-> & H)]].
  - split; [discriminate|]. right. exists WDtor. cbn. discriminate.
  - split; [discriminate|]. right. destruct H as [->|[->|[-> | ->]]]; [exists WThread|exists WThread|exists WThread|exists WDtor]; cbn; discriminate.
  - split; [intros _; exact H|left; reflexivity].
Qed.
