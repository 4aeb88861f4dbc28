(** String streams: C48. *)

From Coq Require Import ZArith List Bool Lia.
From Verif Require Import Base Cache_Model Linked_Model Cont_Model Cont_Spec Cont_Proofs Cont_Steps Cont_Runs Vstring_Model Vstring_Spec.
Import ListNotations.
Open Scope Z_scope.

Lemma push_step ts (m : mem Z) L c x : Inv ts m L -> c <> 0 -> ts c = string_type -> fsize m + 1 < room m ->
  exists m' r L', c_push_back string_type c m x = COk (m', r) /\ Inv ts m' L' /\ flat (L' c) = flat (L c) ++ [x] /\
    (forall d, d <> c -> L' d = L d) /\ fsize m' <= fsize m + 1 /\ room m' = room m.
Proof.
  intros I0 Hc Ht Hr. destruct (call_step ts m L c (PushBack x) I0 Hc) as (m' & out & L' & l' & E & I1 & Ei & El & Hd & Hf & Hm & Hu).
  { rewrite Ht. exact I. }
  cbn [call] in E. rewrite Ht in E. unfold observe in E. destruct (c_push_back string_type c m x) as [[m1 r]| | |]; try discriminate.
  - injection E as <- <-. exists m1, r, L'. split; [reflexivity|]. split; [auto|]. split; [|auto].
    cbn [andb] in *. destruct (negb (can_deref (r_itr r))); [specialize (Hu eq_refl); lia|]. cbn in Ei. injection Ei as <-. exact El.
  - injection E as <- <-. cbn in Ei. discriminate.
Qed.

Definition pending (b : sbuf) : list Z := if p_have b then [p_ch b] else [].
Lemma writes_Inv ts c l : c <> 0 -> ts c = string_type -> forall (m : mem Z) L b, Inv ts m L -> fsize m + zl l + zl (pending b) < room m ->
  exists m' b' L', writes c m b l = Some (m', b', write_results l) /\ Inv ts m' L' /\ flat (L' c) ++ pending b' = flat (L c) ++ pending b ++ put_chars l /\
    (forall d, d <> c -> L' d = L d) /\ (last l (Put 0) = Flush -> pending b' = []).
Proof.
  intros Hc Ht. induction l as [|o l IH]; intros m L b I0 Hr.
  { exists m, b, L. split; [reflexivity|]. split; [auto|]. split; [cbn; rewrite app_nil_r; reflexivity|]. split; [auto|discriminate]. }
  rewrite zl_cons in Hr. pose proof (zl_pos l).
  assert (Hl : forall b' : sbuf, (last l (Put 0) = Flush -> pending b' = []) -> l <> [] -> last (o :: l) (Put 0) = Flush -> pending b' = []).
  { intros b' H0 N H1. apply H0. destruct l; [congruence|exact H1]. }
  destruct o as [x|]; cbn [writes].
  - unfold sputc. unfold pending in Hr at 1. destruct (p_have b) eqn:Ep.
    + rewrite zl_cons, zl_nil in Hr. unfold overflow.
      destruct (push_step ts m L c (p_ch b) I0 Hc Ht ltac:(lia)) as (m1 & r1 & L1 & E1 & I1 & F1 & D1 & S1 & R1). rewrite E1. cbn [cbind].
      destruct (push_step ts m1 L1 c x I1 Hc Ht ltac:(lia)) as (m2 & r2 & L2 & E2 & I2 & F2 & D2 & S2 & R2). rewrite E2. cbn [cbind].
      destruct (IH m2 L2 (mkSB (g_itr b) (g_ch b) (g_have b) (p_ch b) false) I2) as (m' & b' & L' & E & I' & F & D & Z); [cbn; lia|].
      rewrite E. exists m', b', L'. split; [reflexivity|]. split; [auto|]. split; [rewrite F, F2, F1; unfold pending; rewrite Ep; cbn [p_have put_chars app]; rewrite <- !app_assoc; reflexivity|].
      split; [intros d Hd; rewrite D, D2, D1; auto|]. destruct l; [discriminate|apply Hl; [auto|discriminate]].
    + rewrite zl_nil in Hr. destruct (IH m L (mkSB (g_itr b) (g_ch b) (g_have b) x true) I0) as (m' & b' & L' & E & I' & F & D & Z); [unfold pending; cbn [p_have]; rewrite zl_cons, zl_nil; lia|].
      rewrite E. exists m', b', L'. split; [reflexivity|]. split; [auto|]. split; [rewrite F; unfold pending; rewrite Ep; reflexivity|]. split; [auto|].
      destruct l; [discriminate|apply Hl; [auto|discriminate]].
  - unfold sync. unfold pending in Hr at 1.
    assert (K : forall m1 L1, Inv ts m1 L1 -> flat (L1 c) = flat (L c) ++ pending b -> (forall d, d <> c -> L1 d = L d) -> fsize m1 + zl l < room m1 ->
      exists m' b' L', match writes c m1 (mkSB (g_itr b) (g_ch b) (g_have b) (p_ch b) false) l with Some (m, b, rs) => Some (m, b, 0 :: rs) | None => None end = Some (m', b', write_results (Flush :: l)) /\
        Inv ts m' L' /\ flat (L' c) ++ pending b' = flat (L c) ++ pending b ++ put_chars (Flush :: l) /\ (forall d, d <> c -> L' d = L d) /\ (last (Flush :: l) (Put 0) = Flush -> pending b' = [])).
    { intros m1 L1 I1 F1 D1 R1. destruct (IH m1 L1 (mkSB (g_itr b) (g_ch b) (g_have b) (p_ch b) false) I1) as (m' & b' & L' & E & I' & F & D & Z); [cbn; lia|].
      rewrite E. exists m', b', L'. split; [reflexivity|]. split; [auto|]. split; [rewrite F, F1; unfold pending at 2; cbn [p_have put_chars app]; rewrite <- app_assoc; reflexivity|].
      split; [intros d Hd; rewrite D, D1; auto|]. destruct l; [|apply Hl; [auto|discriminate]]. intros _. cbn in E. injection E as _ <-. reflexivity. }
    destruct (p_have b) eqn:Ep.
    + rewrite zl_cons, zl_nil in Hr. destruct (push_step ts m L c (p_ch b) I0 Hc Ht ltac:(lia)) as (m1 & r1 & L1 & E1 & I1 & F1 & D1 & S1 & R1). rewrite E1. cbn [cbind].
      apply (K m1 L1); auto; [unfold pending; rewrite Ep; auto|lia].
    + rewrite zl_nil in Hr. cbn [cbind]. apply (K m L); auto; [unfold pending; rewrite Ep, app_nil_r; reflexivity|lia].
Qed.

Lemma reads_at sgn ts (m : mem Z) L c : Inv ts m L -> c <> 0 -> Forall (fun x => char_to_int sgn x <> eof) (flat (L c)) ->
  forall n k b, g_have b = false -> (g_itr b = itr_at m c k \/ (k = O /\ g_itr b = no_itr)) ->
  exists b', reads sgn c m b n = Some (b', firstn n (skipn k (flat (L c))) ++ repeat eof (n - (length (flat (L c)) - k))).
Proof.
  intros [Wm G C T R] Hc Hx. pose proof (C c Hc) as Hcap. assert (Hcap' : t_cap (ts c) <= 65534) by lia.
  induction n as [|n IH]; intros k b Hh Hi; [exists b; reflexivity|]. cbn [reads]. unfold sbumpc. rewrite Hh. unfold underflow.
  set (i := if citr_eqb (g_itr b) no_itr then c_begin c m else g_itr b).
  assert (Ei : i = itr_at m c k).
  { unfold i. destruct Hi as [->|(-> & ->)]; [|reflexivity].
    assert (i_ok (itr_at m c k) = true).
    { destruct (Nat.lt_ge_cases k (length (flat (L c)))) as [Hk|Hk].
      - destruct (locate (L c) k Hk) as (u & p & l & x & r & v & EL & El). rewrite (itr_loc m L [] c (t_cap (ts c)) Wm Hc (G c Hc) Hcap' k _ _ _ _ _ _ EL El). reflexivity.
      - rewrite (itr_end m L [] c (t_cap (ts c)) Wm Hc (G c Hc) Hcap' k Hk). reflexivity. }
    unfold citr_eqb. rewrite H. reflexivity. }
  clearbody i. subst i.
  destruct (Nat.lt_ge_cases k (length (flat (L c)))) as [Hk|Hk].
  - destruct (locate (L c) k Hk) as (u & p & l & x & r & v & EL & El).
    pose proof (itr_loc m L [] c (t_cap (ts c)) Wm Hc (G c Hc) Hcap' k _ _ _ _ _ _ EL El) as EI.
    destruct (loc_facts m L [] c (t_cap (ts c)) Wm Hc (G c Hc) Hcap' _ _ _ _ _ _ EL) as (D1 & D2 & _ & _). rewrite EI, D1, D2, <- EI. cbn [cbind].
    destruct (at_skipn L c _ _ _ _ _ _ k EL El) as (Es & _).
    assert (Hne : char_to_int sgn x <> eof). { rewrite Forall_forall in Hx. apply Hx. rewrite EL, flat_app, flat_cons. apply in_or_app; right. apply in_or_app; left. apply in_or_app; right; left; reflexivity. }
    destruct (Z.eqb_spec (char_to_int sgn x) eof); [congruence|]. cbn [g_itr g_ch p_ch p_have].
    destruct (IH (S k) (mkSB (c_next c m (itr_at m c k)) x false (p_ch b) (p_have b)) eq_refl) as (b' & E); [left; reflexivity|]. rewrite E.
    exists b'. f_equal. f_equal. rewrite Es. cbn [firstn app]. f_equal. rewrite (skipn_step k _ _ _ Es). f_equal. f_equal. lia.
  - rewrite (itr_end m L [] c (t_cap (ts c)) Wm Hc (G c Hc) Hcap' k Hk), deref_end. cbn [cbind Z.eqb eof Pos.eqb].
    destruct (IH k (mkSB (c_end c m) (g_ch b) (g_have b) (p_ch b) (p_have b)) Hh) as (b' & E).
    { left. cbn. symmetry. apply (itr_end m L [] c (t_cap (ts c)) Wm Hc (G c Hc) Hcap' k Hk). }
    rewrite E. exists b'. rewrite !skipn_all2, !firstn_nil by auto. cbn [app]. replace (length (flat (L c)) - k)%nat with O by lia. rewrite Nat.sub_0_r. cbn [Nat.sub repeat]. reflexivity.
Qed.

(** In a pool with lists after any history, and with any chars and flushes written to a stream on the list [c] of
    chars, the last thing being a flush: the chars are appended to the string in the order in which they were put;
    a new stream reads all chars of the string and then end of file, any number of times.  What is missing: where
    char is signed, the char 255 (C48_char_refuted); a pool without space (C48_full_refuted). *)
Theorem C48_round_trip_partial : forall sgn zero room size h m outs s c l,
  2 <= room <= 2 ^ 51 -> (forall d, 1 <= size d <= 2034) -> size c = 1 -> c <> 0 -> Forall (fun e => fst e <> 0) h ->
  calls (fun d => list_of (size d)) (cont_mem zero room) h = Some (m, outs) -> ideals empties h outs = Some s ->
  fsize m + Z.of_nat (length l) + 1 < room ->
  Forall (fun x => 0 <= x < 256 /\ (sgn = true -> x <> 255)) (s c ++ put_chars l) ->
  exists m' b', writes c m new_sbuf (l ++ [Flush]) = Some (m', b', write_results (l ++ [Flush])) /\
    shows m' c (s c ++ put_chars l) /\ (forall d, d <> c -> d <> 0 -> shows m' d (s d)) /\
    forall n, exists b'', reads sgn c m' new_sbuf (length (s c ++ put_chars l) + n) = Some (b'', (s c ++ put_chars l) ++ repeat eof n).
Proof.
  intros sgn zero rm size h m outs s c l Hr Hs Hs1 Hc Hh E Es Hf Hx. set (ts := fun d => list_of (size d)) in *.
  destruct (runs_start zero rm ts size h Hr) as (m0 & outs0 & s0 & L & E0 & Ei & Hi & Ef & Er & _).
  { intro d. split; [left; auto|]. specialize (Hs d). lia. }
  { eapply Forall_impl; [|exact Hh]. intros [d o] Hd. split; [exact Hd|]. left. split; [reflexivity|apply Hs]. }
  rewrite E in E0. injection E0 as <- <-. rewrite Es in Ei. injection Ei as <-.
  assert (Ht : ts c = string_type) by (unfold ts; rewrite Hs1; reflexivity).
  destruct (writes_Inv ts c (l ++ [Flush]) Hc Ht m L new_sbuf Hi) as (m' & b' & L' & E' & I' & F & D & P).
  { rewrite zl_app. cbn. unfold zl. rewrite Er. cbn [length]. lia. }
  rewrite last_last in P. rewrite (P eq_refl), app_nil_r in F. cbn [new_sbuf pending p_have app] in F.
  assert (Ep : put_chars (l ++ [Flush]) = put_chars l). { clear. induction l as [|[x|] l IH]; cbn; congruence. }
  rewrite Ep, <- (Ef c Hc) in F.
  exists m', b'. split; [exact E'|]. split; [rewrite <- F; eapply Inv_shows; eauto|]. split; [intros d Hd Hd0; rewrite (Ef d Hd0), <- (D d Hd); eapply Inv_shows; eauto|].
  intro n. destruct (reads_at sgn ts m' L' c I' Hc) with (n := (length (s c ++ put_chars l) + n)%nat) (k := O) (b := new_sbuf) as (b'' & R); auto.
  { rewrite F. eapply Forall_impl; [|exact Hx]. intros x (Bx & Sx) Ex. unfold char_to_int, eof, schar in Ex. destruct sgn; [specialize (Sx eq_refl)|lia]. destruct (Z.ltb_spec x 128); lia. }
  exists b''. rewrite R. cbn [skipn]. rewrite F. f_equal. f_equal. rewrite firstn_all2 by lia. f_equal. f_equal. lia.
Qed.
Print Assumptions C48_round_trip_partial.

Definition h48 : list (Z * op Z) := [(1, PushBack 72); (2, PushBack 9); (1, PushBack 105)].
Definition l48 : list wop := [Put 33; Put 10; Put 0; Flush; Flush; Put 128; Put 254; Put 65].
Example C48_example :
  match calls (fun d => list_of 1) (cont_mem 0 100) h48 with
  | Some (m, outs) =>
      fsize m + Z.of_nat (length l48) + 1 < 100 /\
      match ideals empties h48 outs with
      | Some s => s 1 ++ put_chars l48 = [72; 105; 33; 10; 0; 128; 254; 65] /\ Forall (fun x => 0 <= x < 256 /\ (true = true -> x <> 255)) (s 1 ++ put_chars l48)
      | None => False
      end /\
      match writes 1 m new_sbuf (l48 ++ [Flush]) with
      | Some (m', _, rs) => rs = [33; 10; 0; 0; 0; 128; 254; 65; 0] /\ match reads true 1 m' new_sbuf 10 with Some (_, r) => r = [72; 105; 33; 10; 0; 128; 254; 65; -1; -1] | None => False end
      | None => False
      end
  | None => False
  end.
Proof.
  vm_compute. split; [reflexivity|]. split; [split; [reflexivity|]|split; reflexivity].
  repeat (apply Forall_cons; [split; [split; [discriminate|reflexivity]|discriminate]|]). constructor.
Qed.

Definition wmem (r : option (mem Z * sbuf * list Z)) : mem Z := match r with Some (m, _, _) => m | None => cont_mem 0 100 end.
Definition wbuf (r : option (mem Z * sbuf * list Z)) : sbuf := match r with Some (_, b, _) => b | None => new_sbuf end.
Definition wouts (r : option (mem Z * sbuf * list Z)) : option (list Z) := match r with Some (_, _, o) => Some o | None => None end.
Lemma wrote r o : wouts r = Some o -> r = Some (wmem r, wbuf r, o).
Proof. destruct r as [[[m b] o']|]; cbn; congruence. Qed.
Definition rbuf (r : option (sbuf * list Z)) : sbuf := match r with Some (b, _) => b | None => new_sbuf end.

(** Where char is signed, the char 255 is taken for end of file: of three chars in the string, one is read. *)
Theorem C48_char_refuted : exists m b b1 b2, writes 1 (cont_mem 0 100) new_sbuf [Put 65; Put 255; Put 66; Flush] = Some (m, b, [65; 255; 66; 0]) /\
  shows m 1 [65; 255; 66] /\ reads true 1 m new_sbuf 2 = Some (b1, [65; eof]) /\ reads false 1 m new_sbuf 4 = Some (b2, [65; 255; 66; eof]).
Proof.
  pose (r := writes 1 (cont_mem 0 100) new_sbuf [Put 65; Put 255; Put 66; Flush]). exists (wmem r), (wbuf r), (rbuf (reads true 1 (wmem r) new_sbuf 2)), (rbuf (reads false 1 (wmem r) new_sbuf 4)).
  split; [apply wrote; vm_compute; reflexivity|]. split; [vm_compute; repeat split|]. split; vm_compute; reflexivity.
Qed.
Print Assumptions C48_char_refuted.

(** In a pool without space, put() and flush() report success, and the chars are lost. *)
Theorem C48_full_refuted : exists m b, writes 1 (cont_mem 0 2) new_sbuf [Put 65; Put 66; Put 67; Flush] = Some (m, b, [65; 66; 67; 0]) /\ shows m 1 [].
Proof.
  pose (r := writes 1 (cont_mem 0 2) new_sbuf [Put 65; Put 66; Put 67; Flush]). exists (wmem r), (wbuf r).
  split; [apply wrote; vm_compute; reflexivity|vm_compute; repeat split].
Qed.
Print Assumptions C48_full_refuted.

(** A stream that has read end of file never reads a char again, even of chars that are written and flushed later
    through the same stream; a new stream reads them. *)
Theorem C48_eof_refuted : exists b1 m b2 b3 b4, reads false 1 (cont_mem 0 100) new_sbuf 1 = Some (b1, [eof]) /\
  writes 1 (cont_mem 0 100) b1 [Put 65; Put 66; Flush] = Some (m, b2, [65; 66; 0]) /\ shows m 1 [65; 66] /\
  reads false 1 m b2 1 = Some (b3, [eof]) /\ reads false 1 m new_sbuf 2 = Some (b4, [65; 66]).
Proof.
  pose (b1 := rbuf (reads false 1 (cont_mem 0 100) new_sbuf 1)). pose (r := writes 1 (cont_mem 0 100) b1 [Put 65; Put 66; Flush]).
  exists b1, (wmem r), (wbuf r), (rbuf (reads false 1 (wmem r) (wbuf r) 1)), (rbuf (reads false 1 (wmem r) new_sbuf 2)).
  split; [vm_compute; reflexivity|]. split; [apply wrote; vm_compute; reflexivity|]. split; [vm_compute; repeat split|]. split; vm_compute; reflexivity.
Qed.
Print Assumptions C48_eof_refuted.
