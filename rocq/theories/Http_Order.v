(** The order of calls on the HTTP streams (C13). *)

From Coq Require Import ZArith List Bool Lia.
From Verif Require Import Base ListMem Ascii_Model Http_Model Http_Spec Http_Calls Http_Proofs Http_Writer Http_RoundTrip.
Import ListNotations.
Open Scope Z_scope.

(** ** Chains of events *)
Section chains.
Context {E : Type} (item_of : E -> item) (next : E -> item).
Fixpoint chain (n : item) (l : list E) : Prop :=
  match l with [] => True | e :: l => item_of e = n /\ chain (next e) l end.
Definition last_next (n : item) (l : list E) : item := fold_left (fun _ e => next e) l n.
Lemma chain_app : forall a n b, chain n (a ++ b) <-> chain n a /\ chain (last_next n a) b.
Proof.
  induction a as [|e a IH]; intros n b; [cbn; tauto|]. cbn [app chain]. rewrite IH. change (last_next n (e :: a)) with (last_next (next e) a). tauto.
Qed.
Lemma chain_begins : forall a b n, begins a b -> chain n b -> chain n a.
Proof. intros a b n (c & ->) H. apply chain_app in H. tauto. Qed.
End chains.

(** ** The writers *)
Definition next_call (sd : side) (c : wcall) : item :=
  match c, sd with
  | Put method, _ => resource
  | Put resource, _ => protocol
  | Put protocol, request => header_name
  | Put protocol, response => status_code
  | Put status_code, _ => reason_phrase
  | Put reason_phrase, _ => header_name
  | Put header_name, _ => header_value
  | Put header_value, _ => header_name
  | Put body, _ => body
  | End_headers, _ => body
  end.
Lemma put_call_next : forall sd c buf w, has_item sd (wcall_item c) = true -> exists w', put_call sd c buf w = Ret w' /\ wnext w' = next_call sd c.
Proof.
  intros sd c buf w H.
  destruct c as [it|]; [destruct it|]; try (eexists; split; [reflexivity|destruct sd; reflexivity]).
  { cbn [put_call]. unfold put_header_name. destruct (put_chars http_is_token w buf) as (k & w1). eexists. split; reflexivity. }
  destruct (writers_line sd (Put header_value) buf w H ltac:(discriminate)) as (w' & _ & _ & E & _).
  exists w'. split; [exact E|]. cbn [put_call] in E. unfold put_header_value in E.
  destruct (put_value_loop _ _ _ _) as [x| | |]; try discriminate. injection E as <-. reflexivity.
Qed.
Lemma first_has : forall sd, has_item sd (first_item sd) = true.
Proof. intros []; reflexivity. Qed.
Lemma next_has : forall sd c, has_item sd (wcall_item c) = true -> has_item sd (next_call sd c) = true.
Proof. intros [] [[]|]; cbn; congruence. Qed.
Lemma write_calls_chain : forall sd cs w, has_item sd (wnext w) = true ->
  (chain wcall_item (next_call sd) (wnext w) (map fst cs) -> exists w', write_calls sd cs w = Ret w') /\
  (~ chain wcall_item (next_call sd) (wnext w) (map fst cs) -> write_calls sd cs w = Throw).
Proof.
  intros sd cs; induction cs as [|(c, buf) cs IH]; intros w H.
  - split; [eexists; reflexivity|]. intros K. exfalso. apply K. exact I.
  - cbn [map fst chain write_calls]. unfold write_call. destruct (item_eqb (wnext w) (wcall_item c)) eqn:E.
    + apply item_eqb_eq in E. rewrite E in H. destruct (put_call_next sd c buf w H) as (w' & P & Nx). rewrite P. cbn [bind].
      specialize (IH w'). rewrite Nx in IH. destruct (IH (next_has _ _ H)) as (A & B). split; [intros (_ & K); auto|].
      intros K. apply B. intros K'. apply K. auto.
    + split; [|reflexivity]. intros (K & _). rewrite K in E. rewrite (proj2 (item_eqb_eq _ _) eq_refl) in E. discriminate.
Qed.

Lemma body_calls : forall sd l, chain wcall_item (next_call sd) body l -> exists k, l = repeat (Put body) k.
Proof.
  intros sd l; induction l as [|[it|] l IH]; intros H; [exists O; reflexivity| |destruct H; discriminate].
  destruct H as (E & H). cbn in E. subst. destruct (IH H) as (k & ->). exists (S k). reflexivity.
Qed.
Lemma header_calls : forall sd n l, (length l <= n)%nat -> chain wcall_item (next_call sd) header_name l -> exists h k,
  begins l (concat (repeat [Put header_name; Put header_value] h) ++ [End_headers] ++ repeat (Put body) k).
Proof.
  intros sd n; induction n as [|n IH]; intros l L H.
  - destruct l; [|cbn in L; lia]. exists O, O. eexists. reflexivity.
  - destruct l as [|c l]; [exists O, O; eexists; reflexivity|]. destruct H as (E & H). destruct c as [it|].
    + cbn in E. subst it. destruct l as [|c l]; [exists 1%nat, O; eexists; reflexivity|]. destruct H as (E & H). destruct c as [it|]; [|discriminate].
      cbn in E. subst it. destruct (IH l) as (h & k & x & X); [cbn in L; lia|exact H|]. exists (S h), k, x. cbn [repeat concat app] in *. rewrite X. reflexivity.
    + destruct (body_calls _ _ H) as (k & ->). exists O, k, []. cbn. rewrite app_nil_r. reflexivity.
Qed.
Lemma chain_message : forall sd l, chain wcall_item (next_call sd) (first_item sd) l <-> exists h k, begins l (message_calls sd h k).
Proof.
  intros sd l. split.
  - intros H. unfold message_calls.
    destruct l as [|[a|] l]; [exists O, O; eexists; reflexivity| |destruct sd; destruct H; discriminate].
    destruct H as (E & H). cbn in E. subst a.
    destruct l as [|[b|] l]; [exists O, O; destruct sd; eexists; reflexivity| |destruct sd; destruct H; discriminate].
    destruct H as (E & H). cbn [wcall_item] in E. subst b.
    destruct l as [|[c|] l]; [exists O, O; destruct sd; eexists; reflexivity| |destruct sd; destruct H; discriminate].
    destruct H as (E & H). cbn [wcall_item] in E. subst c.
    destruct (header_calls sd (length l) l) as (h & k & x & X); [lia|destruct sd; exact H|]. exists h, k, x.
    destruct sd; cbn [map app start_line_items first_item next_call] in *; rewrite X; reflexivity.
  - intros (h & k & B). eapply chain_begins; [exact B|]. unfold message_calls. apply chain_app. split; [destruct sd; cbn; auto|].
    replace (last_next (next_call sd) (first_item sd) (map Put (start_line_items sd))) with header_name by (destruct sd; reflexivity).
    clear B. induction h as [|h IH]; [|cbn; auto]. cbn [repeat concat app chain]. split; [reflexivity|].
    induction k as [|k IH]; [exact I|]. cbn [repeat chain]. auto.
Qed.
(** C13, writers *)
Lemma writer_order : forall sd cs room ltr,
  ((exists h k, begins (map fst cs) (message_calls sd h k)) -> exists w, write_calls sd cs (http_writer sd room ltr) = Ret w) /\
  (~ (exists h k, begins (map fst cs) (message_calls sd h k)) -> write_calls sd cs (http_writer sd room ltr) = Throw).
Proof.
  intros sd cs room ltr. rewrite <- chain_message. apply (write_calls_chain sd cs (http_writer sd room ltr)). apply first_has.
Qed.

(** ** The readers *)
Definition next_seen (sd : side) (e : seen) : item :=
  match seen_item e, sd with
  | method, _ => resource
  | resource, _ => protocol
  | protocol, request => header_name
  | protocol, response => status_code
  | status_code, _ => reason_phrase
  | reason_phrase, _ => header_name
  | header_name, _ => if snd (fst e) =? 0 then body else header_value
  | header_value, _ => header_name
  | body, _ => body
  end.
(** a chain in which a failed read of a value may be repeated *)
Fixpoint lchain (sd : side) (n : item) (l : list seen) : Prop :=
  match l with
  | [] => True
  | e :: l => seen_item e = n /\
      (lchain sd (next_seen sd e) l \/ (seen_item e = header_value /\ snd e = false /\ lchain sd header_value l))
  end.
Lemma good_gstate : forall s g n, is_good (set_gstate s g n) = is_good s.
Proof. reflexivity. Qed.
Lemma read_next : forall sd it m s m' s', 2 <= zlen m < 2 ^ 64 -> read_call sd it m s = Ret (m', s') -> hnext s = it /\
  (hnext s' = next_seen sd (it, hgc s', is_good s') \/ (it = header_value /\ is_good s' = false /\ hnext s' = header_value)).
Proof.
  intros sd it m s m' s' Hm H. unfold read_call in H. destruct (item_eqb (hnext s) it) eqn:E; [|discriminate]. apply item_eqb_eq in E. split; [exact E|].
  destruct it; cbn [get_item] in H.
  - left. unfold get_method in H. destruct (get_chars _ _ _ _ _) as [[[g m1] s1]| | |]; try discriminate. cbn [bind] in H.
    destruct (skip_spaces s1) as [[sp s2]| | |]; try discriminate. injection H as <- <-. reflexivity.
  - left. unfold get_resource in H. destruct (get_chars _ _ _ _ _) as [[[g m1] s1]| | |]; try discriminate. cbn [bind] in H.
    destruct (store _ _ _); try discriminate. cbn [bind] in H.
    destruct (skip_spaces s1) as [[sp s2]| | |]; try discriminate. injection H as <- <-. reflexivity.
  - left. unfold get_protocol_of in H. destruct (get_protocol _ _) as [[[g m1] s1]| | |]; try discriminate. cbn [bind] in H.
    destruct sd; injection H as <- <-; reflexivity.
  - left. unfold get_status_code in H. destruct (get_chars _ _ _ _ _) as [[[g m1] s1]| | |]; try discriminate. cbn [bind] in H.
    destruct (skip_spaces s1) as [[sp s2]| | |]; try discriminate. injection H as <- <-. reflexivity.
  - left. unfold get_reason_phrase in H. destruct (get_chars _ _ _ _ _) as [[[g m1] s1]| | |]; try discriminate. cbn [bind] in H.
    destruct (skip_spaces s1) as [[sp s2]| | |]; try discriminate. injection H as <- <-. reflexivity.
  - left. unfold get_header_name in H. destruct (get_chars _ _ _ _ _) as [[[g m1] s1]| | |]; try discriminate. cbn [bind] in H.
    destruct (skip_spaces s1) as [[sp s2]| | |]; try discriminate. cbn [bind] in H. unfold next_seen. cbn [seen_item fst snd].
    destruct (g =? 0) eqn:G; [injection H as <- <-; cbn [hnext hgc set_gstate]; rewrite G; reflexivity|].
    destruct (skip_spaces _) as [[sp3 s3]| | |]; try discriminate. injection H as <- <-. cbn [hnext hgc set_gstate]. rewrite G. reflexivity.
  - destruct (value_eff m s Hm) as (t & m2 & s2 & E2 & _ & _ & _ & K). rewrite E2 in H. injection H as <- <-.
    destruct K as [(K & G)|K]; [right; auto|left; exact K].
  - left. unfold get_body in H. destruct (get_bytes _ _ _ _) as [[[g m1] s1]| | |]; try discriminate. injection H as <- <-. reflexivity.
Qed.
Lemma reads_lchain : forall sd s t s', reads sd s t s' -> lchain sd (hnext s) t.
Proof.
  intros sd s t s' H; induction H as [s|s it m m' s1 t s2 Hm R H IH]; [exact I|]. cbn [lchain].
  destruct (read_next _ _ _ _ _ _ Hm R) as (E & K). split; [symmetry; exact E|].
  destruct K as [K|(-> & G & K)]; rewrite K in IH; [left; exact IH|right]. cbn [seen_item fst snd]. rewrite G. auto.
Qed.
Lemma reads_good_chain : forall sd s t s', reads sd s t s' -> Forall (fun e => snd e = true) t ->
  hnext s' = last_next (next_seen sd) (hnext s) t /\ chain seen_item (next_seen sd) (hnext s) t.
Proof.
  intros sd s t s' H; induction H as [s|s it m m' s1 t s2 Hm R H IH]; intros F; [split; [reflexivity|exact I]|].
  inversion F as [|? ? G F']; subst. cbn [snd] in G. destruct (IH F') as (A & B). destruct (read_next _ _ _ _ _ _ Hm R) as (E & K).
  destruct K as [K|(-> & G' & K)]; [|congruence]. rewrite K in A, B. cbn [chain]. rewrite E. split; [exact A|]. split; [reflexivity|exact B].
Qed.

Lemma body_seen : forall sd l, lchain sd body l -> Forall (fun e => seen_item e = body) l.
Proof.
  intros sd l; induction l as [|e l IH]; intros H; [constructor|]. destruct H as (E & [H|(E' & _)]); [|congruence]. constructor; [exact E|].
  apply IH. unfold next_seen in H. rewrite E in H. exact H.
Qed.
Lemma value_seen : forall sd l, lchain sd header_value l ->
  Forall (fun e => seen_item e = header_value /\ snd e = false) l \/
  exists vs v l', l = vs ++ [v] ++ l' /\ Forall (fun e => seen_item e = header_value /\ snd e = false) vs /\ seen_item v = header_value /\ lchain sd header_name l'.
Proof.
  intros sd l; induction l as [|e l IH]; intros H; [left; constructor|]. destruct H as (E & [H|(_ & B & H)]).
  - right. exists [], e, l. unfold next_seen in H. rewrite E in H. repeat split; auto.
  - destruct (IH H) as [F|(vs & v & l' & -> & F & V & C)]; [left; constructor; auto|]. right. exists (e :: vs), v, l'. repeat split; auto.
Qed.
Definition headers_seen (t : list seen) : Prop :=
  exists hs good bs, Forall header_seen hs /\ Forall (fun e => seen_item e = body) bs /\ begins t (concat hs ++ [(header_name, 0, good)] ++ bs).
Lemma header_seens : forall sd n l, (length l <= n)%nat -> lchain sd header_name l -> headers_seen l.
Proof.
  intros sd n; induction n as [|n IH]; intros l L H.
  - destruct l; [|cbn in L; lia]. exists [], true, []. repeat split; auto. eexists. reflexivity.
  - destruct l as [|((it, g), b) l]; [exists [], true, []; repeat split; auto; eexists; reflexivity|].
    destruct H as (E & [H|(E' & _)]); [|congruence]. cbn [seen_item fst] in E. subst it. unfold next_seen in H. cbn [seen_item fst snd] in H.
    destruct (g =? 0) eqn:G.
    + apply Z.eqb_eq in G. subst g. exists [], b, l. repeat split; [constructor|apply (body_seen sd l H)|]. exists []. cbn. rewrite app_nil_r. reflexivity.
    + apply Z.eqb_neq in G. destruct (value_seen sd l H) as [F|(vs & v & l' & -> & F & V & C)].
      * exists [[(header_name, g, b)] ++ l ++ [(header_value, 0, true)]], true, []. repeat split; auto.
        { constructor; [|constructor]. exists g, b, l, (header_value, 0, true). auto. }
        eexists. cbn [concat app]. rewrite app_nil_r. rewrite <- app_assoc. reflexivity.
      * destruct (IH l') as (hs & good & bs & F1 & F2 & x & X); [|exact C|].
        { cbn in L. rewrite app_length in L. cbn in L. lia. }
        exists (([(header_name, g, b)] ++ vs ++ [v]) :: hs), good, bs. split; [constructor; [exists g, b, vs, v; auto|exact F1]|]. split; [exact F2|].
        exists x. cbn [concat]. rewrite <- !app_assoc. cbn [app] in *. rewrite <- !app_assoc. cbn [app]. rewrite X. reflexivity.
Qed.
Lemma next_start : forall sd n e, In n (start_line_items sd) -> seen_item e = n -> seen_item e <> header_value.
Proof. intros sd n e H E. destruct sd; cbn in H; intros K; destruct H as [H|[H|[H|[]]]]; congruence. Qed.
Lemma lchain_message : forall sd t, lchain sd (first_item sd) t -> exists full, message_seen sd full /\ begins t full.
Proof.
  intros sd t H. set (d := fun it : item => (it, 0, true) : seen).
  assert (Q : forall pre, length pre = 3%nat -> map seen_item pre = start_line_items sd -> exists full, message_seen sd full /\ begins pre full).
  { intros pre _ P. exists (pre ++ [(header_name, 0, true)]). split; [exists pre, [], true, []; repeat split; auto|eexists; reflexivity]. }
  assert (Q' : forall a b, length (a ++ b) = 3%nat -> map seen_item (a ++ b) = start_line_items sd -> exists full, message_seen sd full /\ begins a full).
  { intros a b L P. destruct (Q _ L P) as (f & M & x & ->). exists ((a ++ b) ++ x). split; [exact M|]. exists (b ++ x). rewrite app_assoc. reflexivity. }
  destruct t as [|a t]; [apply (Q' [] (map d (start_line_items sd))); destruct sd; reflexivity|].
  destruct H as (Ea & H). destruct H as [H|(K & _)]; [|exfalso; rewrite Ea in K; destruct sd; discriminate]. unfold next_seen in H. rewrite Ea in H.
  destruct t as [|b t]; [apply (Q' [a] (map d (tl (start_line_items sd)))); destruct sd; cbn [map app start_line_items tl length first_item] in *; try rewrite Ea; reflexivity|].
  destruct H as (Eb & H). destruct H as [H|(K & _)]; [|exfalso; rewrite Eb in K; destruct sd; discriminate]. unfold next_seen in H. rewrite Eb in H.
  destruct t as [|c t]; [apply (Q' [a; b] (map d (tl (tl (start_line_items sd))))); destruct sd; cbn [map app start_line_items tl length first_item] in *; try rewrite Ea, Eb; reflexivity|].
  destruct H as (Ec & H). destruct H as [H|(K & _)]; [|exfalso; rewrite Ec in K; destruct sd; discriminate]. unfold next_seen in H. rewrite Ec in H.
  destruct (header_seens sd (length t) t) as (hs & good & bs & F1 & F2 & x & X); [lia|destruct sd; exact H|].
  exists ([a; b; c] ++ concat hs ++ [(header_name, 0, good)] ++ bs). split.
  - exists [a; b; c], hs, good, bs. repeat split; auto. destruct sd; cbn [map app start_line_items tl length first_item] in *; rewrite Ea, Eb, Ec; reflexivity.
  - exists x. rewrite X. reflexivity.
Qed.
(** and back: a message in which everything was good is a chain *)
Lemma last_next_app : forall sd n a b, last_next (next_seen sd) n (a ++ b) = last_next (next_seen sd) (last_next (next_seen sd) n a) b.
Proof. intros. apply fold_left_app. Qed.
Lemma message_lchain : forall sd t, message_seen sd t -> lchain sd (first_item sd) t.
Proof.
  intros sd t (start & hs & good & bs & S & F & B & ->).
  assert (Hb : forall l, Forall (fun e => seen_item e = body) l -> lchain sd body l).
  { intros l Fl; induction Fl as [|e l E _ IH]; [exact I|]. split; [exact E|left]. unfold next_seen. rewrite E. exact IH. }
  assert (Hh : lchain sd header_name (concat hs ++ [(header_name, 0, good)] ++ bs)).
  { induction F as [|h hs (n & g & vs & v & Hn & -> & Fv & Ev) F IH].
    - split; [reflexivity|left]. cbn. apply Hb, B.
    - cbn [concat]. rewrite <- !app_assoc. cbn [app]. split; [reflexivity|left]. unfold next_seen. cbn [seen_item fst snd].
      apply Z.eqb_neq in Hn. rewrite Hn. rewrite <- ?app_assoc. cbn [app].
      induction Fv as [|e vs (E1 & E2) Fv IHv]; [split; [exact Ev|left; unfold next_seen; rewrite Ev; exact IH]|]. split; [exact E1|right]. auto. }
  destruct start as [|a [|b [|c [|]]]]; try (destruct sd; discriminate).
  destruct sd; injection S as Ea Eb Ec; cbn [app lchain first_item]; (split; [exact Ea|left]); unfold next_seen at 1; rewrite Ea;
    (split; [exact Eb|left]); unfold next_seen at 1; rewrite Eb; (split; [exact Ec|left]); unfold next_seen at 1; rewrite Ec; exact Hh.
Qed.
Lemma lchain_begins : forall sd a b n, begins a b -> lchain sd n b -> lchain sd n a.
Proof.
  intros sd a b n (c & ->). revert n; induction a as [|e a IH]; intros n H; [exact I|]. cbn [app] in H. destruct H as (E & [H|(V & G & H)]);
    split; auto.
Qed.
Lemma lchain_good : forall sd t e n, Forall (fun e => snd e = true) t -> lchain sd n (t ++ [e]) -> seen_item e = last_next (next_seen sd) n t.
Proof.
  intros sd t; induction t as [|x t IH]; intros e n F H; [destruct H; assumption|]. inversion F; subst. cbn [app] in H.
  destruct H as (_ & [H|(_ & G & _)]); [|congruence]. apply (IH e (next_seen sd x)); assumption.
Qed.
Lemma chain_lchain : forall sd t n, chain seen_item (next_seen sd) n t -> lchain sd n t.
Proof. intros sd t; induction t as [|e t IH]; intros n H; [exact I|]. destruct H as (E & H). split; auto. Qed.

(** C13, readers: what was read is the beginning of a message *)
Lemma reader_order : forall sd l t s, reads sd (http_reader sd l) t s -> exists full, message_seen sd full /\ begins t full.
Proof. intros sd l t s H. apply lchain_message. exact (reads_lchain _ _ _ _ H). Qed.
(** and the next call is refused exactly when it does not continue a message *)
Lemma reader_refuses : forall sd l t s it m, reads sd (http_reader sd l) t s -> Forall (fun e => snd e = true) t -> 2 <= zlen m < 2 ^ 64 ->
  ((exists g good full, message_seen sd full /\ begins (t ++ [(it, g, good)]) full) -> exists m' s', read_call sd it m s = Ret (m', s')) /\
  (~ (exists g good full, message_seen sd full /\ begins (t ++ [(it, g, good)]) full) -> read_call sd it m s = Throw).
Proof.
  intros sd l t s it m R F Hm. destruct (reads_good_chain _ _ _ _ R F) as (Nx & C). split.
  - intros (g & good & full & M & B). apply message_lchain in M. apply (lchain_begins _ _ _ _ B) in M. apply lchain_good in M; [|exact F].
    cbn [seen_item fst] in M. change (hnext (http_reader sd l)) with (first_item sd) in Nx. rewrite <- Nx in M.
    destruct (item_eqb it body) eqn:Eb.
    + apply item_eqb_eq in Eb. subst it. unfold read_call. rewrite (proj2 (item_eqb_eq _ _) eq_refl), Eb. cbn [get_item]. unfold get_body.
      assert (K : forall room m0 g0 s0, 0 <= g0 -> (Z.to_nat g0 + room = length m0)%nat -> exists r, get_bytes m0 g0 room s0 = Ret r).
      { intros room; induction room as [|room IH]; intros m0 g0 s0 P Q; [eexists; reflexivity|]. cbn [get_bytes].
        destruct (is_good s0); [|eexists; reflexivity]. destruct (get s0) as (c & s1).
        destruct (write_at_some m0 g0 [c]) as (m1 & W); [lia|unfold zlen; cbn [length]; lia|]. unfold store. rewrite W. cbn [bind].
        apply IH; [lia|]. apply write_at_len in W. unfold zlen in W. lia. }
      destruct (K (length m) m 0 s) as (((g1, m1), s1) & E); [lia|lia|]. rewrite E. cbn [bind]. eauto.
    + assert (P : it <> body) by (intros ->; discriminate).
      destruct (readers_fit sd it m s P (eq_sym M) Hm) as (t' & s' & E & _). eauto.
  - intros K. unfold read_call. destruct (item_eqb (hnext s) it) eqn:E; [|reflexivity]. exfalso. apply K. apply item_eqb_eq in E.
    exists 0, true. apply lchain_message. apply chain_lchain, chain_app. split; [exact C|]. change (hnext (http_reader sd l)) with (first_item sd) in Nx. rewrite <- Nx. split; [symmetry; exact E|exact I].
Qed.

(** A list of calls computed, for the examples. *)
Fixpoint read_list (sd : side) (cs : list (item * list Z)) (s : hrd) : option (list seen * hrd) :=
  match cs with
  | [] => Some ([], s)
  | (it, m) :: cs =>
      if (2 <=? zlen m) && (zlen m <? 2 ^ 64) then
        match read_call sd it m s with
        | Ret (_, s1) => match read_list sd cs s1 with Some (t, s2) => Some ((it, hgc s1, is_good s1) :: t, s2) | None => None end
        | _ => None
        end
      else None
  end.
Lemma read_list_reads : forall sd cs s t s', read_list sd cs s = Some (t, s') -> reads sd s t s'.
Proof.
  intros sd cs; induction cs as [|(it, m) cs IH]; intros s t s' H; cbn [read_list] in H; [injection H as <- <-; apply reads_none|].
  destruct ((2 <=? zlen m) && (zlen m <? 2 ^ 64)) eqn:E; [|discriminate]. apply andb_prop in E. destruct E as (E1 & E2).
  apply Z.leb_le in E1. apply Z.ltb_lt in E2.
  destruct (read_call sd it m s) as [(m', s1)| | |] eqn:R; try discriminate. destruct (read_list sd cs s1) as [(t1, s2)|] eqn:L; [|discriminate].
  injection H as <- <-. eapply reads_one; [split; eassumption|exact R|apply IH, L].
Qed.
