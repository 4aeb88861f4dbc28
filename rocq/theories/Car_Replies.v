(** Proofs for C76, C79-C82: what the car answers. *)

From Coq Require Import String ZArith QArith List Bool Lia.
From Verif Require Import Base ListMem Ascii_Model Ascii_Spec Table_Model Http_Model Http_Calls Http_Spec Endpoint_Model Endpoint_Spec Rest_Model Rest_Spec RestBody_Spec.
From Verif Require Import Http_Proofs Http_Order Http_RoundTrip Endpoint_Proofs Ascii_Proofs Rest_Games Rest_Json Rest_Proofs Rest_Replies Rest_Any Rest_Headers RestBody_Proofs RestBody_Replies.
From Verif Require Import Car_Model Car_Spec Car_Proofs.
From Verif Require Json_Model Json_Spec Json_Proofs Json_Writer Json_Safety Json_Final.
Import ListNotations.
Open Scope string_scope.
Open Scope list_scope.
Open Scope Z_scope.

(** ** What is read from a body *)
Definition number_found (e : env) (name : string) (hi : Z) (v : Json_Spec.jv) : option Z :=
  match number_in name v with
  | None => None
  | Some x => match e_atof e x with Some q => if Qle_bool (inject_Z (- hi)) q && Qle_bool q (inject_Z hi) then Some (Z.quot (Qnum q) (Zpos (Qden q))) else None | None => None end
  end.
Section Bodies.
Import Json_Model Json_Spec Json_Proofs.
Variable e : env.
Hypothesis Se : sized e.
Lemma number_read : forall (name : String.string) hi s body v, no_nul (b name) -> hin s = body -> body_says body v -> readable v -> (length body + 4 < e_fuel e)%nat ->
  read_number e name hi s = Http_Model.Ret (number_found e name hi v).
Proof.
  intros name hi s bd v Nn Es B Rv Hf. destruct Se as (_ & St & _). unfold read_number, json_reader. rewrite Es.
  change (reader 64 bd) with (gst 64 (cinp (mk bd [] false)) (ck (mk bd [] false)) (ce (mk bd [] false)) None []).
  destruct (value_run e bd v B Rv Hf) as (c' & R). destruct (first_token v) as (t & ts & Et & To & _). rewrite Et in R. apply run_first in R as (c1 & T & _).
  assert ((exists ms, v = JObj ms) \/ (forall ms, v <> JObj ms)) as [(ms & ->)|No].
  { destruct v; try (right; discriminate). left. eauto. }
  2: { pose proof Rv as (_ & _ & Ft). rewrite Et in Ft. destruct (tok_read e t _ _ (e_token e) None [] T St (Forall_inv Ft)) as (tb & n' & E & _). rewrite E. cbn [Http_Model.bind].
    assert (number_found e name hi v = None) as Pn. { destruct v; try reflexivity. exfalso. eapply No. reflexivity. } rewrite Pn.
    destruct t; try reflexivity. exfalso. destruct (proj1 To eq_refl) as (ms & ->). apply (No ms). reflexivity. }
  destruct (object_split e bd ms B Hf) as (tx & rest & M & Hf' & Lt & Tb). destruct (tok_read e TBegO _ _ (e_token e) None [] Tb St I) as (tb & n' & E & L1). rewrite E. cbn [Http_Model.bind].
  assert (Forall (fun p => 1 + depth (snd p) <= 64 /\ Forall num_fits (tokens (snd p)) /\ Forall (tok_fits 1041) (tokens (snd p)) /\ tok_fits 1041 (TProp (fst p))) ms) as Ok.
  { clear - Rv. destruct Rv as (D & F & T). cbn [depth tokens] in *. apply Forall_inv_tail in F, T. apply Forall_app in F as (F & _). apply Forall_app in T as (T & _).
    revert D F T. induction ms as [|[n v] ms IH]; intros D F T; [constructor|]. cbn [map fold_right flat_map app] in *.
    apply Forall_inv_tail in F as F'. apply Forall_app in F' as (F1 & F2). pose proof (Forall_inv T) as T0. apply Forall_inv_tail in T as T'. apply Forall_app in T' as (T1 & T2).
    constructor; [cbn [fst snd]; split; [lia|]; split; [exact F1|]; split; [exact T1|exact T0]|]. apply IH; auto. lia. }
  clear E T B Rv Et To. destruct ms as [|[n1 v1] ms].
  { rewrite (name_end e tb _ _ name (Some tb) n' (RestBody_Proofs.end_read e _ tx rest M Hf') L1). reflexivity. }
  inversion Ok as [|? ? (D1 & F1 & T1 & N1) Ok1]; subst. cbn [fst snd] in *.
  destruct (member_read e any_char n1 v1 ms tx rest M D1 F1 Hf') as (c2 & t1 & M1 & Lt1 & Tk1 & Kc1 & R1 & _).
  destruct (name_step e n1 v1 ms tb _ _ tx rest name (Some tb) n' Nn M eq_refl Tk1 L1 N1) as (tb2 & n2 & E2 & L2). rewrite E2. cbn [Http_Model.bind].
  change (named name (n1, v1)) with (named name (n1, JNull)). unfold number_found. cbn [number_in].
  destruct (first_token v1) as (t9 & ts9 & Et & _ & _ & _ & Tn). rewrite Et in R1, T1. apply run_first in R1 as (c3 & T & _). destruct (tok_read e t9 _ _ tb2 (Some tb2) n2 T L2 (Forall_inv T1)) as (tb3 & n3 & E3 & L3).
  destruct (named name (n1, JNull)).
  - unfold read_int. rewrite E3. cbn [Http_Model.bind]. destruct v1 as [| |d| | |]; cbn [tokens] in Et; try (injection Et as <- _; reflexivity).
    injection Et as <- _. destruct (e_atof e d); reflexivity.
  - destruct v1; reflexivity.
Qed.
End Bodies.

(** ** Requests *)
Section Serving.
Variables (cn : conn) (root : list Z) (e : env) (c : car).
Hypothesis Rd : ready cn root.
Hypothesis Op : closing c = false.
Lemma car_raw : forall l m r p rest, l = m ++ [32] ++ r ++ [32] ++ p ++ CRLF ++ rest -> start_line_ok request m r p ->
  zlen m <= 32 -> zlen root + zlen r <= 2047 -> zlen p <= 16 -> ~ file_asked (c_config cn) m r ->
  exists x y g, no_nul m /\ no_nul r /\
    serve cn e c l = do (x, s) <- read_request e (m ++ 0 :: x) (r ++ 0 :: y) (N header_name g rest);
      match x with
      | Refuse calls => do w <- write_calls response calls (server_writer s true); Ret ({| a_file := None; a_shut := false; a_calls := calls; a_out := wout w |}, c)
      | Found x =>
          let '(rp, c') := run (perform e x) c in
          do calls <- rp;
          do w <- write_calls response calls (server_writer s true);
          Ret ({| a_file := None; a_shut := closing c'; a_calls := calls; a_out := wout w |}, c')
      end.
Proof.
  intros l m r p rest El Ok Lm Lr Lp Nf. destruct Rd as (Hr & Ha & Hp & Hl).
  assert (exists x y g, read_line (c_config cn) (c_mb cn) (c_pb cn) (c_qb cn) l = Ret (m ++ 0 :: x, root ++ r ++ 0 :: y, N header_name g rest) /\ no_nul m /\ no_nul r) as (x & y & g & E & Nm & Nr).
  { destruct (three_reads root _ _ _ Ha l) as (m' & r' & q & x & y & z & s1 & s2 & s3 & E1 & G1 & F1 & E2 & G2 & F2 & E3 & G3).
    destruct (rb_len root _ _ _ Ha) as (RL & RL'). pose proof Ha as (M & P & Qb & _ & R). unfold method_size, resource_size, protocol_size in *.
    pose proof (zlen_nonneg _ m). pose proof (zlen_nonneg _ r). pose proof (zlen_nonneg _ p).
    destruct (read_start request m r p (c_mb cn) (0 :: drop (zlen root + 1) (c_pb cn)) (c_qb cn) [] rest Ok) as (g & E). { unfold start_room, room_for. lia. }
    assert (start_line_text request m r p ++ rest = l) as Et. { rewrite El. unfold start_line_text. rewrite <- !app_assoc. reflexivity. }
    rewrite Et in E. cbn [start_line_gets app read_calls bind] in E. rewrite E1 in E. cbn [bind] in E. rewrite E2 in E. cbn [bind] in E. rewrite E3 in E. cbn [bind] in E.
    rewrite G1, G2, G3, !take_app_exact in E. injection E as -> -> -> ->.
    exists x, y, g. split; [|split; apply text_no_nul; assumption].
    unfold read_line. rewrite E1. cbn [bind]. rewrite Hr. destruct (Z.ltb_spec (zlen (c_pb cn)) (zlen root + 1)); [lia|]. rewrite E2. cbn [bind]. rewrite E3. reflexivity. }
  exists x, y, g. split; [exact Nm|]. split; [exact Nr|].
  unfold serve. rewrite E. cbn [bind]. rewrite Op, Hr, drop_app_exact.
  destruct (is_file (c_config cn) m r x y Hp Nm Nr) as (v & Ev & Sv). rewrite Ev. destruct v; [exfalso; apply Nf, Sv; reflexivity|]. rewrite Hl. reflexivity.
Qed.
(** The resources. *)
Lemma eq_word : forall r y (s t : string), no_nul r -> same_i r (b s) -> no_nul (b t) -> equals_i (r ++ 0 :: y) t = Ret (if list_eq_dec Z.eq_dec (map lower (b s)) (map lower (b t)) then true else false).
Proof.
  intros r y s t Nr S Nt. destruct (equals_i_spec r y t Nr Nt) as (v & -> & Sv). f_equal. unfold same_i in *. destruct (list_eq_dec _ _ _) as [Q|Q]; [apply Sv; congruence|]. destruct v; [|reflexivity]. exfalso. apply Q. rewrite <- S. apply Sv. reflexivity.
Qed.
Definition bad_of (x : string) : list (wcall * list Z) := text_response "400" "Bad Request" (invalid_text x).
Lemma route_number : forall m r y s name hi st mk ex, no_nul r -> takes r name hi st mk ex -> read_request e m (r ++ 0 :: y) s = read_command e name hi st (bad_of ex) mk m s.
Proof.
  intros m r y s name hi st mk ex Nr T. unfold read_request. destruct T as [S|S|S].
  - rewrite (eq_word r y _ "/power" Nr S) by nn. reflexivity.
  - rewrite (eq_word r y _ "/power" Nr S) by nn. cbn [bind]. rewrite (eq_word r y _ "/turn" Nr S) by nn. reflexivity.
  - rewrite (eq_word r y _ "/power" Nr S) by nn. cbn [bind]. rewrite (eq_word r y _ "/turn" Nr S) by nn. cbn [bind]. rewrite (eq_word r y _ "/autos" Nr S) by nn. cbn [bind]. rewrite (eq_word r y _ "/servo" Nr S) by nn. reflexivity.
Qed.
Lemma route_autos : forall m r y s, no_nul r -> same_i r (b "/autos") -> read_request e m (r ++ 0 :: y) s = read_autos m s.
Proof.
  intros m r y s Nr S. unfold read_request. rewrite (eq_word r y _ "/power" Nr S) by nn. cbn [bind]. rewrite (eq_word r y _ "/turn" Nr S) by nn. cbn [bind]. rewrite (eq_word r y _ "/autos" Nr S) by nn. reflexivity.
Qed.
Lemma route_shutdown : forall m r y s, no_nul r -> same_i r (b "/shutdown") -> read_request e m (r ++ 0 :: y) s = read_shutdown m s.
Proof.
  intros m r y s Nr S. unfold read_request. rewrite (eq_word r y _ "/power" Nr S) by nn. cbn [bind]. rewrite (eq_word r y _ "/turn" Nr S) by nn. cbn [bind]. rewrite (eq_word r y _ "/autos" Nr S) by nn.
  cbn [bind]. rewrite (eq_word r y _ "/servo" Nr S) by nn. cbn [bind]. rewrite (eq_word r y _ "/shutdown" Nr S) by nn. reflexivity.
Qed.
Lemma route_unknown : forall m r y s, no_nul r -> ~ known r -> read_request e m (r ++ 0 :: y) s = Ret (Refuse (text_response "404" "Not Found" "The requested resource was not found."), s).
Proof.
  intros m r y s Nr K. unfold read_request, known in *.
  destruct (equals_i_spec r y "/power" Nr ltac:(nn)) as (v1 & -> & S1). cbn [bind]. destruct v1; [exfalso; apply K; rewrite <- S1; auto|].
  destruct (equals_i_spec r y "/turn" Nr ltac:(nn)) as (v2 & -> & S2). cbn [bind]. destruct v2; [exfalso; apply K; rewrite <- S2; auto|].
  destruct (equals_i_spec r y "/autos" Nr ltac:(nn)) as (v3 & -> & S3). cbn [bind]. destruct v3; [exfalso; apply K; rewrite <- S3; auto|].
  destruct (equals_i_spec r y "/servo" Nr ltac:(nn)) as (v4 & -> & S4). cbn [bind]. destruct v4; [exfalso; apply K; rewrite <- S4; auto 10|].
  destruct (equals_i_spec r y "/shutdown" Nr ltac:(nn)) as (v5 & -> & S5). cbn [bind]. destruct v5; [exfalso; apply K; rewrite <- S5; auto 10|]. reflexivity.
Qed.
End Serving.

(** ** Ends of requests *)
Lemma plain_done : forall (c' : car) sh s text, is_good s = true -> zlen text < 2 ^ 64 ->
  exists a, (do w <- write_calls response (ok_response text) (server_writer s true); Ret ({| a_file := None; a_shut := sh; a_calls := ok_response text; a_out := wout w |}, c')) = Ret (a, c') /\
    a_shut a = sh /\ responds (a_out a) (b "200") (b "OK") (Some (b "text/plain; charset=utf-8")) text.
Proof.
  intros c' sh s text G L. rewrite (server_writer_good _ G). destruct (simple_out (b "200") (b "OK") text_plain text) as (w & W & O); [discriminate|apply code_digits; reflexivity|apply ok_text; reflexivity|exact plain_sent|exact L|].
  unfold ok_response. fold (b "200") (b "OK"). change (bytes_of_string "200") with (b "200"). change (bytes_of_string "OK") with (b "OK"). rewrite W. cbn [bind]. eexists. split; [reflexivity|]. split; [reflexivity|]. exact O.
Qed.
Lemma refuse_done : forall (c' : car) s (code reason text : string), is_good s = true ->
  forallb is_digit (b code) = true -> b code <> [] -> forallb is_abcprint_or_space (b reason) = true -> match b reason with c :: _ => is_abcprint c = true | [] => True end -> zlen (b text) < 2 ^ 64 ->
  exists a, (do w <- write_calls response (text_response code reason text) (server_writer s true); Ret ({| a_file := None; a_shut := false; a_calls := text_response code reason text; a_out := wout w |}, c')) = Ret (a, c') /\
    a_shut a = false /\ text_reply (a_out a) code reason text.
Proof.
  intros c' s code reason text G D N R1 R2 L. rewrite (server_writer_good _ G). destruct (simple_out (b code) (b reason) text_plain (b text)) as (w & W & O); [exact N|apply code_digits, D|apply ok_text; assumption|exact plain_sent|exact L|].
  change (text_response code reason text) with (simple_response (b code) (b reason) text_plain (b text)). rewrite W. cbn [bind]. eexists. split; [reflexivity|]. split; [reflexivity|]. exact O.
Qed.

(** ** Texts *)
Lemma show_text : forall n, - 2 ^ 63 <= n < 2 ^ 63 -> int_text (show n) n.
Proof.
  intros n H. unfold int_text, show, sign. destruct (n <? 0) eqn:E.
  - exists (decimal (- n)). split; [|reflexivity]. rewrite Z.abs_neq by lia. apply decimal_spec. lia.
  - exists (decimal n). split; [|reflexivity]. rewrite Z.abs_eq by lia. apply decimal_spec. lia.
Qed.
Lemma show_len : forall n, -1000 < n < 1000 -> (length (show n) <= 4)%nat.
Proof.
  intros n H. unfold show. destruct (n <? 0) eqn:E; cbn [length].
  - pose proof (decimal_len (- n) 3 ltac:(change (10 ^ Z.of_nat 3) with 1000; lia) ltac:(lia)). lia.
  - pose proof (decimal_len n 3 ltac:(change (10 ^ Z.of_nat 3) with 1000; lia) ltac:(lia)). lia.
Qed.

(** ** Numbers *)
Lemma whole_part_quot : forall q n, whole_part q n -> n = Z.quot (Qnum q) (Zpos (Qden q)).
Proof.
  intros [a d] n (P & N). unfold Qle, Qlt, inject_Z in *. cbn in *. destruct (Z.leb_spec 0 a) as [H|H].
  - specialize (P ltac:(lia)). rewrite Z.quot_div_nonneg by lia. apply Z.div_unique_pos with (r := a - n * Z.pos d); lia.
  - specialize (N ltac:(lia)). replace a with (- (- a)) by lia. rewrite Z.quot_opp_l by lia. rewrite Z.quot_div_nonneg by lia. rewrite <- (Z.div_unique_pos (- a) (Z.pos d) (- n) (- a - (- n) * Z.pos d)) by lia. lia.
Qed.
Lemma whole_part_of : forall q, whole_part q (Z.quot (Qnum q) (Zpos (Qden q))).
Proof.
  intros [a d]. unfold whole_part, Qle, Qlt, inject_Z. cbn. split; intros H0.
  - rewrite Z.quot_div_nonneg by lia. pose proof (Z.mul_div_le a (Z.pos d) ltac:(lia)). pose proof (Z.mul_succ_div_gt a (Z.pos d) ltac:(lia)). lia.
  - replace a with (- (- a)) by lia. rewrite Z.quot_opp_l by lia. rewrite Z.quot_div_nonneg by lia. pose proof (Z.mul_div_le (- a) (Z.pos d) ltac:(lia)). pose proof (Z.mul_succ_div_gt (- a) (Z.pos d) ltac:(lia)). lia.
Qed.
Lemma within_whole : forall q n hi, within (Some q) hi -> whole_part q n -> - hi <= n <= hi.
Proof.
  intros q n hi (q' & E & A & B) (P & N). injection E as <-. destruct (Qlt_le_dec q 0) as [H|H].
  - destruct (N (Qlt_le_weak _ _ H)) as (N1 & N2). pose proof (Qle_trans _ _ _ A N2) as X. rewrite <- Zle_Qle in X. pose proof (Qlt_trans _ _ _ N1 H) as Y. change 0%Q with (inject_Z 0) in Y. rewrite <- Zlt_Qlt in Y. lia.
  - destruct (P H) as (P1 & P2). pose proof (Qle_trans _ _ _ P1 B) as X. rewrite <- Zle_Qle in X. pose proof (Qle_lt_trans _ _ _ H P2) as Y. change 0%Q with (inject_Z 0) in Y. rewrite <- Zlt_Qlt in Y. lia.
Qed.
Lemma found_number : forall e name hi v x, number_in name v = Some x -> within (e_atof e x) hi -> exists q, e_atof e x = Some q /\ number_found e name hi v = Some (Z.quot (Qnum q) (Zpos (Qden q))).
Proof.
  intros e name hi v x E (q & A & B & C). exists q. split; [exact A|]. unfold number_found. rewrite E, A. apply Qle_bool_iff in B, C. rewrite B, C. reflexivity.
Qed.
Lemma found_none : forall e name hi v, number_found e name hi v = None -> number_in name v = None \/ exists x, number_in name v = Some x /\ ~ within (e_atof e x) hi.
Proof.
  intros e name hi v H. unfold number_found in H. destruct (number_in name v) as [x|]; [|auto]. right. exists x. split; [reflexivity|]. intros (q & A & B & C). rewrite A in H. apply Qle_bool_iff in B, C. rewrite B, C in H. discriminate H.
Qed.

(** ** Commands with a number *)
Lemma reply_text : forall e x c rp c', well c -> acceptable x -> (exists n, x = Power n \/ x = Turn n \/ x = Servo n) -> run (perform e x) c = (rp, c') ->
  exists text, rp = Ret (ok_response text) /\ reports x c' text /\ zlen text < 2 ^ 64 /\ closing c' = closing c.
Proof.
  intros e x c rp c' (Wp & Wt) A (n & [-> |[-> | ->]]) H.
  - rewrite perform_power in H. rewrite (pair_snd _ _ _ _ _ _ H). apply (f_equal fst) in H. cbn [fst] in H. subst rp. eexists. split; [reflexivity|]. pose proof (five_range _ (five_steps _ A)) as R.
    assert (-90 <= (if n =? 0 then 0 else turn c) <= 90) as T. { destruct (n =? 0); [lia|]. apply seven_steps in Wt. apply Wt. }
    split; [|split; [|reflexivity]].
    + exists (show (Z.abs n)), (show (if n =? 0 then 0 else turn c)). split; [apply show_text; cbn [power new_power]; lia|]. split; [apply show_text; cbn [turn new_power]; lia|].
      unfold power_text. cbn [forward new_power]. destruct (0 <=? n); reflexivity.
    + unfold zlen, power_text. repeat rewrite app_length. pose proof (show_len (Z.abs n) ltac:(lia)). pose proof (show_len (if n =? 0 then 0 else turn c) ltac:(lia)).
      assert (length (if 0 <=? n then [49] else [48]) = 1%nat) as -> by (destruct (0 <=? n); reflexivity). change (length (b "power: forward=")) with 15%nat. change (length (b ", power=")) with 8%nat. change (length (b ", turn=")) with 7%nat. lia.
  - rewrite perform_turn in H. rewrite (pair_snd _ _ _ _ _ _ H). apply (f_equal fst) in H. cbn [fst] in H. subst rp. eexists. split; [reflexivity|]. pose proof (five_range _ Wp) as R. pose proof (proj1 A) as T. cbn in T.
    split; [|split; [|reflexivity]].
    + exists (show (power c)), (show n). split; [apply show_text; change (power (puts (drive_outs (forward c) (left_of (power c) n) (right_of (power c) n)) (set_turn n c))) with (power c); lia|]. split; [apply show_text; change (turn (puts (drive_outs (forward c) (left_of (power c) n) (right_of (power c) n)) (set_turn n c))) with n; lia|]. reflexivity.
    + unfold zlen, turn_text. repeat rewrite app_length. pose proof (show_len (power c) ltac:(lia)). pose proof (show_len n ltac:(lia)). change (length (b "turn: power=")) with 12%nat. change (length (b ", turn=")) with 7%nat. lia.
  - rewrite perform_servo in H. rewrite (pair_snd _ _ _ _ _ _ H). apply (f_equal fst) in H. cbn [fst] in H. subst rp. eexists. split; [reflexivity|]. pose proof (proj1 A) as T. cbn in T.
    split; [|split; [|reflexivity]].
    + exists (show n). split; [apply show_text; lia|]. reflexivity.
    + unfold zlen. repeat rewrite app_length. pose proof (show_len n ltac:(lia)). change (length (b "servo: angle=")) with 13%nat. lia.
Qed.
Lemma invalid_len : forall r name hi st mk ex, takes r name hi st mk ex -> zlen (b (invalid_text ex)) < 2 ^ 64 /\ no_nul (b name) /\ 0 < st /\ (forall n, fits_steps n hi st -> acceptable (mk n)) /\ (forall n, exists k, mk n = Power k \/ mk n = Turn k \/ mk n = Servo k).
Proof. intros r name hi st mk ex [H|H|H]; (split; [reflexivity|]); (split; [nn|]); (split; [lia|]); (split; [intros n F; exact F|]); intros n; exists n; auto. Qed.
Lemma command_answer : forall cn root e c l m r hs body v name hi st mk ex, well c -> closing c = false -> ready cn root -> sized e -> full_request root l m r hs body -> ~ file_asked (c_config cn) m r ->
  same_i m (b "POST") -> takes r name hi st mk ex -> Forall header_fits hs -> json_type hs -> body_says body v -> readable v -> (length body + 4 < e_fuel e)%nat ->
  exists a c', serve cn e c l = Ret (a, c') /\ a_shut a = false /\
    (number_in name v = None -> c' = c /\ text_reply (a_out a) "400" "Bad Request" (invalid_text ex)) /\
    (forall x, number_in name v = Some x -> ~ within (e_atof e x) hi -> c' = c /\ text_reply (a_out a) "400" "Bad Request" (invalid_text ex)) /\
    (forall x q n, number_in name v = Some x -> e_atof e x = Some q -> within (Some q) hi -> whole_part q n ->
       (fits_steps n hi st -> obeys (mk n) c c' /\ done_reply (a_out a) (mk n) c') /\
       (~ fits_steps n hi st -> c' = c /\ text_reply (a_out a) "400" "Bad Request" "Value not in range.")).
Proof.
  intros cn root e c l m r hs bd v name hi st mk ex W Op Rd Se (p & El & Ok & Lm & Lr & Lp) Nf Pm T Fh J B Rv Hf.
  destruct (invalid_len _ _ _ _ _ _ T) as (Li & Nn & Hst & Acc & Kind).
  destruct (car_raw cn root e c Rd Op l m r p _ El Ok Lm Lr Lp Nf) as (x & y & g & Nm & Nr & ->). rewrite (route_number e _ _ _ _ _ _ _ _ _ Nr T).
  assert (read_command e name hi st (bad_of ex) mk (m ++ 0 :: x) (N header_name g (header_lines hs ++ CRLF ++ bd)) =
    match number_found e name hi v with None => Ret (Refuse (bad_of ex), N Http_Model.body 0 bd) | Some n => if in_range n hi st then Ret (Found (mk n), N Http_Model.body 0 bd) else Ret (Refuse not_in_range, N Http_Model.body 0 bd) end) as ->.
  { unfold read_command. destruct (equals_i_spec m x "POST" Nm ltac:(nn)) as (u & -> & Su). cbn [bind]. rewrite (proj2 Su Pm). cbn [negb].
    rewrite (verify_json e Se hs _ g bd Fh J (enough hs g bd)). cbn [bind]. rewrite (number_read e Se name hi (N Http_Model.body 0 bd) bd v Nn eq_refl B Rv Hf). reflexivity. }
  destruct (number_found e name hi v) as [n|] eqn:Fd.
  - assert (exists t q, number_in name v = Some t /\ e_atof e t = Some q /\ n = Z.quot (Qnum q) (Zpos (Qden q))) as (t & q & Et & Eq & En).
    { unfold number_found in Fd. destruct (number_in name v) as [t|]; [|discriminate Fd]. destruct (e_atof e t) as [q|] eqn:Eq; [|discriminate Fd]. exists t, q. split; [reflexivity|]. split; [exact Eq|]. destruct (_ && _); [|discriminate Fd]. injection Fd as <-. reflexivity. }
    assert (forall X : Prop, number_in name v = None -> X) as No1 by (intros X H; congruence).
    assert (forall (X : Prop) x, number_in name v = Some x -> ~ within (e_atof e x) hi -> X) as No2.
    { intros X t' Et' Nw. exfalso. apply Nw. rewrite Et in Et'. injection Et' as <-. unfold number_found in Fd. rewrite Et, Eq in Fd. destruct (_ && _) eqn:Q; [|discriminate Fd]. apply andb_true_iff in Q. destruct Q as (Q1 & Q2). apply Qle_bool_iff in Q1, Q2. exists q. auto. }
    assert (forall x q' n', number_in name v = Some x -> e_atof e x = Some q' -> whole_part q' n' -> n' = n) as Same.
    { intros t' q' n' Et' Eq' Wn. rewrite Et in Et'. injection Et' as <-. rewrite Eq in Eq'. injection Eq' as <-. rewrite En. apply whole_part_quot, Wn. }
    destruct (in_range n hi st) eqn:Ir.
    + cbn [bind]. destruct (run (perform e (mk n)) c) as (rp, c') eqn:P. pose proof (in_range_fits _ _ _ Hst Ir) as F.
      destruct (reply_text _ _ _ _ _ W (Acc n F) (Kind n) P) as (text & -> & Rp & Lt & Cl). cbn [bind]. rewrite Cl, Op.
      destruct (plain_done c' false (N Http_Model.body 0 bd) text eq_refl Lt) as (a & A1 & A2 & A3). exists a, c'. split; [exact A1|]. split; [exact A2|]. split; [apply No1|]. split; [intros t'; apply No2|].
      intros t' q' n' Et' Eq' _ Wn. rewrite (Same _ _ _ Et' Eq' Wn). split; [|intros X; contradiction]. intros _. split; [exact (perform_obeyed _ _ _ _ _ W (Acc n F) P)|]. exists text. auto.
    + cbn [bind]. unfold not_in_range. destruct (refuse_done c (N Http_Model.body 0 bd) "400" "Bad Request" "Value not in range." eq_refl eq_refl ltac:(discriminate) eq_refl eq_refl eq_refl) as (a & A1 & A2 & A3).
      exists a, c. split; [exact A1|]. split; [exact A2|]. split; [apply No1|]. split; [intros t'; apply No2|].
      intros t' q' n' Et' Eq' _ Wn. rewrite (Same _ _ _ Et' Eq' Wn). split; [|auto]. intros F. exfalso. exact (in_range_iff _ _ _ Hst Ir F).
  - cbn [bind]. unfold bad_of. destruct (refuse_done c (N Http_Model.body 0 bd) "400" "Bad Request" (invalid_text ex) eq_refl eq_refl ltac:(discriminate) eq_refl eq_refl Li) as (a & A1 & A2 & A3).
    exists a, c. split; [exact A1|]. split; [exact A2|]. split; [auto|]. split; [auto|]. intros t' q' n' Et' Eq' Wi _. exfalso. rewrite <- Eq' in Wi. destruct (found_number _ _ _ _ _ Et' Wi) as (q2 & _ & X). congruence.
Qed.

(** ** Types of bodies *)
Lemma command_types : forall cn root e c l m r hs body name hi st mk ex, closing c = false -> ready cn root -> sized e -> full_request root l m r hs body -> ~ file_asked (c_config cn) m r ->
  same_i m (b "POST") -> takes r name hi st mk ex -> Forall header_fits hs ->
  (other_type hs -> exists a, serve cn e c l = Ret (a, c) /\ a_shut a = false /\ text_reply (a_out a) "400" "Bad Request" "'application/json' is the only supported Content-Type.") /\
  (two_types hs -> exists a, serve cn e c l = Ret (a, c) /\ a_shut a = false /\ text_reply (a_out a) "400" "Bad Request" "The Content-Type header was supplied more than once.") /\
  (no_type hs -> exists a, serve cn e c l = Ret (a, c) /\ a_out a = []).
Proof.
  intros cn root e c l m r hs bd name hi st mk ex Op Rd Se (p & El & Ok & Lm & Lr & Lp) Nf Pm T Fh.
  destruct (car_raw cn root e c Rd Op l m r p _ El Ok Lm Lr Lp Nf) as (x & y & g & Nm & Nr & ->). rewrite (route_number e _ _ _ _ _ _ _ _ _ Nr T).
  unfold read_command. destruct (equals_i_spec m x "POST" Nm ltac:(nn)) as (u & -> & Su). cbn [bind]. rewrite (proj2 Su Pm). cbn [negb].
  split; [|split]; intros H.
  - destruct (verify_other e Se hs _ g bd Fh H (enough hs g bd)) as (s & Gs & E). rewrite E. cbn [bind]. apply refuse_done; try assumption; try reflexivity; discriminate.
  - destruct (verify_two e Se hs _ g bd Fh H (enough hs g bd)) as (s & Gs & E). rewrite E. cbn [bind]. apply refuse_done; try assumption; try reflexivity; discriminate.
  - rewrite (verify_none e Se hs _ g bd Fh H (enough hs g bd)). cbn [bind]. eexists. split; reflexivity.
Qed.

(** ** Refusals, shutdown, sensors *)
Section Plain.
Variables (cn : conn) (root : list Z) (e : env) (c : car) (l m r : list Z).
Hypothesis Rd : ready cn root.
Hypothesis Op : closing c = false.
Hypothesis Q : request_line root l m r.
Hypothesis Nf : ~ file_asked (c_config cn) m r.
Lemma unknown_answer : ~ known r -> exists a, serve cn e c l = Ret (a, c) /\ a_shut a = false /\ text_reply (a_out a) "404" "Not Found" "The requested resource was not found.".
Proof.
  intros K. destruct Q as (p & rest & El & Ok & Lm & Lr & Lp). destruct (car_raw cn root e c Rd Op l m r p rest El Ok Lm Lr Lp Nf) as (x & y & g & Nm & Nr & ->). rewrite (route_unknown e _ _ _ _ Nr K). cbn [bind].
  apply refuse_done; try reflexivity; discriminate.
Qed.
Lemma post_answer : (exists name hi st mk ex, takes r name hi st mk ex) \/ same_i r (b "/shutdown") -> ~ same_i m (b "POST") ->
  exists a, serve cn e c l = Ret (a, c) /\ a_shut a = false /\ text_reply (a_out a) "405" "Method Not Allowed" "Expected method POST for this request.".
Proof.
  intros K Np. destruct Q as (p & rest & El & Ok & Lm & Lr & Lp). destruct (car_raw cn root e c Rd Op l m r p rest El Ok Lm Lr Lp Nf) as (x & y & g & Nm & Nr & ->).
  destruct (equals_i_spec m x "POST" Nm ltac:(nn)) as (u & E & Su). destruct u; [exfalso; apply Np, Su; reflexivity|].
  destruct K as [(name & hi & st & mk & ex & T)|S].
  - rewrite (route_number e _ _ _ _ _ _ _ _ _ Nr T). unfold read_command. rewrite E. cbn [bind negb]. apply refuse_done; try reflexivity; discriminate.
  - rewrite (route_shutdown e _ _ _ _ Nr S). unfold read_shutdown. rewrite E. cbn [bind]. apply refuse_done; try reflexivity; discriminate.
Qed.
Lemma get_answer : same_i r (b "/autos") -> ~ same_i m (b "GET") -> exists a, serve cn e c l = Ret (a, c) /\ a_shut a = false /\ text_reply (a_out a) "405" "Method Not Allowed" "Expected method GET for this request.".
Proof.
  intros S Np. destruct Q as (p & rest & El & Ok & Lm & Lr & Lp). destruct (car_raw cn root e c Rd Op l m r p rest El Ok Lm Lr Lp Nf) as (x & y & g & Nm & Nr & ->).
  destruct (equals_i_spec m x "GET" Nm ltac:(nn)) as (u & E & Su). destruct u; [exfalso; apply Np, Su; reflexivity|].
  rewrite (route_autos e _ _ _ _ Nr S). unfold read_autos. rewrite E. cbn [bind]. apply refuse_done; try reflexivity; discriminate.
Qed.
Lemma shutdown_answer : joined c = false -> same_i r (b "/shutdown") -> same_i m (b "POST") -> exists a c', serve cn e c l = Ret (a, c') /\ a_shut a = true /\ stopped_serving c c' /\ done_reply (a_out a) Shutdown c'.
Proof.
  intros J S Pm. destruct Q as (p & rest & El & Ok & Lm & Lr & Lp). destruct (car_raw cn root e c Rd Op l m r p rest El Ok Lm Lr Lp Nf) as (x & y & g & Nm & Nr & ->).
  destruct (equals_i_spec m x "POST" Nm ltac:(nn)) as (u & E & Su). rewrite (proj2 Su Pm) in E. rewrite (route_shutdown e _ _ _ _ Nr S). unfold read_shutdown. rewrite E. cbn [bind].
  rewrite (perform_shutdown e c J). cbn [bind]. destruct (plain_done (shut_car c) true (N header_name g rest) (b "Server is shuting down...") eq_refl eq_refl) as (a & A1 & A2 & A3).
  exists a, (shut_car c). split; [exact A1|]. split; [exact A2|]. split; [reflexivity|]. eexists. split; [|exact A3]. reflexivity.
Qed.
(** Numbers of the sensors, texts of the position. *)
Lemma number_nn : forall t, Json_Spec.number_text t -> no_nul t.
Proof.
  assert (forall x, Json_Spec.digits1 x -> no_nul x) as D. { intros x (_ & F). eapply Forall_impl; [|exact F]. unfold Json_Spec.dig. intros a A. lia. }
  intros t (sg & i & f & x & -> & Sg & I & _ & F & X). repeat apply nn_app; [destruct Sg as [-> | ->]; repeat constructor; lia|apply D, I| |].
  - destruct F as [->|(y & -> & Y)]; [constructor|]. constructor; [lia|apply D, Y].
  - destruct X as [->|(y & s & d & -> & Y & Ys & Yd)]; [constructor|]. constructor; [lia|]. apply nn_app; [destruct Ys as [-> |[-> | ->]]; repeat constructor; lia|apply D, Yd].
Qed.
Lemma report_written : sized e -> measured c -> json_text (e_body e 513) (autos_tokens (obstacle c) (gray_left c) (gray_center c) (gray_right c) (depth c) (width c)) = Ret (compact (sensor_report c)) /\
  zlen (compact (sensor_report c)) < 2 ^ 64 /\ Json_Spec.val Json_Spec.rfc_char (sensor_report c) (compact (sensor_report c)).
Proof.
  intros (_ & _ & Sb) (Ho & Hl & Hc & Hr & (Vd & Ld) & (Vw & Lw)). change (10 ^ 15) with 1000000000000000 in *.
  assert (zlen (compact (sensor_report c)) <= 400) as Lc.
  { unfold zlen in *. unfold sensor_report. cbn [compact map join_with]. unfold quoted, jint. cbn [compact]. repeat (rewrite app_length || cbn [length]).
    pose proof (decimal_len (obstacle c) 15 ltac:(change (10 ^ Z.of_nat 15) with 1000000000000000; lia) ltac:(lia)). pose proof (decimal_len (gray_left c) 15 ltac:(change (10 ^ Z.of_nat 15) with 1000000000000000; lia) ltac:(lia)).
    pose proof (decimal_len (gray_center c) 15 ltac:(change (10 ^ Z.of_nat 15) with 1000000000000000; lia) ltac:(lia)). pose proof (decimal_len (gray_right c) 15 ltac:(change (10 ^ Z.of_nat 15) with 1000000000000000; lia) ltac:(lia)).
    change (length (b "obstacle")) with 8%nat. change (length (b "distance")) with 8%nat. change (length (b "units")) with 5%nat. change (length (b "cm")) with 2%nat. change (length (b "grayscale")) with 9%nat.
    change (length (b "left")) with 4%nat. change (length (b "center")) with 6%nat. change (length (b "right")) with 5%nat. change (length (b "depth")) with 5%nat. change (length (b "width")) with 5%nat. lia. }
  split; [|split; [lia|]].
  - change (autos_tokens (obstacle c) (gray_left c) (gray_center c) (gray_right c) (depth c) (width c)) with (Json_Spec.tokens (sensor_report c)). apply json_text_ok; [cbn; lia|rewrite Sb by lia; lia|].
    unfold sensor_report. cbn [Json_Spec.tokens flat_map app jint]. repeat constructor; try (apply decimal_nn; lia); try (apply number_nn; assumption); cbn; try (repeat constructor; discriminate).
  - assert (forall t, Json_Spec.val Json_Spec.rfc_char t (compact t) -> Json_Spec.val Json_Spec.rfc_char (Json_Spec.JObj [(b "distance", t); (b "units", Json_Spec.JStr (b "cm"))]) (compact (Json_Spec.JObj [(b "distance", t); (b "units", Json_Spec.JStr (b "cm"))]))) as Cm.
    { intros t T. apply obj_val. constructor; [split; [apply name_fair; reflexivity|exact T]|]. constructor; [|constructor]. split; [apply name_fair; reflexivity|]. cbn [snd compact]. unfold quoted. apply (Json_Spec.v_str _ (b "cm") (b "cm")), name_fair; reflexivity. }
    apply obj_val. constructor; [split; [apply name_fair; reflexivity|apply Cm, int_val; lia]|]. constructor.
    { split; [apply name_fair; reflexivity|]. apply obj_val. repeat (constructor; [split; [apply name_fair; reflexivity|apply int_val; cbn; lia]|]). constructor. }
    constructor; [split; [apply name_fair; reflexivity|apply Cm; cbn [compact]; constructor; exact Vd]|]. constructor; [split; [apply name_fair; reflexivity|apply Cm; cbn [compact]; constructor; exact Vw]|]. constructor.
Qed.
Lemma autos_answer : sized e -> measured c -> same_i r (b "/autos") -> same_i m (b "GET") -> exists a, serve cn e c l = Ret (a, c) /\ a_shut a = false /\ json_ok (a_out a) (sensor_report c).
Proof.
  intros Se Me S Gm. destruct (report_written Se Me) as (Jt & Lt & V). destruct Q as (p & rest & El & Ok & Lm & Lr & Lp). destruct (car_raw cn root e c Rd Op l m r p rest El Ok Lm Lr Lp Nf) as (x & y & g & Nm & Nr & ->).
  destruct (equals_i_spec m x "GET" Nm ltac:(nn)) as (u & E & Su). rewrite (proj2 Su Gm) in E. rewrite (route_autos e _ _ _ _ Nr S). unfold read_autos. rewrite E. cbn [bind].
  rewrite perform_autos, Jt. cbn [bind]. rewrite Op.
  match goal with |- context [server_writer ?s true] => rewrite (server_writer_good s eq_refl) end.
  destruct (simple_out (b "200") (b "OK") application_json (compact (sensor_report c))) as (w & W & O); [discriminate|apply code_digits; reflexivity|apply ok_text; reflexivity|exact json_sent|exact Lt|].
  unfold json_response. change (bytes_of_string "200") with (b "200"). change (bytes_of_string "OK") with (b "OK"). rewrite W. cbn [bind]. eexists. split; [reflexivity|]. split; [reflexivity|]. split; [exact O|exact V].
Qed.
End Plain.
