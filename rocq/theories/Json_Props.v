(** C03-C09: the JSON reader and writer. *)

From Coq Require Import String ZArith List Bool Lia.
From Verif Require Import Base ListMem Ascii_Model Table_Model Json_Model Json_Spec Json_Proofs Json_Writer Json_Safety Json_Final.
Import ListNotations.
Open Scope string_scope.
Open Scope list_scope.
Open Scope Z_scope.

Definition s2b := bytes_of_string.

(** C03: whatever calls (with white space in between) put the tokens of a value, the writer
    stays good and the reader gets exactly these tokens from the text, stays good and has only
    white space and what followed the text before it.  Missing: a top-level number needs a
    character after it (C03_top_number_refuted). *)
Theorem C03_round_trip_partial : forall v ops Lw Lr rest fuel bufs,
  op_tokens ops = tokens v -> Forall (op_ok any_char) ops -> depth v <= Lw -> depth v <= Lr ->
  Forall num_fits (tokens v) -> (is_num v = true -> number_over rest) ->
  (forall i, 16 <= zlen (bufs i) < 2 ^ 64 /\ Forall (tok_fits (zlen (bufs i))) (tokens v)) ->
  let w := put_ops (writer Lw None) ops in
  (length (out w) + length rest + 2 < fuel)%nat ->
  wbad w = false /\
  exists sp s', get_tokens fuel (length (tokens v)) bufs (reader Lr (out w ++ rest)) = Ret (map Some (tokens v), s')
    /\ is_good s' = true /\ ws sp /\ inp s' = sp ++ rest /\ levels s' = 0.
Proof.
  intros v ops Lw Lr rest fuel bufs Ho Hok Hw Hr Hn Hnum Hb w Hf.
  destruct (writer_accepts Lw v ops Hw Ho) as (G & K). split; [exact G|].
  assert (0 <= Lw) by (revert Hw; clear; intro; enough (0 <= depth v) by lia; destruct v; cbn [depth]; try lia;
    match goal with |- context[fold_right Z.max 0 ?l] => assert (0 <= fold_right Z.max 0 l) by (induction l; cbn [fold_right]; lia) end; lia).
  destruct (writer_docs any_char Lw None ops) as (vs & E & D & _); auto. rewrite Ho in E. apply one_value in E. subst vs.
  apply docs_one in D. eapply document_read; eassumption.
Qed.

Definition sample : jv := JObj [(s2b "a b", JArr [JNum (s2b "-1.5e+3"); JStr (s2b "x"); JNull]); ([], JBool true)].
Definition sample_ops : list put_op :=
  [Ws 32; Tok TBegO; Ws 10; Tok (TProp (s2b "a b")); Ws 32; Tok TBegA; Tok (TNum (s2b "-1.5e+3")); Tok (TStr (s2b "x")); Ws 9; Tok TNull; Tok TEndA;
   Tok (TProp []); Tok (TBool true); Tok TEndO; Ws 13].
Example C03_ex : op_tokens sample_ops = tokens sample /\ Forall (op_ok any_char) sample_ops /\ depth sample = 2 /\ Forall num_fits (tokens sample)
  /\ Forall (tok_fits 16) (tokens sample)
  /\ out (put_ops (writer 2 None) sample_ops) = s2b " {" ++ [10] ++ s2b """a b"": [-1.5e+3,""x""" ++ [9] ++ s2b ",null],"""":true}" ++ [13].
Proof.
  assert (N : number_text (s2b "-1.5e+3")).
  { exists (s2b "-"), (s2b "1"), (s2b ".5"), (s2b "e+3"). split; [reflexivity|]. split; [auto|]. split; [split; [discriminate|]; repeat constructor; cbv; discriminate|].
    split; [right; cbv; discriminate|]. split; right.
    - exists (s2b "5"). split; [reflexivity|]. split; [discriminate|]. repeat constructor; cbv; discriminate.
    - exists 101, (s2b "+"), (s2b "3"). split; [reflexivity|]. split; [auto|]. split; [auto|]. split; [discriminate|]. repeat constructor; cbv; discriminate. }
  split; [reflexivity|]. split; [|split; [reflexivity|split; [|split; [|reflexivity]]]].
  - unfold sample_ops, op_ok, is_ws, plain_string, any_char. repeat constructor; auto 10; try (cbv; discriminate); exact N.
  - unfold sample. cbn [tokens flat_map app]. repeat constructor. cbv. discriminate.
  - unfold sample. cbn [tokens flat_map app]. repeat constructor; cbv; try discriminate; intuition discriminate.
Qed.

(** Full claim of C03: the stream ends good.  False for a number at the end of the input. *)
Theorem C03_top_number_refuted : exists ops, op_tokens ops = tokens (JNum [49]) /\ Forall (op_ok any_char) ops /\
  forall buf, zlen buf = 16 -> exists s',
   get_tokens 10 1 (fun _ => buf) (reader 4 (out (put_ops (writer 4 None) ops))) = Ret ([Some (TNum [49])], s') /\ is_good s' = false.
Proof.
  exists [Tok (TNum [49])]. split; [reflexivity|]. split.
  - constructor; [|constructor]. exists [], [49], [], []. split; [reflexivity|]. split; [auto|]. split; [split; [discriminate|]; repeat constructor; cbv; discriminate|].
    split; [right; cbv; discriminate|]. auto.
  - intros buf Hb. cbn [get_tokens]. unfold get_token. rewrite Hb. cbn. eexists. split; reflexivity.
Qed.

(** C04 full claim: some fuel is enough on any input.  It is false: *)
(** - a string without a closing quote is never finished, *)
Theorem C04_unterminated_refuted : forall p L m, unquoted p -> zlen p + 11 <= zlen m -> 16 <= zlen m ->
  forall fuel, get_token fuel m (reader L (34 :: p)) = Loop.
Proof. intros p L m U H1 H2 fuel. apply token_diverges; auto. intros. apply loop_unquoted. exact U. Qed.
Example C04_unterminated_ex : unquoted (s2b "abc") /\ zlen (s2b "abc") + 11 <= zlen (repeat 1 16) /\ 16 <= zlen (repeat 1 16).
Proof. split; [|cbv; split; discriminate]. unfold unquoted. repeat constructor; cbv; discriminate. Qed.
(** - nor one with a \u escape outside 0000-00FF, *)
Definition esc (hex : String.string) : list Z := 92 :: 117 :: s2b hex.
Theorem C04_unicode_refuted : forall L m, 32 <= zlen m -> forall fuel, get_token fuel m (reader L ([34] ++ esc "1234" ++ [34])) = Loop.
Proof.
  intros L m Hm fuel. apply (token_diverges fuel L (esc "1234" ++ [34])); [replace (zlen (esc "1234" ++ [34])) with 7 by reflexivity; lia|lia|].
  intros f m' n. apply escape_diverges. intros g m2 n2. do 5 (destruct g as [|g]; [left; reflexivity|]). right. eexists _, _. split; reflexivity.
Qed.
(** - nor one in which a \u escape is followed by another hex digit. *)
Theorem C04_unicode_hex_refuted : forall L m, 32 <= zlen m -> forall fuel, get_token fuel m (reader L ([34] ++ esc "00410" ++ [34])) = Loop.
Proof.
  intros L m Hm fuel. apply (token_diverges fuel L (esc "00410" ++ [34])); [replace (zlen (esc "00410" ++ [34])) with 8 by reflexivity; lia|lia|].
  intros f m' n. apply escape_diverges. intros g m2 n2. do 5 (destruct g as [|g]; [left; reflexivity|]). right. eexists _, _. split; reflexivity.
Qed.
(** - skip_value never returns once the stream failed inside a container, for instance on an
    input that ends there. *)
Theorem C04_skip_failed_refuted : forall fuel n base s, is_good s = false -> base < levels s -> skip_loop (S fuel) n base s = Loop.
Proof. exact skip_bad. Qed.
Theorem C04_skip_open_refuted : forall fuel L, 0 < L -> skip_value fuel (reader L [91]) = Loop.
Proof.
  intros fuel L HL. destruct fuel as [|f]; [reflexivity|].
  unfold skip_value. change (levels (reader L [91])) with 0. cbn [skip_loop].
  assert (E : get_or_skip_token (S f) 0 (with_mem (reader L [91]) None) = Ret (begin_array, gst L [] [false] false None [])).
  { unfold get_or_skip_token. change (skip_spaces (S f) (with_mem (reader L [91]) None)) with (Ret (with_mem (reader L [91]) None)). cbn [bind].
    change (peek_char (with_mem (reader L [91]) None)) with (91, with_mem (reader L [91]) None). cbv iota.
    change (expect_property (with_mem (reader L [91]) None)) with false. cbv iota. unfold token_value. cbn [Z.eqb Pos.eqb is_digit is_between Z.leb Z.compare Pos.compare Pos.compare_cont andb orb].
    change (get (with_mem (reader L [91]) None)) with (91, gst L [] [] false None []). cbv iota. unfold push_level. change (levels (gst L [] [] false None [])) with 0.
    change (maxl (gst L [] [] false None [])) with L. destruct (Z.leb_spec L 0); [lia|]. reflexivity. }
  rewrite E. cbn [bind]. change (0 <? levels (gst L [] [false] false None [])) with true. cbv iota.
  destruct f as [|f]; [reflexivity|]. cbn [skip_loop].
  assert (E2 : exists s, get_or_skip_token (S (S f)) 0 (with_mem (gst L [] [false] false None []) None) = Ret (none, s) /\ is_good s = false /\ levels s = 1)
    by (eexists; split; [reflexivity|split; reflexivity]).
  destruct E2 as (s & -> & G & K). cbn [bind]. rewrite K. cbn [Z.ltb Z.compare]. apply skip_bad; [assumption|lia].
Qed.

(** Part of C04 that holds: unless a string comes next, get_token ends on every input and in
    every state, within as many steps as there are characters.  (On well-formed text every call
    ends: C03, C09.) *)
Theorem C04_no_string_partial : forall fuel m s, zlen (inp s) + 1 < Z.of_nat fuel ->
  (forall w r, inp s = w ++ 34 :: r -> ~ ws w) -> get_token fuel m s <> Loop.
Proof.
  intros fuel m s Hf Q. unfold get_token. destruct (_ <? _); [discriminate|]. apply terminates; assumption.
Qed.
Example C04_ex : forall w r, s2b " [1,""a""" = w ++ 34 :: r -> ~ ws w.
Proof.
  intros w r E W. destruct w as [|c0 [|c1 w]]; try discriminate. cbn in E. injection E as <- <- E.
  inversion W as [|? ? _ W1]. inversion W1 as [|? ? HC]. unfold is_ws in HC. lia.
Qed.

(** C05 full claim: get_token never writes outside the buffer.  False: escaped characters are
    stored without a check, *)
Theorem C05_escapes_refuted : forall m, zlen m = 16 ->
  get_token 40 m (reader 4 ([34] ++ flat_map (fun _ => [92; 110]) (seq 0 9) ++ [34])) = Oob_token.
Proof.
  intros m Hm. do 16 (destruct m as [|? m]; [discriminate Hm|]). destruct m; [|exfalso; unfold zlen in Hm; cbn [length] in Hm; lia]. vm_compute. reflexivity.
Qed.
(** and the capacity passed for plain characters is six bytes too large. *)
Theorem C05_capacity_refuted : forall m, zlen m = 16 -> get_token 40 m (reader 4 ([34] ++ s2b "abcdefgh" ++ [34])) = Oob_token.
Proof.
  intros m Hm. do 16 (destruct m as [|? m]; [discriminate Hm|]). destruct m; [|exfalso; unfold zlen in Hm; cbn [length] in Hm; lia]. vm_compute. reflexivity.
Qed.
(** A 25-digit integer followed by a point overruns the local array of digits. *)
Theorem C05_digits_refuted : forall m, zlen m = 16 -> get_token 40 m (reader 4 (repeat 49 25 ++ [46; 49; 32])) = Oob_local.
Proof.
  intros m Hm. do 16 (destruct m as [|? m]; [discriminate Hm|]). destruct m; [|exfalso; unfold zlen in Hm; cbn [length] in Hm; lia]. vm_compute. reflexivity.
Qed.
(** Parts that hold, for every input, state and number of steps: a buffer longer than the input
    (by 10) is never left; *)
Theorem C05_large_buffer_partial : forall fuel m s, zlen (inp s) + 10 <= zlen m -> get_token fuel m s <> Oob_token.
Proof.
  intros fuel m s H. unfold get_token. destruct (_ <? _) eqn:E; [discriminate|]. unfold sizeof_token in E.
  apply token_safe; intros m0 E0; injection E0 as <-; unfold value_offset, phi; cbn [inp with_mem upd_mem].
  - change (is_good _) with (is_good s). destruct (is_good s); lia.
  - lia.
Qed.
Example C05_large_ex : zlen (inp (reader 1 ([34] ++ esc "0041" ++ [92]))) + 10 <= zlen (repeat 7 18).
Proof. cbv. discriminate. Qed.
(** without a backslash in the input at most the six bytes after the buffer are written (here
    the memory has six bytes more than the size passed); *)
Theorem C05_six_bytes_partial : forall fuel m s, 16 <= zlen m - 6 < 2 ^ 63 -> ~ In 92 (inp s) ->
  get_or_skip_token fuel (zlen m - 6) (with_mem s (Some m)) <> Oob_token.
Proof.
  intros fuel m s H N. apply plain_token_safe; auto.
  - intros m0 E0. injection E0 as <-. unfold value_offset. lia.
  - discriminate.
Qed.
Example C05_six_ex : 16 <= zlen (repeat 7 22) - 6 < 2 ^ 63 /\ ~ In 92 (inp (reader 1 ([34] ++ s2b "a very long string" ++ [34])))
  /\ get_or_skip_token 99 16 (with_mem (reader 1 ([34] ++ s2b "abcdefghijklm" ++ [34])) (Some (repeat 7 21))) = Oob_token.
Proof. split; [cbv; split; [discriminate|reflexivity]|]. split; [cbn; intuition discriminate|vm_compute; reflexivity]. Qed.
(** up to 25 characters of input never overrun the array of digits. *)
Theorem C05_digits_partial : forall fuel m s, zlen (inp s) <= 25 -> get_token fuel m s <> Oob_local.
Proof. intros fuel m s H. unfold get_token. destruct (_ <? _); [discriminate|]. apply token_local. exact H. Qed.
Example C05_digits_ex : zlen (inp (reader 1 (repeat 49 20 ++ s2b ".5e-3"))) <= 25.
Proof. cbv. discriminate. Qed.

(** C06: in every history of get_token calls that leaves the stream good, on every input and with
    every buffers, the tokens nest correctly and never deeper than MaxLevels. *)
Theorem C06_nesting_partial : forall fuel n bufs L input toks s', 0 <= L ->
  get_tokens fuel n bufs (reader L input) = Ret (toks, s') -> is_good s' = true ->
  nests L (map tok_of toks).
Proof.
  intros fuel n bufs L input toks s' HL H G i.
  destruct (tokens_nest _ _ _ _ _ _ H G) as (_ & _ & N); [exact HL|]. destruct (N i) as (k & E & Hk).
  exists (open_of k). split; [exact E|]. unfold zlen, open_of in *. rewrite map_length. exact Hk.
Qed.
Example C06_ex : exists s', get_tokens 30 5 (fun _ => repeat 0 16) (reader 3 (s2b "[{""a"":[1, 2]}]"))
   = Ret ([Some TBegA; Some TBegO; Some (TProp (s2b "a")); Some TBegA; Some (TNum (s2b "1"))], s') /\ is_good s' = true.
Proof. eexists. vm_compute. split; reflexivity. Qed.
(** A level too many and a missing comma make the stream not good (so the theorem says nothing). *)
Example C06_level_ex : exists toks s', get_tokens 30 4 (fun _ => repeat 0 16) (reader 2 (s2b "[{""a"":[1, 2]}]")) = Ret (toks, s') /\ is_good s' = false.
Proof. eexists _, _. vm_compute. split; reflexivity. Qed.
(** Full claim of C06: a wrong bracket is not returned.  It is: the item says end_array, only the
    stream is not good any more. *)
Theorem C06_wrong_bracket_refuted : exists s', get_tokens 30 3 (fun _ => repeat 0 16) (reader 4 (s2b "{""a"":]"))
   = Ret ([Some TBegO; Some (TProp (s2b "a")); Some TEndA], s') /\ is_good s' = false /\ nesting [] [TBegO; TProp (s2b "a"); TEndA] = None.
Proof. eexists. vm_compute. repeat split. Qed.

(** C07: once not good, every history of get_token calls returns none each time, consumes nothing,
    leaves the levels and the buffers alone, and the stream stays not good. *)
Theorem C07_reader : forall fuel n bufs s, is_good s = false -> (forall i, 16 <= zlen (bufs i)) ->
  exists s', get_tokens (S fuel) n bufs s = Ret (repeat (Some TNone) n, s') /\ is_good s' = false /\ inp s' = inp s /\ stk s' = stk s.
Proof. intros. apply bad_tokens; assumption. Qed.
Theorem C07_reader_buffer : forall fuel m s, is_good s = false -> 16 <= zlen m ->
  exists s', get_token (S fuel) m s = Ret (none, s') /\ is_good s' = false /\ inp s' = inp s /\ mem s' = Some m.
Proof.
  intros fuel m s H Hm. unfold get_token. replace (zlen m <? sizeof_token) with false by (symmetry; apply Z.ltb_ge; exact Hm).
  destruct (bad_token fuel (zlen m) (with_mem s (Some m)) H) as (s' & E & G & I1 & K & M & _). exists s'. rewrite E, I1, M. auto.
Qed.
Example C07_reader_ex : exists toks s, get_tokens 30 2 (fun _ => repeat 0 16) (reader 4 (s2b "[} , true]")) = Ret (toks, s) /\ is_good s = false /\ inp s <> [].
Proof. eexists _, _. vm_compute. repeat split; discriminate. Qed.
(** The writer: whatever the failure (a wrong call, a full sink), nothing more is emitted. *)
Theorem C07_writer : forall w ops, wbad w = true -> wbad (put_ops w ops) = true /\ out (put_ops w ops) = out w.
Proof. intros. apply put_ops_bad; assumption. Qed.
Example C07_writer_ex : wbad (put_ops (writer 4 (Some 3%nat)) [Tok TBegA; Tok (TBool true)]) = true
  /\ wbad (put_ops (writer 1 None) [Tok TBegA; Tok TBegO]) = true /\ wbad (put_ops (writer 4 None) [Tok TBegO; Tok TNull]) = true.
Proof. vm_compute. auto. Qed.

(** C08: if a history of put calls (arguments: strings without quote, backslash and control
    characters, numbers whose printed text is a JSON number) leaves the writer good with no open
    container, then the calls are those of a sequence of values no deeper than MaxLevels and the
    text is well-formed JSON for these values, one after another with white space around them. *)
Theorem C08_well_formed_partial : forall L room ops, 0 <= L -> Forall (op_ok rfc_char) ops ->
  wbad (put_ops (writer L room) ops) = false -> wstk (put_ops (writer L room) ops) = [] ->
  exists vs, op_tokens ops = flat_map tokens vs /\ docs rfc_char vs (out (put_ops (writer L room) ops)) /\ Forall (fun v => depth v <= L) vs.
Proof. intros. apply writer_docs; assumption. Qed.
(** One value: a well-formed document.  The levels are closed by themselves. *)
Theorem C08_document_partial : forall L v ops, op_tokens ops = tokens v -> Forall (op_ok rfc_char) ops -> depth v <= L ->
  wbad (put_ops (writer L None) ops) = false /\ document rfc_char v (out (put_ops (writer L None) ops)).
Proof.
  intros L v ops Ho Hok Hd. destruct (writer_accepts L v ops Hd Ho) as (G & K). split; [exact G|].
  assert (0 <= L) by (revert Hd; clear; intro; enough (0 <= depth v) by lia; destruct v; cbn [depth]; try lia;
    match goal with |- context[fold_right Z.max 0 ?l] => assert (0 <= fold_right Z.max 0 l) by (induction l; cbn [fold_right]; lia) end; lia).
  destruct (writer_docs rfc_char L None ops) as (vs & E & D & _); auto. rewrite Ho in E. apply one_value in E. subst vs.
  apply docs_one. exact D.
Qed.
Example C08_ex : Forall (op_ok rfc_char) [Tok TBegO; Ws 32; Tok (TProp (s2b "a")); Tok TBegA; Tok TNull; Tok (TBool true); Tok TEndA; Tok TEndO]
  /\ wbad (put_ops (writer 2 (Some 18%nat)) [Tok TBegO; Ws 32; Tok (TProp (s2b "a")); Tok TBegA; Tok TNull; Tok (TBool true); Tok TEndA; Tok TEndO]) = false
  /\ wstk (put_ops (writer 2 (Some 18%nat)) [Tok TBegO; Ws 32; Tok (TProp (s2b "a")); Tok TBegA; Tok TNull; Tok (TBool true); Tok TEndA; Tok TEndO]) = []
  /\ out (put_ops (writer 2 (Some 18%nat)) [Tok TBegO; Ws 32; Tok (TProp (s2b "a")); Tok TBegA; Tok TNull; Tok (TBool true); Tok TEndA; Tok TEndO]) = s2b "{ ""a"":[null,true]}".
Proof. split; [|vm_compute; auto]. unfold op_ok, is_ws, plain_string, rfc_char. repeat constructor; auto; cbv; discriminate. Qed.
(** Full claim of C08 (every argument): false for a quote, for a number that is not finite, and
    for a control character. *)
Theorem C08_quote_refuted : let w := put_ops (writer 4 None) [Tok (TStr [34])] in wbad w = false /\ wstk w = [] /\ ~ exists v, document rfc_char v (out w).
Proof.
  split; [reflexivity|]. split; [reflexivity|]. intros (v & D). apply doc_no_ws in D; [|repeat constructor; unfold is_ws; lia].
  change (val rfc_char v [34; 34; 34]) in D. inversion D as [| | |t N E1 E2|s t St E1 E2| |]; subst.
  - apply number_head in N as (c & t' & Ec & [->|Hc]); [discriminate|]. cbn in Ec. injection Ec as <- _. unfold dig in Hc. lia.
  - destruct t as [|c t]; [discriminate|]. cbn [app] in E2. injection E2 as -> E2. inversion St; congruence.
Qed.
Theorem C08_not_a_number_refuted : let w := put_ops (writer 4 None) [Tok (TNum (s2b "nan"))] in wbad w = false /\ wstk w = [] /\ ~ exists v, document rfc_char v (out w).
Proof.
  split; [reflexivity|]. split; [reflexivity|]. intros (v & D). apply doc_no_ws in D; [|repeat constructor; unfold is_ws; cbn; lia].
  change (val rfc_char v [110; 97; 110]) in D. inversion D as [| | |t N E1 E2|s t St E1 E2| |]; subst.
  apply number_head in N as (c & t' & Ec & [->|Hc]); [discriminate|]. cbn in Ec. injection Ec as <- _. unfold dig in Hc. lia.
Qed.
Theorem C08_control_refuted : let w := put_ops (writer 4 None) [Tok (TStr [1])] in wbad w = false /\ wstk w = [] /\ ~ exists v, document rfc_char v (out w).
Proof.
  split; [reflexivity|]. split; [reflexivity|]. intros (v & D). apply doc_no_ws in D; [|repeat constructor; unfold is_ws; lia].
  change (val rfc_char v [34; 1; 34]) in D. inversion D as [| | |t N E1 E2|s t St E1 E2| |]; subst.
  - apply number_head in N as (c & t' & Ec & [->|Hc]); [discriminate|]. cbn in Ec. injection Ec as <- _. unfold dig in Hc. lia.
  - destruct t as [|c t]; [discriminate|]. cbn [app] in E2. injection E2 as -> E2. inversion St; subst. unfold rfc_char in *. lia.
Qed.

(** C09: inside any containers k, at a value v of any nesting followed by any rest, skip_value
    returns, has consumed exactly the value (and, inside a container, the white space and the comma
    after it), and the state is the one get_token reaches by reading the value's tokens.
    Missing: strings with escapes the reader does not support (C04_unicode_refuted), numbers of more than
    25 characters, and a top-level number needs a character after it. *)
Theorem C09_skip_value_partial : forall L k e w v t rest rest' fuel bufs,
  e && top k = false -> ws w -> val any_char v t -> follow k rest rest' -> (is_num v = true -> k = [] -> number_over rest) ->
  zlen k + depth v <= L -> Forall num_fits (tokens v) -> (length w + length t + length rest + 2 < fuel)%nat ->
  (forall i, 16 <= zlen (bufs i) < 2 ^ 64 /\ Forall (tok_fits (zlen (bufs i))) (tokens v)) ->
  exists it s1 s2,
    skip_value fuel (reader_at L k e (w ++ t ++ rest)) = Ret (it, s1) /\
    get_tokens fuel (length (tokens v)) bufs (reader_at L k e (w ++ t ++ rest)) = Ret (map Some (tokens v), s2) /\
    inp s1 = rest' /\ is_good s1 = true /\ stk s1 = k /\ expp s1 = top k /\
    inp s2 = rest' /\ is_good s2 = true /\ stk s2 = k /\ expp s2 = top k.
Proof. intros. eapply skip_same; eassumption. Qed.
Example C09_ex : exists it s1, skip_value 60 (reader_at 4 [true] false (s2b " {""a"":[1, 2, {}]} , ""next"":0}")) = Ret (it, s1) /\ inp s1 = s2b " ""next"":0}"
  /\ follow [true] (s2b " , ""next"":0}") (s2b " ""next"":0}")
  /\ val any_char (JObj [(s2b "a", JArr [JNum (s2b "1"); JNum (s2b "2"); JObj []])]) (s2b "{""a"":[1, 2, {}]}").
Proof.
  eexists _, _. split; [vm_compute; reflexivity|]. split; [reflexivity|]. split.
  - exists [32]. split; [repeat constructor|]. left. reflexivity.
  - assert (N : forall c, 49 <= c <= 57 -> number_text [c]).
    { intros c Hc. exists [], [c], [], []. split; [reflexivity|]. split; [auto|]. split; [split; [discriminate|]; repeat constructor; unfold dig; lia|]. split; [right; cbn; lia|auto]. }
    assert (P : forall plain n v nt t, str_text plain n nt -> val plain v t -> members plain [(n, v)] ([34] ++ nt ++ [34] ++ [58] ++ t)).
    { intros plain n v nt t H1 H2. pose proof (m_one plain n v nt t [] [] [] [] (Forall_nil _) H1 (Forall_nil _) (Forall_nil _) H2 (Forall_nil _)) as M. cbn [app] in M |- *.
      rewrite app_nil_r in M. exact M. }
    apply (v_obj any_char _ (s2b """a"":[1, 2, {}]")). apply (P any_char (s2b "a") _ (s2b "a") (s2b "[1, 2, {}]")).
    + repeat constructor; cbv; discriminate.
    + assert (W0 : ws []) by constructor. assert (W1 : ws [32]) by (repeat constructor).
      apply (v_arr any_char _ (s2b "1, 2, {}")).
      apply (e_cons any_char (JNum (s2b "1")) (s2b "1") [] [] _ _ (s2b " 2, {}") W0); [exact (v_num any_char [49] (N 49 ltac:(lia)))|exact W0|].
      apply (e_cons any_char (JNum (s2b "2")) (s2b "2") [32] [] _ _ (s2b " {}") W1); [exact (v_num any_char [50] (N 50 ltac:(lia)))|exact W0|].
      apply (e_one any_char (JObj []) (s2b "{}") [32] [] W1); [|exact W0]. apply (v_obj any_char [] []). constructor. exact W0.
Qed.

Print Assumptions C03_round_trip_partial.
Print Assumptions C03_top_number_refuted.
Print Assumptions C04_unterminated_refuted.
Print Assumptions C04_unicode_refuted.
Print Assumptions C04_unicode_hex_refuted.
Print Assumptions C04_skip_failed_refuted.
Print Assumptions C04_skip_open_refuted.
Print Assumptions C04_no_string_partial.
Print Assumptions C05_escapes_refuted.
Print Assumptions C05_capacity_refuted.
Print Assumptions C05_digits_refuted.
Print Assumptions C05_large_buffer_partial.
Print Assumptions C05_six_bytes_partial.
Print Assumptions C05_digits_partial.
Print Assumptions C06_nesting_partial.
Print Assumptions C06_wrong_bracket_refuted.
Print Assumptions C07_reader.
Print Assumptions C07_reader_buffer.
Print Assumptions C07_writer.
Print Assumptions C08_well_formed_partial.
Print Assumptions C08_document_partial.
Print Assumptions C08_quote_refuted.
Print Assumptions C08_not_a_number_refuted.
Print Assumptions C08_control_refuted.
Print Assumptions C09_skip_value_partial.
