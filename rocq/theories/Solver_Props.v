(** C119: requests to the equation solver. *)

From Coq Require Import String ZArith QArith Qcanon List Bool Lia SpecFloat.
From Verif Require Import Base ListMem Ascii_Model Ascii_Spec Http_Model Http_Calls Http_Spec Endpoint_Model Endpoint_Spec Endpoint_Proofs Endpoint_Props Rest_Model Rest_Spec RestBody_Spec Rest_Games Rest_Replies Rest_Props RestReply_Props RestBody_Replies RestBody_Props.
From Verif Require Import Solver_Model Solver_Spec Solver_Proofs.
From Verif Require Json_Model Json_Spec Equations_Model Equations_Props.
Import ListNotations.
Open Scope string_scope.
Open Scope list_scope.
Open Scope Z_scope.

(** ** Instances for the examples *)
(** Rationals; texts of one digit are read; whole numbers and halves below 10 are printed. *)
Definition ex_print (z : Qc) : list Z :=
  let q := this z in let n := Z.abs (Qnum q) in
  if (n <? 20) && ((Zpos (Qden q) =? 1) || (Zpos (Qden q) =? 2))
  then (if Qnum q <? 0 then [45] else []) ++ decimal (n / Zpos (Qden q)) ++ (if n mod Zpos (Qden q) =? 0 then [] else b ".5")
  else b "0".
Definition ex_numbers : numbers Qc :=
  {| n_arith := Equations_Props.rationals; n_atof := fun t => match t with [d] => Equations_Props.q (d - 48) | _ => Equations_Props.q 0 end; n_print := ex_print |}.
Lemma ex_prints : forall z, no_nul (n_print ex_numbers z) /\ zlen (n_print ex_numbers z) <= 25.
Proof.
  intros z. cbn [n_print ex_numbers]. unfold ex_print. destruct ((Z.abs (Qnum (this z)) <? 20) && _) eqn:E; [|split; [repeat constructor; discriminate|vm_compute; discriminate]].
  apply andb_prop in E as (E & D). set (n := Z.abs (Qnum (this z))) in *. assert (0 <= n / Zpos (Qden (this z)) < 20) as R.
  { split; [apply Z.div_pos; lia|]. apply Z.le_lt_trans with n; [|lia]. apply Z.div_le_upper_bound; lia. }
  split.
  - apply Forall_app. split; [destruct (_ <? 0); repeat constructor; discriminate|]. apply Forall_app. split; [apply Rest_Proofs.decimal_nn; lia|destruct (_ =? 0); repeat constructor; discriminate].
  - pose proof (Rest_Proofs.decimal_len (n / Zpos (Qden (this z))) 2 ltac:(change (10 ^ Z.of_nat 2) with 100; lia) ltac:(lia)) as L. unfold zlen. rewrite !app_length.
    destruct (_ <? 0), (_ =? 0); change (length (b ".5")) with 2%nat; cbn [length]; lia.
Qed.
Section Values.
Import Json_Spec.
Definition ex_row (x y : string) : jv := JArr [JNum (b x); JNum (b y)].
Definition ex_problem : jv := JObj [(b "note", JArr [JNull; JObj []]); (b "b", ex_row "5" "6"); (b "a", JArr [ex_row "9" "9"; ex_row "9" "9"]); (b "a", JArr [ex_row "1" "2"; ex_row "3" "4"])].
Lemma digit_number : forall d, 48 <= d <= 57 -> number_text [d].
Proof.
  intros d H. exists [], [d], [], []. split; [reflexivity|]. split; [auto|]. split; [split; [discriminate|constructor; [exact H|constructor]]|]. split; [|auto].
  cbn [hd]. destruct (Z.eq_dec d 48) as [-> |]; auto.
Qed.
Lemma row_val : forall x y, number_text (b x) -> number_text (b y) -> val rfc_char (ex_row x y) (compact (ex_row x y)).
Proof. intros x y X Y. apply v_arr, elems_compact. repeat constructor; assumption. Qed.
Lemma ex_says : body_says (compact ex_problem) ex_problem.
Proof.
  pose proof (obj_says [(b "note", JArr [JNull; JObj []]); (b "b", ex_row "5" "6"); (b "a", JArr [ex_row "9" "9"; ex_row "9" "9"]); (b "a", JArr [ex_row "1" "2"; ex_row "3" "4"])] []) as H. rewrite app_nil_r in H. apply H.
  constructor; [|constructor; [|constructor; [|constructor; [|constructor]]]]; (split; [apply name_fair; reflexivity|]); cbn [fst snd].
  - apply v_arr, elems_compact. constructor; [constructor|]. constructor; [|constructor]. apply obj_val. constructor.
  - apply row_val; apply digit_number; cbn; lia.
  - apply v_arr, elems_compact. constructor; [|constructor; [|constructor]]; apply row_val; apply digit_number; cbn; lia.
  - apply v_arr, elems_compact. constructor; [|constructor; [|constructor]]; apply row_val; apply digit_number; cbn; lia.
Qed.
End Values.
Ltac not_file := intros [(p & s & u & Ep & Es & S)|(_ & S)];
  [injection Ep as <-; unfold same_i in S; repeat (destruct s as [|? s]; [discriminate S|]); injection Es; intros; subst; discriminate S|unfold same_i in S; discriminate S].
Lemma problem_no_file : forall m, ~ file_asked ex_config m (b "/problem").
Proof. intros m. not_file. Qed.
(** The bytes sent. *)
Definition out_of (x : hres answer) : list Z := match x with Ret a => a_out a | _ => [] end.
Definition closes (x : hres answer) : bool := match x with Ret a => a_shut a | _ => false end.

(** ** C119 *)
(** A request to /problem with a complete JSON body, with or without a content type: if the body is an object that gives a matrix and a right-hand side, the response is what the solver
    computes of exactly these six numbers (a later member replaces an earlier one, other members are skipped); any other body is refused. *)
Theorem C119_problem_partial : forall F (N : numbers F) c root e l m r hs body v, ready c root -> sized e -> full_request root l m r hs body -> ~ file_asked (c_config c) m r ->
  same_i m (b "POST") -> same_i r (b "/problem") -> Forall header_fits hs -> json_type hs \/ no_type hs -> body_says body v -> readable v -> (length body + 4 < e_fuel e)%nat ->
  (forall z, no_nul (n_print N z) /\ zlen (n_print N z) <= 25) ->
  exists a, serve_problem e N c l = Ret a /\ a_shut a = false /\
    (problem_in v = None -> text_reply (a_out a) "400" "Bad Request" "An invalid JSON payload was supplied. Must be {""a"": [ [1, 2], [3, 4] ], ""b"": [5, 6] }.") /\
    (forall a00 a01 a10 a11 b0 b1 st x y, problem_in v = Some ((a00, a01), (a10, a11), (b0, b1)) ->
       Equations_Model.solve (n_arith N) (n_atof N a00) (n_atof N a01) (n_atof N a10) (n_atof N a11) (n_atof N b0) (n_atof N b1) = (st, x, y) ->
       responds (a_out a) (b "200") (b "OK") (Some (b "application/json")) (compact (solution st (n_print N x) (n_print N y))) /\
       (Json_Spec.number_text (n_print N x) -> Json_Spec.number_text (n_print N y) -> json_ok (a_out a) (solution st (n_print N x) (n_print N y)))).
Proof. intros F N c root e l m r hs body v Rd Se Q Nf Pm Sr Fh T B Rv Hf Np. eapply problem_reply; eassumption. Qed.
Definition ex_line : list Z := ex_full "post" "/Problem" ex_headers (compact ex_problem).
Example C119_problem_ex : let e := ex_env counting in
  ready ex_conn (b "/srv/www") /\ sized e /\ full_request (b "/srv/www") ex_line (b "post") (b "/Problem") ex_headers (compact ex_problem) /\ ~ file_asked ex_config (b "post") (b "/problem") /\
  Forall header_fits ex_headers /\ json_type ex_headers /\ body_says (compact ex_problem) ex_problem /\ readable ex_problem /\ (length (compact ex_problem) + 4 < e_fuel e)%nat /\
  (forall z, no_nul (n_print ex_numbers z) /\ zlen (n_print ex_numbers z) <= 25) /\
  compact ex_problem = b "{""note"":[null,{}],""b"":[5,6],""a"":[[9,9],[9,9]],""a"":[[1,2],[3,4]]}" /\
  problem_in ex_problem = Some ((b "1", b "2"), (b "3", b "4"), (b "5", b "6")) /\
  out_of (serve_problem e ex_numbers ex_conn ex_line) =
    b "HTTP/1.1 200 OK" ++ CRLF ++ b "Connection: close" ++ CRLF ++ b "Content-Type: application/json" ++ CRLF ++ b "Content-Length: 27" ++ CRLF ++ CRLF ++ b "{""status"":1,""x"":-4,""y"":4.5}" /\
  problem_in (Json_Spec.JObj [(b "b", ex_row "5" "6")]) = None /\ problem_in (Json_Spec.JObj [(b "a", ex_row "5" "6"); (b "b", ex_row "5" "6")]) = None.
Proof.
  split; [exact ex_ready|]. split; [apply ex_sized|]. split; [full|]. split; [apply problem_no_file|]. split; [exact ex_fits|]. split; [exact ex_json|]. split; [exact ex_says|].
  split; [apply fits_readable; vm_compute; reflexivity|]. split; [vm_compute; lia|]. split; [exact ex_prints|]. repeat split; vm_compute; reflexivity.
Qed.

(** In exact arithmetic the response is right: status 1 means that there is one solution and that it is given; 0, that there is none; 2, with a matrix that is not zero, that there are several. *)
Theorem C119_exact_partial : forall (N : numbers Qc) c root e l m r hs body v a00 a01 a10 a11 b0 b1, n_arith N = Equations_Props.rationals -> ready c root -> sized e -> full_request root l m r hs body -> ~ file_asked (c_config c) m r ->
  same_i m (b "POST") -> same_i r (b "/problem") -> Forall header_fits hs -> json_type hs \/ no_type hs -> body_says body v -> readable v -> (length body + 4 < e_fuel e)%nat ->
  (forall z, no_nul (n_print N z) /\ zlen (n_print N z) <= 25) -> problem_in v = Some ((a00, a01), (a10, a11), (b0, b1)) ->
  let sol x y := (n_atof N a00 * x + n_atof N a01 * y = n_atof N b0 /\ n_atof N a10 * x + n_atof N a11 * y = n_atof N b1)%Qc in
  exists a st x y, serve_problem e N c l = Ret a /\ responds (a_out a) (b "200") (b "OK") (Some (b "application/json")) (compact (solution st (n_print N x) (n_print N y))) /\
    (st = 1 /\ sol x y /\ (forall x' y', sol x' y' -> x' = x /\ y' = y) \/
     st = 0 /\ (forall x' y', ~ sol x' y') \/
     st = 2 /\ (n_atof N a00 <> 0%Qc \/ n_atof N a01 <> 0%Qc \/ n_atof N a10 <> 0%Qc \/ n_atof N a11 <> 0%Qc -> exists x1 y1 x2 y2, sol x1 y1 /\ sol x2 y2 /\ (x1 <> x2 \/ y1 <> y2))).
Proof.
  intros N c root e l m r hs body v a00 a01 a10 a11 b0 b1 Ha Rd Se Q Nf Pm Sr Fh T B Rv Hf Np P sol.
  destruct (C119_problem_partial Qc N c root e l m r hs body v Rd Se Q Nf Pm Sr Fh T B Rv Hf Np) as (a & E & _ & _ & H).
  destruct (Equations_Model.solve (n_arith N) (n_atof N a00) (n_atof N a01) (n_atof N a10) (n_atof N a11) (n_atof N b0) (n_atof N b1)) as [[st x] y] eqn:Es.
  destruct (H _ _ _ _ _ _ _ _ _ P Es) as (R & _). exists a, st, x, y. split; [exact E|]. split; [exact R|]. rewrite Ha in Es.
  assert (forall z : Qc, (if Qc_eq_dec z 0%Qc then true else false) = true <-> z = 0%Qc) as Z0 by (intros z; destruct (Qc_eq_dec z 0%Qc); split; congruence).
  pose proof (Equations_Props.C54_one _ _ _ _ _ _ _ _ _ Qcft _ Z0 (n_atof N a00) (n_atof N a01) (n_atof N a10) (n_atof N a11) (n_atof N b0) (n_atof N b1)) as (O1 & O2).
  pose proof (Equations_Props.C54_none_partial _ _ _ _ _ _ _ _ _ Qcft _ Z0 (n_atof N a00) (n_atof N a01) (n_atof N a10) (n_atof N a11) (n_atof N b0) (n_atof N b1)) as (N1 & _).
  pose proof (fun M => Equations_Props.C54_many_partial _ _ _ _ _ _ _ _ _ Qcft _ Z0 (n_atof N a00) (n_atof N a01) (n_atof N a10) (n_atof N a11) (n_atof N b0) (n_atof N b1) M) as M1.
  pose proof (solve_status Equations_Props.rationals (n_atof N a00) (n_atof N a01) (n_atof N a10) (n_atof N a11) (n_atof N b0) (n_atof N b1)) as Rg. fold Equations_Props.rationals in *. cbv zeta in *.
  rewrite Es in *. cbn [Equations_Props.status fst snd] in *. assert (st = 1 \/ st = 0 \/ st = 2) as [-> | [-> | ->]] by lia.
  - left. split; [reflexivity|]. pose proof (O2 eq_refl) as S. split; [exact S|]. destruct (proj1 O1 eq_refl) as (x0 & y0 & S0 & U). destruct (U _ _ S) as (-> & ->). intros x' y' S'. apply U, S'.
  - right. left. split; [reflexivity|]. intros x' y' S. apply (N1 eq_refl). exists x', y'. exact S.
  - right. right. split; [reflexivity|]. intros Nz. destruct (M1 ltac:(tauto)) as (M2 & _). exact (proj1 M2 eq_refl).
Qed.
Example C119_exact_ex : n_arith ex_numbers = Equations_Props.rationals /\ problem_in ex_problem = Some ((b "1", b "2"), (b "3", b "4"), (b "5", b "6")) /\
  (n_atof ex_numbers (b "1") * Equations_Props.q (-4) + n_atof ex_numbers (b "2") * Q2Qc (9 # 2) = n_atof ex_numbers (b "5"))%Qc.
Proof. split; [reflexivity|]. split; [vm_compute; reflexivity|]. apply Qc_is_canon. vm_compute. reflexivity. Qed.

(** Other requests: shutdown, other resources, other methods, and other content types. *)
Theorem C119_line_partial : forall F (N : numbers F) c root e l m r, ready c root -> request_line root l m r -> ~ file_asked (c_config c) m r ->
  (same_i m (b "POST") -> same_i r (b "/shutdown") -> exists a, serve_problem e N c l = Ret a /\ a_shut a = true /\ text_reply (a_out a) "200" "OK" "Server is shuting down...") /\
  (~ (same_i m (b "POST") /\ same_i r (b "/shutdown")) -> ~ same_i r (b "/problem") -> exists a, serve_problem e N c l = Ret a /\ a_shut a = false /\ text_reply (a_out a) "404" "Not Found" "The requested resource was not found.") /\
  (same_i r (b "/problem") -> ~ same_i m (b "POST") -> exists a, serve_problem e N c l = Ret a /\ a_shut a = false /\ text_reply (a_out a) "405" "Method Not Allowed" "POST is the only supported method for resource '/problem'.").
Proof. intros. eapply line_reply; eassumption. Qed.
Theorem C119_type_partial : forall F (N : numbers F) c root e l m r hs body, ready c root -> sized e -> full_request root l m r hs body -> ~ file_asked (c_config c) m r -> same_i m (b "POST") -> same_i r (b "/problem") -> Forall header_fits hs ->
  (other_type hs -> exists a, serve_problem e N c l = Ret a /\ a_shut a = false /\ text_reply (a_out a) "400" "Bad Request" "'application/json' is the only supported Content-Type.") /\
  (two_types hs -> exists a, serve_problem e N c l = Ret a /\ a_shut a = false /\ text_reply (a_out a) "400" "Bad Request" "The Content-Type header was supplied more than once.").
Proof. intros. eapply type_refused; eassumption. Qed.
Example C119_line_ex : let run l := serve_problem (ex_env counting) ex_numbers ex_conn l in let put := ex_full "PUT" "/PROBLEM" [] [] in let down := ex_full "post" "/ShutDown" [] [] in
  request_line (b "/srv/www") put (b "PUT") (b "/PROBLEM") /\ ~ same_i (b "PUT") (b "POST") /\ closes (run put) = false /\
  request_line (b "/srv/www") down (b "post") (b "/ShutDown") /\ closes (run down) = true /\ closes (run (ex_full "GET" "/shutdown" [] [])) = false /\
  (let hs := [(b "CONTENT-TYPE", [b "text/plain"])] in full_request (b "/srv/www") (ex_full "POST" "/problem" hs []) (b "POST") (b "/problem") hs [] /\ other_type hs).
Proof.
  split; [fline|]. split; [discriminate|]. split; [vm_compute; reflexivity|]. split; [fline|]. split; [vm_compute; reflexivity|]. split; [vm_compute; reflexivity|]. split; [full|].
  exists [], (b "CONTENT-TYPE", [b "text/plain"]), []. split; [reflexivity|]. split; [constructor|]. split; [reflexivity|]. intros (s & t & E & S). unfold same_i in S. cbn in E.
  apply (f_equal (@length Z)) in S as Ls. rewrite !map_length in Ls. apply (f_equal (@length Z)) in E. rewrite app_length, Ls in E. vm_compute in E. lia.
Qed.

(** Requests for files are answered as by every endpoint (C32). *)
Theorem C119_files : forall F (N : numbers F) c root e l m r, ready c root -> request_line root l m r -> file_asked (c_config c) m r ->
  exists a, serve_problem e N c l = Ret a /\ a_shut a = false /\
  (~ same_i m (b "GET") -> a_file a = None /\ text_reply (a_out a) "405" "Method Not Allowed" "GET is the only supported method for static files.") /\
  (same_i m (b "GET") -> c_fs c (root ++ r) = None -> a_file a = Some (root ++ r) /\ text_reply (a_out a) "404" "Not Found" "Error: The requested resource was not found.") /\
  (forall f, same_i m (b "GET") -> c_fs c (root ++ r) = Some f -> stable f ->
     a_file a = Some (root ++ r) /\ exists t, media_type (root ++ r) t /\ responds (a_out a) (b "200") (b "OK") t (f_data f)).
Proof.
  intros F N c root e l m r Rd Q Fa. rewrite (serve_file N c root e l m r Rd Q Fa). pose proof Rd as (Hr & Ha & Hp & Hl).
  destruct (C32_routing (c_config c) (c_fs c) root (c_mb c) (c_pb c) (c_qb c) l m r Hr Ha Hp Q) as (a & E & H1 & H2 & H3 & H4 & _).
  exists a. split; [exact E|]. split; [exact (H1 Fa)|]. split; [exact (H2 Fa)|]. split; [exact (H3 Fa)|]. intros f. exact (H4 f Fa).
Qed.
Example C119_files_ex : let l := ex_full "get" "/Resources/a.HTML" [] [] in
  request_line (b "/srv/www") l (b "get") (b "/Resources/a.HTML") /\ file_asked ex_config (b "get") (b "/Resources/a.HTML") /\
  request_line (b "/srv/www") (ex_full "POST" "/resources/problem" [] []) (b "POST") (b "/resources/problem") /\ file_asked ex_config (b "POST") (b "/resources/problem") /\
  out_of (serve_problem (ex_env counting) ex_numbers ex_conn (ex_full "POST" "/resources/problem" [] [])) <> [].
Proof.
  split; [fline|]. split; [left; exists (b "/resources/"), (b "/Resources/"), (b "a.HTML"); split; [|split]; reflexivity|]. split; [fline|].
  split; [left; exists (b "/resources/"), (b "/resources/"), (b "problem"); split; [|split]; reflexivity|]. vm_compute. discriminate.
Qed.

(** The full claim is false of bodies that are no JSON: one that starts with a quote and has no second one keeps the thread of the request busy for ever. *)
Theorem C119_endless_refuted : exists l hs p, full_request (b "/srv/www") l (b "POST") (b "/problem") hs (34 :: p) /\ Forall header_fits hs /\ json_type hs /\
  (forall F (N : numbers F) e, sized e -> serve_problem e N ex_conn l = Loop) /\
  forall F (N : numbers F) c root e l m r hs p, ready c root -> sized e -> full_request root l m r hs (34 :: p) -> ~ file_asked (c_config c) m r -> same_i m (b "POST") -> same_i r (b "/problem") ->
    Forall header_fits hs -> json_type hs \/ no_type hs -> Json_Spec.unquoted p -> zlen p <= 1030 -> serve_problem e N c l = Loop.
Proof.
  assert (forall F (N : numbers F) c root e l m r hs p, ready c root -> sized e -> full_request root l m r hs (34 :: p) -> ~ file_asked (c_config c) m r -> same_i m (b "POST") -> same_i r (b "/problem") ->
    Forall header_fits hs -> json_type hs \/ no_type hs -> Json_Spec.unquoted p -> zlen p <= 1030 -> serve_problem e N c l = Loop) as H.
  { intros F N c root e l m r hs p Rd Se Q Nf Pm Sr Fh T U Lp. eapply problem_loops; try eassumption. reflexivity. }
  exists (ex_full "POST" "/problem" ex_headers (34 :: b "abc")), ex_headers, (b "abc"). split; [full|]. split; [exact ex_fits|]. split; [exact ex_json|]. split; [|exact H].
  intros F N e Se. refine (H F N ex_conn (b "/srv/www") e _ (b "POST") (b "/problem") ex_headers (b "abc") ex_ready Se _ _ eq_refl eq_refl ex_fits (or_introl ex_json) _ _).
  - full.
  - apply problem_no_file.
  - repeat constructor; discriminate.
  - vm_compute. discriminate.
Qed.

(** The full claim is false of double: with coefficients of 1e200 the determinants overflow, and the response to a system with the solution (1, 1) is not JSON,
    whatever std::atof and %.16lg do otherwise. *)
Definition big : spec_float := S754_finite false 5883593420661338 612.
Definition big_problem : Json_Spec.jv := Json_Spec.JObj [(b "a", Json_Spec.JArr [ex_row "1e200" "0"; ex_row "0" "1e200"]); (b "b", ex_row "1e200" "1e200")].
Definition as_double (N : numbers spec_float) : Prop :=
  n_arith N = Equations_Model.double_arith /\ (forall z, no_nul (n_print N z) /\ zlen (n_print N z) <= 25) /\ n_atof N (b "0") = S754_zero false /\ n_atof N (b "1e200") = big /\
  (n_print N S754_nan = b "nan" \/ n_print N S754_nan = b "-nan").
Lemma nan_no_number : ~ Json_Spec.number_text (b "nan") /\ ~ Json_Spec.number_text (b "-nan").
Proof.
  split; intros (sign & int & frac & exp & E & [-> | ->] & (Ni & Fi) & _); destruct int as [|d int]; try congruence; cbn in E; try discriminate E; injection E as E1 E2; apply Forall_inv in Fi; unfold Json_Spec.dig in Fi; lia.
Qed.
Lemma big_number : Json_Spec.number_text (b "1e200").
Proof.
  exists [], (b "1"), [], (b "e200"). split; [reflexivity|]. split; [auto|]. split; [split; [discriminate|repeat constructor; discriminate]|]. split; [right; discriminate|]. split; [auto|].
  right. exists 101, [], (b "200"). split; [reflexivity|]. split; [auto|]. split; [auto|]. split; [discriminate|repeat constructor; discriminate].
Qed.
Lemma big_says : body_says (compact big_problem) big_problem.
Proof.
  pose proof (obj_says [(b "a", Json_Spec.JArr [ex_row "1e200" "0"; ex_row "0" "1e200"]); (b "b", ex_row "1e200" "1e200")] []) as H. rewrite app_nil_r in H. apply H.
  constructor; [|constructor; [|constructor]]; (split; [apply name_fair; reflexivity|]); cbn [fst snd].
  - apply Json_Spec.v_arr, elems_compact. constructor; [|constructor; [|constructor]]; apply row_val; try exact big_number; apply digit_number; cbn; lia.
  - apply row_val; exact big_number.
Qed.
Theorem C119_overflow_refuted : exists l, l = ex_full "POST" "/problem" ex_headers (b "{""a"":[[1e200,0],[0,1e200]],""b"":[1e200,1e200]}") /\
  SFmul 53 1024 big (SFone 53 1024) = big /\ SFadd 53 1024 big (S754_zero false) = big /\
  (exists N, as_double N) /\
  forall N, as_double N -> exists a, serve_problem (ex_env counting) N ex_conn l = Ret a /\
    responds (a_out a) (b "200") (b "OK") (Some (b "application/json")) (compact (solution 1 (n_print N S754_nan) (n_print N S754_nan))) /\ ~ Json_Spec.number_text (n_print N S754_nan).
Proof.
  exists (ex_full "POST" "/problem" ex_headers (compact big_problem)). split; [vm_compute; reflexivity|]. split; [vm_compute; reflexivity|]. split; [vm_compute; reflexivity|]. split.
  - exists {| n_arith := Equations_Model.double_arith; n_atof := fun t => match t with [_] => S754_zero false | _ => big end; n_print := fun z => b "nan" |}.
    split; [reflexivity|]. split; [intros z; split; [repeat constructor; discriminate|vm_compute; discriminate]|]. split; [reflexivity|]. split; [reflexivity|]. left. reflexivity.
  - intros N (Ar & Np & A0 & A1 & Pn).
    destruct (C119_problem_partial _ N ex_conn (b "/srv/www") (ex_env counting) (ex_full "POST" "/problem" ex_headers (compact big_problem)) (b "POST") (b "/problem") ex_headers (compact big_problem) big_problem) as (a & E & _ & _ & H).
    + exact ex_ready.
    + apply ex_sized.
    + full.
    + apply problem_no_file.
    + reflexivity.
    + reflexivity.
    + exact ex_fits.
    + left. exact ex_json.
    + exact big_says.
    + apply fits_readable; vm_compute; reflexivity.
    + vm_compute. lia.
    + exact Np.
    + exists a. split; [exact E|]. split; [|destruct Pn as [-> | ->]; apply nan_no_number].
      assert (problem_in big_problem = Some ((b "1e200", b "0"), (b "0", b "1e200"), (b "1e200", b "1e200"))) as P by (vm_compute; reflexivity).
      refine (proj1 (H _ _ _ _ _ _ 1 S754_nan S754_nan P _)). rewrite Ar, A0, A1. vm_compute. reflexivity.
Qed.

Print Assumptions C119_problem_partial.
Print Assumptions C119_exact_partial.
Print Assumptions C119_line_partial.
Print Assumptions C119_type_partial.
Print Assumptions C119_files.
Print Assumptions C119_endless_refuted.
Print Assumptions C119_overflow_refuted.
