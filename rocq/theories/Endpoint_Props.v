(** C30, C31, C32 and C66: the requests of an endpoint (src/endpoint.h). *)

From Coq Require Import String ZArith List Bool Lia.
From Verif Require Import Base ListMem Ascii_Model Ascii_Spec Table_Model Http_Model Http_Spec Http_Calls Endpoint_Model Endpoint_Spec Endpoint_Proofs.
Import ListNotations.
Open Scope string_scope.
Open Scope list_scope.
Open Scope Z_scope.

(** ** A concrete endpoint, used by the examples *)
Definition zeros (n : Z) : list Z := repeat 0 (Z.to_nat n).
Definition ex_mb : list Z := zeros 33.
Definition ex_pb : list Z := zeros 2049.
Definition ex_qb : list Z := zeros 17.
Definition ex_config : config := {| root_dir := Some (b "/srv/www"); files_prefix := Some (b "/resources/") |}.
Definition ex_file : file := {| f_size := 5; f_data := b "hello" |}.
Definition ex_fs : fsystem := fun p => if list_eq_dec Z.eq_dec p (b "/srv/www/resources/a.HTML") then Some ex_file else None.
Definition ex_request (m r : string) : list Z := b m ++ [32] ++ b r ++ [32] ++ b "HTTP/1.1" ++ CRLF ++ b "Host: x" ++ CRLF ++ CRLF.
Lemma zlen_zeros : forall n, 0 <= n -> zlen (zeros n) = n.
Proof. intros n H. unfold zlen, zeros. rewrite repeat_length. apply Z2Nat.id, H. Qed.
Lemma ex_arrays : forall root, no_nul root -> zlen root <= 2047 -> arrays root ex_mb ex_pb ex_qb.
Proof. intros root N L. unfold ex_mb, ex_pb, ex_qb. split; [rewrite zlen_zeros by lia; reflexivity|]. split; [rewrite zlen_zeros by lia; reflexivity|]. split; [rewrite zlen_zeros by lia; reflexivity|]. auto. Qed.
Ltac chars := repeat constructor; unfold printable, digit; cbn; lia.
Lemma ex_line : forall root (m r : string), zlen (b m) <= 32 -> zlen root + zlen (b r) <= 2047 -> forallb http_is_token (b m) = true -> b r <> [] -> forallb is_abcprint (b r) = true ->
  request_line root (ex_request m r) (b m) (b r).
Proof.
  intros root m r Lm Lr Tm Nr Pr. exists (b "HTTP/1.1"), (b "Host: x" ++ CRLF ++ CRLF). split; [reflexivity|]. split; [|split; [exact Lm|split; [exact Lr|vm_compute; discriminate]]].
  split; [apply tokens_b, Tm|]. split; [split; [exact Nr|apply printable_b, Pr]|]. exists [49], [49]. split; [reflexivity|]. repeat split; try discriminate; repeat constructor; unfold digit; lia.
Qed.
Ltac line := apply ex_line; [vm_compute; discriminate|vm_compute; discriminate|reflexivity|discriminate|reflexivity].

(** ** C30: files below the directory *)
(** Missing for the full claim: a resource with a part ".." (refuted below), an empty root directory (refuted
    below), a prefix that does not start with a slash (refuted below); symbolic links are not modelled. *)
Theorem C30_below_partial : forall c fs ltr root mb pb qb l,
  root_dir c = Some root -> root <> [] -> arrays root mb pb qb -> prefix_text c -> slash_prefix c ->
  exists a, process_request c fs ltr mb pb qb l = Ret a /\
    forall p, a_file a = Some p -> exists r, p = root ++ r /\ absolute r /\ (no_dotdot r -> below root p).
Proof.
  intros c fs ltr root mb pb qb l Hr Nr Ha Hp Hs. destruct (opened c fs root mb pb qb Hr Ha Hp ltr l) as (a & P & K). exists a. split; [exact P|].
  intros p E. destruct (K p E) as (m & r & -> & Fa & _). exists r. split; [reflexivity|]. destruct (asked_slash c m r Hs Fa) as (q & ->). split; [exists q; reflexivity|].
  intros D. apply below_slash; assumption.
Qed.
Example C30_below_case : exists a, process_request ex_config ex_fs true ex_mb ex_pb ex_qb (ex_request "GET" "/resources/a.HTML") = Ret a /\
  a_file a = Some (b "/srv/www" ++ b "/resources/a.HTML") /\ no_dotdot (b "/resources/a.HTML") /\ below (b "/srv/www") (b "/srv/www" ++ b "/resources/a.HTML").
Proof.
  destruct (routing ex_config ex_fs (b "/srv/www") ex_mb ex_pb ex_qb eq_refl ltac:(apply ex_arrays; [nn|vm_compute; discriminate]) ltac:(nn) (ex_request "GET" "/resources/a.HTML") (b "GET") (b "/resources/a.HTML")) as (a & P & _ & _ & _ & K & _); [line|].
  exists a. split; [exact P|]. destruct (K ex_file) as (F & _).
  - left. exists (b "/resources/"), (b "/resources/"), (b "a.HTML"). split; [reflexivity|]. split; reflexivity.
  - reflexivity.
  - reflexivity.
  - split; reflexivity.
  - split; [exact F|]. assert (no_dotdot (b "/resources/a.HTML")) as D by (vm_compute; intuition discriminate). split; [exact D|].
    apply (below_slash (b "/srv/www") (b "resources/a.HTML")); [discriminate|exact D].
Qed.

(** The claim is false: ".." leads out of the directory. *)
Definition no_files : fsystem := fun _ => None.
Theorem C30_dotdot_refuted : exists c root mb pb qb l m r a p,
  root_dir c = Some root /\ arrays root mb pb qb /\ prefix_text c /\ slash_prefix c /\ request_line root l m r /\
  process_request c no_files true mb pb qb l = Ret a /\ a_file a = Some p /\ ~ below root p /\ place p = place (b "/etc/passwd").
Proof.
  exists ex_config, (b "/srv/www"), ex_mb, ex_pb, ex_qb, (ex_request "GET" "/resources/../../../etc/passwd"), (b "GET"), (b "/resources/../../../etc/passwd").
  assert (request_line (b "/srv/www") (ex_request "GET" "/resources/../../../etc/passwd") (b "GET") (b "/resources/../../../etc/passwd")) as L by line.
  assert (arrays (b "/srv/www") ex_mb ex_pb ex_qb) as A by (apply ex_arrays; [nn|vm_compute; discriminate]).
  destruct (routing ex_config no_files (b "/srv/www") ex_mb ex_pb ex_qb eq_refl A ltac:(nn) _ _ _ L) as (a & P & _ & _ & K & _).
  destruct K as (F & _).
  { left. exists (b "/resources/"), (b "/resources/"), (b "../../../etc/passwd"). split; [reflexivity|]. split; reflexivity. }
  { reflexivity. }
  { reflexivity. }
  exists a, (b "/srv/www" ++ b "/resources/../../../etc/passwd"). split; [reflexivity|]. split; [exact A|]. split; [nn|]. split; [eexists; reflexivity|]. split; [exact L|]. split; [exact P|]. split; [exact F|]. split; [|reflexivity].
  intros (_ & t & E & _). vm_compute in E. destruct t as [|x [|y [|z t]]]; discriminate.
Qed.
Print Assumptions C30_below_partial.
Print Assumptions C30_dotdot_refuted.

(** With an empty root directory (the default one), the paths are absolute. *)
Theorem C30_empty_root_refuted : exists c mb pb qb l m r a p,
  root_dir c = Some [] /\ arrays [] mb pb qb /\ prefix_text c /\ slash_prefix c /\ request_line [] l m r /\
  process_request c no_files true mb pb qb l = Ret a /\ a_file a = Some p /\ no_dotdot r /\ ~ below [] p /\ absolute p.
Proof.
  exists {| root_dir := Some []; files_prefix := Some (b "/etc") |}, ex_mb, ex_pb, ex_qb, (ex_request "GET" "/etc/passwd"), (b "GET"), (b "/etc/passwd").
  assert (request_line [] (ex_request "GET" "/etc/passwd") (b "GET") (b "/etc/passwd")) as L by line.
  assert (arrays [] ex_mb ex_pb ex_qb) as A by (apply ex_arrays; [nn|vm_compute; discriminate]).
  destruct (routing {| root_dir := Some []; files_prefix := Some (b "/etc") |} no_files [] ex_mb ex_pb ex_qb eq_refl A ltac:(nn) _ _ _ L) as (a & P & _ & _ & K & _).
  destruct K as (F & _).
  { left. exists (b "/etc"), (b "/etc"), (b "/passwd"). split; [reflexivity|]. split; reflexivity. }
  { reflexivity. }
  { reflexivity. }
  exists a, (b "/etc/passwd"). split; [reflexivity|]. split; [exact A|]. split; [nn|]. split; [eexists; reflexivity|]. split; [exact L|]. split; [exact P|]. split; [exact F|].
  split; [vm_compute; intuition discriminate|]. split; [|eexists; reflexivity].
  intros ((_ & K) & _). destruct K as (q & K); [eexists; reflexivity|discriminate].
Qed.
Print Assumptions C30_empty_root_refuted.
(** A prefix without a slash at the start lets a request continue the name of the directory. *)
Theorem C30_prefix_refuted : exists c root mb pb qb l m r a p,
  root_dir c = Some root /\ root <> [] /\ arrays root mb pb qb /\ prefix_text c /\ request_line root l m r /\
  process_request c no_files true mb pb qb l = Ret a /\ a_file a = Some p /\ no_dotdot r /\ ~ below root p.
Proof.
  exists {| root_dir := Some (b "/srv/www"); files_prefix := Some [] |}, (b "/srv/www"), ex_mb, ex_pb, ex_qb, (ex_request "GET" "-private/key"), (b "GET"), (b "-private/key").
  assert (request_line (b "/srv/www") (ex_request "GET" "-private/key") (b "GET") (b "-private/key")) as L by line.
  assert (arrays (b "/srv/www") ex_mb ex_pb ex_qb) as A by (apply ex_arrays; [nn|vm_compute; discriminate]).
  destruct (routing {| root_dir := Some (b "/srv/www"); files_prefix := Some [] |} no_files (b "/srv/www") ex_mb ex_pb ex_qb eq_refl A ltac:(nn) _ _ _ L) as (a & P & _ & _ & K & _).
  destruct K as (F & _).
  { left. exists [], [], (b "-private/key"). split; [reflexivity|]. split; reflexivity. }
  { reflexivity. }
  { reflexivity. }
  exists a, (b "/srv/www" ++ b "-private/key"). split; [reflexivity|]. split; [discriminate|]. split; [exact A|]. split; [nn|]. split; [exact L|]. split; [exact P|]. split; [exact F|].
  split; [vm_compute; intuition discriminate|]. intros (_ & t & E & _). vm_compute in E. destruct t as [|x [|y [|z [|? t]]]]; discriminate.
Qed.
Print Assumptions C30_prefix_refuted.

(** ** C31: Content-Length *)
Theorem C31_simple : forall code reason ctype body, code <> [] -> Forall digit code -> reason_text reason -> spaced_words ctype -> zlen body < 2 ^ 64 ->
  exists w, write_calls response (simple_response code reason ctype body) (http_writer response None true) = Ret w /\ responds (wout w) code reason (Some ctype) body.
Proof. exact simple_out. Qed.
Example C31_simple_case : exists w,
  write_calls response (simple_response (b "500") (b "Server Error") (b "text/plain; charset=utf-8") (b "a" ++ [0; 13; 255])) (http_writer response None true) = Ret w /\
  wout w = response_text (b "500") (b "Server Error") (Some (b "text/plain; charset=utf-8")) (b "4") (b "a" ++ [0; 13; 255]) /\ decimal_text (b "4") 4.
Proof. eexists. split; [vm_compute; reflexivity|]. split; [vm_compute; reflexivity|]. split; [discriminate|]. split; [apply (code_digits "4"); reflexivity|]. split; [reflexivity|discriminate]. Qed.
Print Assumptions C31_simple.
(** A file whose contents are as long as stat() says, whatever its content type. *)
Theorem C31_file : forall t f, match t with Some t => spaced_words t | None => True end -> stable f ->
  exists w, write_calls response (file_response t f) (http_writer response None true) = Ret w /\ responds (wout w) (b "200") (b "OK") t (f_data f).
Proof. exact file_out. Qed.
Example C31_file_case : stable ex_file /\ exists w, write_calls response (file_response None ex_file) (http_writer response None true) = Ret w /\
  wout w = response_text (b "200") (b "OK") None (b "5") (b "hello").
Proof. split; [split; reflexivity|]. eexists. split; vm_compute; reflexivity. Qed.
Print Assumptions C31_file.
(** A directory has a size and can be opened, but nothing can be read from it: the length is wrong. *)
Theorem C31_directory_refuted : exists f w, f_data f = [] /\ write_calls response (file_response None f) (http_writer response None true) = Ret w /\ wout w <> [] /\ ~ some_response (wout w).
Proof.
  exists {| f_size := 4096; f_data := [] |}. destruct (file_status_out None {| f_size := 4096; f_data := [] |} I) as (w & E & O). exists w. split; [reflexivity|]. split; [exact E|]. rewrite O.
  split; [discriminate|]. intros (code & reason & t & body & Nc & Nr & Nt & R).
  apply responds_length in R; try assumption; [|vm_compute; intuition discriminate|vm_compute; intuition discriminate|exact I|vm_compute; repeat constructor; discriminate].
  destruct R as (<- & _ & _ & V & _). vm_compute in V. discriminate.
Qed.
Print Assumptions C31_directory_refuted.

(** ** C32: routing and content types *)
Theorem C32_routing : forall c fs root mb pb qb l m r,
  root_dir c = Some root -> arrays root mb pb qb -> prefix_text c -> request_line root l m r ->
  exists a, process_request c fs true mb pb qb l = Ret a /\
  (file_asked c m r -> a_shut a = false) /\
  (file_asked c m r -> ~ same_i m (b "GET") ->
     a_file a = None /\ responds (a_out a) (b "405") (b "Method Not Allowed") (Some (b "text/plain; charset=utf-8")) (b "GET is the only supported method for static files.")) /\
  (file_asked c m r -> same_i m (b "GET") -> fs (root ++ r) = None ->
     a_file a = Some (root ++ r) /\ responds (a_out a) (b "404") (b "Not Found") (Some (b "text/plain; charset=utf-8")) (b "Error: The requested resource was not found.")) /\
  (forall f, file_asked c m r -> same_i m (b "GET") -> fs (root ++ r) = Some f -> stable f ->
     a_file a = Some (root ++ r) /\ exists t, media_type (root ++ r) t /\ responds (a_out a) (b "200") (b "OK") t (f_data f)) /\
  (~ file_asked c m r ->
     a_file a = None /\ (a_shut a = true <-> same_i m (b "POST") /\ same_i r (b "/shutdown")) /\
     responds (a_out a) (b "200") (b "200") (Some (b "text/plain; charset=utf-8")) (b "TODO: Override process_rest_request().")).
Proof. intros c fs root mb pb qb l m r Hr Ha Hp L. exact (routing c fs root mb pb qb Hr Ha Hp l m r L). Qed.
Example C32_routing_case : root_dir ex_config = Some (b "/srv/www") /\ arrays (b "/srv/www") ex_mb ex_pb ex_qb /\ prefix_text ex_config /\
  request_line (b "/srv/www") (ex_request "get" "/RESOURCES/a.HTML") (b "get") (b "/RESOURCES/a.HTML") /\ file_asked ex_config (b "get") (b "/RESOURCES/a.HTML") /\
  request_line (b "/srv/www") (ex_request "PUT" "/resources/a") (b "PUT") (b "/resources/a") /\ file_asked ex_config (b "PUT") (b "/resources/a") /\ ~ same_i (b "PUT") (b "GET") /\
  request_line (b "/srv/www") (ex_request "POST" "/Shutdown") (b "POST") (b "/Shutdown") /\ ~ file_asked ex_config (b "POST") (b "/Shutdown").
Proof.
  split; [reflexivity|]. split; [apply ex_arrays; [nn|vm_compute; discriminate]|]. split; [nn|]. split; [line|]. split; [left; exists (b "/resources/"), (b "/RESOURCES/"), (b "a.HTML"); split; [|split]; reflexivity|].
  split; [line|]. split; [left; exists (b "/resources/"), (b "/resources/"), (b "a"); split; [|split]; reflexivity|]. split; [vm_compute; discriminate|]. split; [line|].
  intros [(p & s & t & [= <-] & E & S)|(S & _)]; [|vm_compute in S; discriminate].
  apply (f_equal (@length Z)) in S as Ln. rewrite !map_length in Ln. apply (f_equal (@length Z)) in E as Le. rewrite app_length in Le. cbn [length] in Ln. change (length (b "/Shutdown")) with 9%nat in Le.
  lia.
Qed.
Print Assumptions C32_routing.
(** The decision for any two strings in their buffers. *)
Theorem C32_file_iff : forall c m r x y, prefix_text c -> no_nul m -> no_nul r ->
  exists v, is_file_request c (m ++ 0 :: x) (r ++ 0 :: y) = Some v /\ (v = true <-> file_asked c m r).
Proof. exact is_file. Qed.
Example C32_file_iff_case : is_file_request ex_config (lit "Get") (lit "/FavIcon.ico") = Some true /\ is_file_request ex_config (lit "PUT") (lit "/favicon.ico") = Some false /\
  is_file_request {| root_dir := None; files_prefix := None |} (lit "GET") (lit "/resources/") = Some false.
Proof. repeat split. Qed.
Print Assumptions C32_file_iff.
Theorem C32_content_type : forall p, no_nul p -> exists t, content_type_of p = Some t /\ media_type p t.
Proof. exact type_of. Qed.
Example C32_content_type_case : content_type_of (b "/a.b/c.txt.JPG") = Some (Some (b "image/jpeg")) /\ content_type_of (b "/a.b/c.tar") = Some None /\ content_type_of (b "/a/b") = Some None.
Proof. repeat split. Qed.
Print Assumptions C32_content_type.
(** The claim holds only for the path with the directory: a dot in it counts when the resource has none. *)
Theorem C32_directory_dot_refuted : exists root r t, ~ In 46 r /\ content_type_of (root ++ r) = Some (Some t) /\ media_type r None.
Proof.
  exists (b "/srv/site."), (b "png"), (b "image/png"). split; [vm_compute; intuition discriminate|]. split; [reflexivity|].
  intros (e & x & y & (a & E & _) & _). assert (In 46 (b "png")) as K by (rewrite E; apply in_or_app; right; left; reflexivity). vm_compute in K. intuition discriminate.
Qed.
Print Assumptions C32_directory_dot_refuted.

(** ** C66: any bytes *)
(** Whatever is received, no array is overrun, nothing is thrown, and nothing or one complete response is sent. *)
Theorem C66_any_input : forall c fs root mb pb qb l,
  root_dir c = Some root -> arrays root mb pb qb -> prefix_text c -> (forall p f, fs p = Some f -> stable f) ->
  exists a, process_request c fs true mb pb qb l = Ret a /\ (a_out a = [] \/ some_response (a_out a)).
Proof. intros c fs root mb pb qb l Hr Ha Hp Hs. exact (all_or_nothing c fs root mb pb qb Hr Ha Hp Hs l). Qed.
Example C66_any_input_case : forall p f, ex_fs p = Some f -> stable f.
Proof. intros p f H. unfold ex_fs in H. destruct (list_eq_dec _ p _); [injection H as <-; split; reflexivity|discriminate]. Qed.
Print Assumptions C66_any_input.
(** A malformed request line gets no response at all. *)
Theorem C66_malformed_refuted : exists c root mb pb qb l a,
  root_dir c = Some root /\ arrays root mb pb qb /\ prefix_text c /\ process_request c no_files true mb pb qb l = Ret a /\ a_out a = [] /\ a_calls a <> [].
Proof.
  exists ex_config, (b "/srv/www"), ex_mb, ex_pb, ex_qb, (b "GET /x" ++ CRLF ++ CRLF). eexists. split; [reflexivity|]. split; [apply ex_arrays; [nn|vm_compute; discriminate]|]. split; [nn|].
  split; [vm_compute; reflexivity|]. split; [reflexivity|discriminate].
Qed.
Print Assumptions C66_malformed_refuted.
(** A malformed request still opens a file. *)
Theorem C66_malformed_file_refuted : exists c root mb pb qb l a p,
  root_dir c = Some root /\ arrays root mb pb qb /\ prefix_text c /\ process_request c no_files true mb pb qb l = Ret a /\ a_out a = [] /\ a_file a = Some p.
Proof.
  exists ex_config, (b "/srv/www"), ex_mb, ex_pb, ex_qb, (b "GET /resources/x" ++ CRLF ++ CRLF). eexists _, _. split; [reflexivity|]. split; [apply ex_arrays; [nn|vm_compute; discriminate]|]. split; [nn|].
  split; [vm_compute; reflexivity|]. split; reflexivity.
Qed.
Print Assumptions C66_malformed_file_refuted.
(** A root directory longer than the array is copied over its end, whatever is received. *)
Theorem C66_long_root_refuted : exists c root mb pb qb,
  root_dir c = Some root /\ no_nul root /\ zlen mb = method_size + 1 /\ zlen pb = resource_size + 1 /\ zlen qb = protocol_size + 1 /\
  forall l, process_request c no_files true mb pb qb l = Oob.
Proof.
  exists {| root_dir := Some (repeat 97 (Z.to_nat 2049)); files_prefix := None |}, (repeat 97 (Z.to_nat 2049)), ex_mb, ex_pb, ex_qb. split; [reflexivity|].
  split; [apply Forall_forall; intros x K; apply repeat_spec in K; subst; discriminate|]. destruct (ex_arrays [] ltac:(nn) ltac:(vm_compute; discriminate)) as (M & P & Q & _).
  split; [exact M|]. split; [exact P|]. split; [exact Q|]. intros l. unfold process_request, read_line.
  destruct (call_fits method ex_mb (http_reader request l)) as (t & s & E & _); [discriminate|reflexivity|rewrite M; unfold method_size; lia|]. rewrite E. cbn [bind root_dir].
  rewrite P. assert (zlen (repeat 97 (Z.to_nat 2049)) = 2049) as -> by (unfold zlen; rewrite repeat_length; apply Z2Nat.id; lia). reflexivity.
Qed.
Print Assumptions C66_long_root_refuted.
