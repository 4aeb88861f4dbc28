(** C79-C81: the servo, and what the car answers. *)

From Coq Require Import String ZArith QArith List Bool Lia.
From Verif Require Import Base ListMem Ascii_Model Ascii_Spec Http_Model Http_Calls Http_Spec Endpoint_Model Endpoint_Spec Endpoint_Proofs Endpoint_Props Rest_Model Rest_Spec RestBody_Spec.
From Verif Require Import Rest_Replies Rest_Props RestReply_Props RestBody_Props.
From Verif Require Import Car_Model Car_Spec Car_Proofs Car_Threads Car_Replies Car_Props.
From Verif Require Json_Model Json_Spec.
Import ListNotations.
Open Scope string_scope.
Open Scope list_scope.
Open Scope Z_scope.

Lemma digs : forall l, forallb (fun c => (48 <=? c) && (c <=? 57)) l = true -> l <> [] -> Json_Spec.digits1 l.
Proof. intros l D N. split; [exact N|]. apply Forall_forall. intros z I. rewrite forallb_forall in D. specialize (D z I). unfold Json_Spec.dig. lia. Qed.

(** ** C79: the servo *)
(** After any events, a request for an angle: the pulse is the one for the angle, and the pulses end afterwards; nothing else changes. *)
Theorem C79_servo_partial : forall evs c cn root e l r v x q n, steps new_car evs = Ret c -> closing c = false -> asked cn root e l r v -> same_i r (b "/servo") ->
  number_in "angle" v = Some x -> e_atof e x = Some q -> within (Some q) 90 -> whole_part q n -> (30 | n) ->
  exists a c' us, serve cn e c l = Ret (a, c') /\ done_reply (a_out a) (Servo n) c' /\ pulse_for n us /\ aimed us c c'.
Proof.
  intros evs c cn root e l r v x q n H Op (Rd & Se & m & hs & body & Fr & Nf & Pm & Fh & J & B & Rv & Hf) R En Eq Wi Wq D. destruct (reached_new _ _ H) as ((W & _) & _).
  destruct (command_answer cn root e c l m r hs body v _ _ _ _ _ W Op Rd Se Fr Nf Pm (takes_servo r R) Fh J B Rv Hf) as (a & c' & S & _ & _ & _ & K).
  destruct (K x q n En Eq Wi Wq) as (K1 & _). destruct (K1 (conj (within_whole _ _ _ Wi Wq) D)) as ((us & P & Am) & Dr). exists a, c', us. auto.
Qed.
(** The angles are told apart: the larger the angle, the shorter the pulse. *)
Theorem C79_order : forall a us a' us', pulse_for a us -> pulse_for a' us' -> (30 | a) -> (30 | a') -> a < a' -> us' < us.
Proof. intros a us a' us' (_ & P) (_ & P') (k & ->) (k' & ->) L. lia. Qed.
Definition ex_servo (text : string) : event := Request ex_conn car_env (ex_post "/servo" "angle" text).
Example C79_ex : let evs := [ex_power "50"] in let c := car_after evs in steps new_car evs = Ret c /\ closing c = false /\
  asked ex_conn (b "/srv/www") car_env (ex_post "/servo" "angle" "60") (b "/servo") (ex_number "angle" "60") /\ number_in "angle" (ex_number "angle" "60") = Some (b "60") /\ e_atof car_env (b "60") = Some (inject_Z 60) /\
  within (Some (inject_Z 60)) 90 /\ whole_part (inject_Z 60) 60 /\ (30 | 60) /\ pulse_for 60 860 /\ pulse_for (-90) 2480 /\
  new_outs c (car_after (evs ++ [ex_servo "60"])) = [Word 32 86; Word 32 0] /\ map (fun t => hd (Word 0 0) (new_outs c (car_after (evs ++ [ex_servo t])))) ["-90"; "-30"; "0"; "30"; "90"] = [Word 32 248; Word 32 184; Word 32 150; Word 32 118; Word 32 54].
Proof.
  cbv zeta. split; [apply car_went; vm_compute; reflexivity|]. split; [vm_compute; reflexivity|]. split; [ask|]. split; [reflexivity|]. split; [reflexivity|].
  split; [exists (inject_Z 60); split; [reflexivity|]; split; vm_compute; discriminate|]. split; [split; intros H; [split; vm_compute; [discriminate|reflexivity]|vm_compute in H; exfalso; apply H; reflexivity]|].
  split; [exists 2; reflexivity|]. split; [unfold pulse_for; lia|]. split; [unfold pulse_for; lia|]. split; vm_compute; reflexivity.
Qed.
(** The full claim, that the pulses last until the servo has turned, is false of threads: the end of one request's pulses cuts those of another, both are answered. *)
Theorem C79_race_refuted : exists l s, Forall orderly l /\ sys_run sys_new l = Some s /\ Forall finished (s_reqs s) /\ outs (s_car s) = [Word 32 248; Word 32 54; Word 32 0; Word 32 0].
Proof.
  set (l := [Arrive car_env (Servo (-90)); Handle 0; Handle 0; Arrive car_env (Servo 90); Handle 1; Handle 1; Handle 0; Handle 1]).
  exists l, (sys_after l). split; [is_orderly|]. split; [apply sys_ran; vm_compute; reflexivity|]. split; [apply all_done; vm_compute; reflexivity|]. vm_compute. reflexivity.
Qed.

(** ** C80: answers *)
(** After any events, a complete request for power, turn or the servo: if the body starts with the number, and the number without its fraction is one of the allowed values, the command is carried out and its
    response says what the car does; otherwise the request is refused, and nothing changes. *)
Theorem C80_commands_partial : forall evs c cn root e l r v name hi st mk ex, steps new_car evs = Ret c -> closing c = false -> asked cn root e l r v -> takes r name hi st mk ex ->
  exists a c', serve cn e c l = Ret (a, c') /\ a_shut a = false /\
    (number_in name v = None -> c' = c /\ text_reply (a_out a) "400" "Bad Request" (invalid_text ex)) /\
    (forall x, number_in name v = Some x -> ~ within (e_atof e x) hi -> c' = c /\ text_reply (a_out a) "400" "Bad Request" (invalid_text ex)) /\
    (forall x q n, number_in name v = Some x -> e_atof e x = Some q -> within (Some q) hi -> whole_part q n ->
       (fits_steps n hi st -> obeys (mk n) c c' /\ done_reply (a_out a) (mk n) c') /\
       (~ fits_steps n hi st -> c' = c /\ text_reply (a_out a) "400" "Bad Request" "Value not in range.")).
Proof.
  intros evs c cn root e l r v name hi st mk ex H Op (Rd & Se & m & hs & body & Fr & Nf & Pm & Fh & J & B & Rv & Hf) T. destruct (reached_new _ _ H) as ((W & _) & _).
  exact (command_answer cn root e c l m r hs body v name hi st mk ex W Op Rd Se Fr Nf Pm T Fh J B Rv Hf).
Qed.
(** Every number has a part without its fraction. *)
Theorem C80_whole : forall q, exists n, whole_part q n.
Proof. intros q. eexists. apply whole_part_of. Qed.
Definition car_sent (evs : list event) (l : list Z) : list Z := match serve ex_conn car_env (car_after evs) l with Ret (a, _) => a_out a | _ => [] end.
Definition ok_text_out (n : string) (text : string) : list Z := b "HTTP/1.1 200 OK" ++ CRLF ++ b "Connection: close" ++ CRLF ++ b "Content-Type: text/plain; charset=utf-8" ++ CRLF ++ b "Content-Length: " ++ b n ++ CRLF ++ CRLF ++ b text.
Example C80_commands_ex : let evs := [ex_turn "30"; ex_power "75"] in steps new_car evs = Ret (car_after evs) /\ closing (car_after evs) = false /\
  asked ex_conn (b "/srv/www") car_env (ex_post "/Turn" "turn" "90") (b "/Turn") (ex_number "turn" "90") /\ takes (b "/Turn") "turn" 90 30 Turn "turn" /\
  number_in "turn" (ex_number "turn" "90") = Some (b "90") /\ number_in "turn" (ex_number "power" "90") = None /\ ~ within (e_atof car_env (b "500")) 90 /\ ~ fits_steps 40 90 30 /\ fits_steps 90 90 30 /\
  car_sent evs (ex_post "/Turn" "turn" "90") = ok_text_out "23" "turn: power=75, turn=90" /\
  car_sent evs (ex_post "/power" "power" "-50") = ok_text_out "35" "power: forward=0, power=50, turn=30".
Proof.
  cbv zeta. split; [apply car_went; vm_compute; reflexivity|]. split; [vm_compute; reflexivity|]. split; [ask|]. split; [constructor; reflexivity|]. split; [reflexivity|]. split; [reflexivity|].
  split. { intros (q & E & _ & X). injection E as <-. vm_compute in X. apply X. reflexivity. } split. { intros (_ & k & X). lia. } split; [split; [lia|exists 3; reflexivity]|]. split; vm_compute; reflexivity.
Qed.
(** A body of another type, or two types: the request is refused, and nothing changes.  Without a type nothing is sent. *)
Theorem C80_types_partial : forall c cn root e l m r hs body name hi st mk ex, closing c = false -> ready cn root -> sized e -> full_request root l m r hs body -> ~ file_asked (c_config cn) m r ->
  same_i m (b "POST") -> takes r name hi st mk ex -> Forall header_fits hs ->
  (other_type hs -> exists a, serve cn e c l = Ret (a, c) /\ a_shut a = false /\ text_reply (a_out a) "400" "Bad Request" "'application/json' is the only supported Content-Type.") /\
  (two_types hs -> exists a, serve cn e c l = Ret (a, c) /\ a_shut a = false /\ text_reply (a_out a) "400" "Bad Request" "The Content-Type header was supplied more than once.") /\
  (no_type hs -> exists a, serve cn e c l = Ret (a, c) /\ a_out a = []).
Proof. intros c cn root e l m r hs body name hi st mk ex Op Rd Se Fr Nf Pm T Fh. exact (command_types cn root e c l m r hs body name hi st mk ex Op Rd Se Fr Nf Pm T Fh). Qed.
(** Other methods and other resources are refused, and nothing changes. *)
Theorem C80_refusals : forall c cn root e l m r, closing c = false -> ready cn root -> request_line root l m r -> ~ file_asked (c_config cn) m r ->
  (~ known r -> exists a, serve cn e c l = Ret (a, c) /\ a_shut a = false /\ text_reply (a_out a) "404" "Not Found" "The requested resource was not found.") /\
  ((exists name hi st mk ex, takes r name hi st mk ex) \/ same_i r (b "/shutdown") -> ~ same_i m (b "POST") ->
     exists a, serve cn e c l = Ret (a, c) /\ a_shut a = false /\ text_reply (a_out a) "405" "Method Not Allowed" "Expected method POST for this request.") /\
  (same_i r (b "/autos") -> ~ same_i m (b "GET") -> exists a, serve cn e c l = Ret (a, c) /\ a_shut a = false /\ text_reply (a_out a) "405" "Method Not Allowed" "Expected method GET for this request.").
Proof.
  intros c cn root e l m r Op Rd Q Nf. split; [|split].
  - exact (unknown_answer cn root e c l m r Rd Op Q Nf).
  - exact (post_answer cn root e c l m r Rd Op Q Nf).
  - exact (get_answer cn root e c l m r Rd Op Q Nf).
Qed.
Example C80_refusals_ex : let other := [(b "Host", [b "example.org"]); (b "CONTENT-TYPE", [b "text/plain"])] in
  full_request (b "/srv/www") (ex_full "POST" "/servo" other []) (b "POST") (b "/servo") other [] /\ ~ file_asked ex_config (b "POST") (b "/servo") /\ takes (b "/servo") "angle" 90 30 Servo "servo" /\ Forall header_fits other /\ other_type other /\
  request_line (b "/srv/www") (ex_full "GET" "/power" [] []) (b "GET") (b "/power") /\ ~ file_asked ex_config (b "GET") (b "/power") /\ ~ same_i (b "GET") (b "POST") /\
  request_line (b "/srv/www") (ex_full "POST" "/autos" [] []) (b "POST") (b "/autos") /\ ~ known (b "/powers") /\ ready ex_conn (b "/srv/www") /\ sized car_env.
Proof.
  cbv zeta. split; [full|]. split; [not_file|]. split; [constructor; reflexivity|].
  split; [repeat constructor; cbn [fst snd]; try discriminate; try (apply tokens_b; reflexivity); try (apply printable_b; reflexivity); try (vm_compute; discriminate); try (cbn; unfold token_char, printable; cbn; intuition discriminate)|].
  split. { exists [(b "Host", [b "example.org"])], (b "CONTENT-TYPE", [b "text/plain"]), []. split; [reflexivity|]. split; [repeat constructor; intros X; discriminate X|]. split; [reflexivity|].
    intros (s & t & E & S). unfold same_i in S. destruct s as [|c0 s]; [discriminate S|]. injection E as <- _. discriminate S. }
  split; [fline|]. split; [not_file|]. split; [discriminate|]. split; [fline|]. split; [intros [H|[H|[H|[H|H]]]]; discriminate H|]. split; [exact ex_ready|exact car_sized].
Qed.
(** The full claim is false for numbers with a fraction: power 25.9 is carried out as 25. *)
Theorem C80_fraction_refuted : exists c c', steps new_car [ex_power "50"] = Ret c /\ e_atof car_env (b "25.9") = Some (259 # 10)%Q /\ asked ex_conn (b "/srv/www") car_env (ex_post "/power" "power" "25.9") (b "/power") (ex_number "power" "25.9") /\
  step c (ex_power "25.9") = Ret c' /\ power c = 50 /\ power c' = 25.
Proof.
  exists (car_after [ex_power "50"]), (car_after [ex_power "50"; ex_power "25.9"]). split; [apply car_went; vm_compute; reflexivity|]. split; [vm_compute; reflexivity|].
  split. { apply ex_asked; [reflexivity| |apply fits_readable; vm_compute; reflexivity|not_file|full|vm_compute; lia]. exists [], (b "25"), (b ".9"), []. split; [reflexivity|]. split; [auto|].
    split; [apply digs; [reflexivity|discriminate]|]. split; [right; discriminate|]. split; [right; exists (b "9"); split; [reflexivity|]; apply digs; [reflexivity|discriminate]|auto]. }
  split; [vm_compute; reflexivity|]. split; vm_compute; reflexivity.
Qed.
(** Without a type there is no response at all. *)
Theorem C80_untyped_refuted : exists l hs body, full_request (b "/srv/www") l (b "POST") (b "/power") hs body /\ ~ file_asked ex_config (b "POST") (b "/power") /\ Forall header_fits hs /\ no_type hs /\ body = b "{""power"":50}" /\
  exists a, serve ex_conn car_env new_car l = Ret (a, new_car) /\ a_out a = [].
Proof.
  exists (ex_full "POST" "/power" [] (b "{""power"":50}")), [], (b "{""power"":50}"). assert (full_request (b "/srv/www") (ex_full "POST" "/power" [] (b "{""power"":50}")) (b "POST") (b "/power") [] (b "{""power"":50}")) as F by full.
  split; [exact F|]. split; [not_file|]. split; [constructor|]. split; [constructor|]. split; [reflexivity|].
  apply (C80_types_partial new_car ex_conn (b "/srv/www") car_env _ (b "POST") (b "/power") [] (b "{""power"":50}") _ _ _ _ _ eq_refl ex_ready car_sized F power_no_file eq_refl (takes_power _ eq_refl) ltac:(constructor)). constructor.
Qed.

(** ** C81: the sensors *)
(** The response is the JSON text of what the sensors said last; nothing changes. *)
Theorem C81_autos_partial : forall c cn root e l m r, closing c = false -> ready cn root -> sized e -> measured c -> request_line root l m r -> ~ file_asked (c_config cn) m r -> same_i r (b "/autos") -> same_i m (b "GET") ->
  exists a, serve cn e c l = Ret (a, c) /\ a_shut a = false /\ json_ok (a_out a) (sensor_report c).
Proof. intros c cn root e l m r Op Rd Se Me Q Nf R G. exact (autos_answer cn root e c l m r Rd Op Q Nf Se Me R G). Qed.
(** What the sensors said last: a turn of the auto thread. *)
Theorem C81_sensed : forall evs c n c', steps new_car evs = Ret c -> closing c = false -> step c (Tick n) = Ret c' ->
  obstacle c' = sn_distance n /\ gray_left c' = sn_left n /\ gray_center c' = sn_center n /\ gray_right c' = sn_right n /\ depth c' = depth c /\ width c' = width c.
Proof.
  intros evs c n c' H Op S. destruct (reached_new _ _ H) as (_ & E). rewrite Op in E. cbn [step] in S. rewrite E in S. apply ret_inj in S. rewrite run_auto in S by exact Op. destruct (_ <? _) in S; subst c'; repeat split; reflexivity.
Qed.
Definition ex_sensed : list event := [ex_power "25"; Position (b "-12.5") (b "3"); Tick {| sn_distance := 8; sn_left := 801; sn_center := 12; sn_right := 0 |}].
Example C81_ex : steps new_car ex_sensed = Ret (car_after ex_sensed) /\ closing (car_after ex_sensed) = false /\ measured (car_after ex_sensed) /\ request_line (b "/srv/www") (ex_full "GET" "/autos" [] []) (b "GET") (b "/autos") /\ ~ file_asked ex_config (b "GET") (b "/autos") /\
  car_sent ex_sensed (ex_full "GET" "/autos" [] []) = b "HTTP/1.1 200 OK" ++ CRLF ++ b "Connection: close" ++ CRLF ++ b "Content-Type: application/json" ++ CRLF ++ b "Content-Length: 163" ++ CRLF ++ CRLF ++
    b "{""obstacle"":{""distance"":8,""units"":""cm""},""grayscale"":{""left"":801,""center"":12,""right"":0},""depth"":{""distance"":-12.5,""units"":""cm""},""width"":{""distance"":3,""units"":""cm""}}".
Proof.
  split; [apply car_went; vm_compute; reflexivity|]. split; [vm_compute; reflexivity|].
  split. { repeat split; try (vm_compute; reflexivity); try (vm_compute; discriminate).
    - exists (b "-"), (b "12"), (b ".5"), []. split; [reflexivity|]. split; [auto|]. split; [apply digs; [reflexivity|discriminate]|]. split; [right; discriminate|]. split; [right; exists (b "5"); split; [reflexivity|]; apply digs; [reflexivity|discriminate]|auto].
    - change (width (car_after ex_sensed)) with (b "3"). apply digits_number; [reflexivity|discriminate|right; discriminate]. }
  split; [fline|]. split; [not_file|]. vm_compute. reflexivity.
Qed.

Print Assumptions C79_servo_partial.
Print Assumptions C79_order.
Print Assumptions C79_race_refuted.
Print Assumptions C80_commands_partial.
Print Assumptions C80_whole.
Print Assumptions C80_types_partial.
Print Assumptions C80_refusals.
Print Assumptions C80_fraction_refuted.
Print Assumptions C80_untyped_refuted.
Print Assumptions C81_autos_partial.
Print Assumptions C81_sensed.
