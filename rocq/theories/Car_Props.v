(** C74-C78, C82: what the car does, one request after the other and with its threads interleaved. *)

From Coq Require Import String ZArith QArith List Bool Lia.
From Verif Require Import Base ListMem Ascii_Model Ascii_Spec Http_Model Http_Calls Http_Spec Endpoint_Model Endpoint_Spec Endpoint_Proofs Endpoint_Props Rest_Model Rest_Spec RestBody_Spec.
From Verif Require Import Rest_Replies Rest_Props RestReply_Props RestBody_Props.
From Verif Require Import Car_Model Car_Spec Car_Proofs Car_Threads Car_Replies.
From Verif Require Json_Model Json_Spec.
Import ListNotations.
Open Scope string_scope.
Open Scope list_scope.
Open Scope Z_scope.

(** ** For the examples *)
Definition car_numbers : list (string * Q) :=
  [("0", inject_Z 0); ("25", inject_Z 25); ("50", inject_Z 50); ("75", inject_Z 75); ("100", inject_Z 100); ("-25", inject_Z (-25)); ("-50", inject_Z (-50)); ("-100", inject_Z (-100));
   ("30", inject_Z 30); ("60", inject_Z 60); ("90", inject_Z 90); ("-30", inject_Z (-30)); ("-90", inject_Z (-90)); ("40", inject_Z 40); ("500", inject_Z 500); ("25.9", (259 # 10)%Q)].
Definition car_atof (l : list Z) : option Q := match find (fun p => if list_eq_dec Z.eq_dec l (b (fst p)) then true else false) car_numbers with Some p => Some (snd p) | None => None end.
Definition car_env : env := {| e_header := fun _ => zeros 1025; e_token := zeros 1041; e_body := fun n => zeros n; e_atof := car_atof; e_rand := counting; e_fuel := 300 |}.
Lemma car_sized : sized car_env.
Proof. exact (ex_sized counting). Qed.
Definition ex_number (name text : string) : Json_Spec.jv := Json_Spec.JObj [(b name, Json_Spec.JNum (b text))].
Definition ex_post (r name text : string) : list Z := ex_full "POST" r ex_headers (compact (ex_number name text)).
Definition ex_power (text : string) : event := Request ex_conn car_env (ex_post "/power" "power" text).
Definition ex_turn (text : string) : event := Request ex_conn car_env (ex_post "/turn" "turn" text).
Definition ex_down : event := Request ex_conn car_env (ex_full "POST" "/shutdown" [] []).
Definition ex_tick (d : Z) : event := Tick {| sn_distance := d; sn_left := 1; sn_center := 2; sn_right := 3 |}.
Definition ex_sense (d : Z) : senses := {| sn_distance := d; sn_left := 1; sn_center := 2; sn_right := 3 |}.
(** The car after the events. *)
Definition car_after (l : list event) : car := match steps new_car l with Ret c => c | _ => new_car end.
Definition went {A} (x : hres A) : bool := match x with Ret _ => true | _ => false end.
Lemma car_went : forall l, went (steps new_car l) = true -> steps new_car l = Ret (car_after l).
Proof. intros l H. unfold car_after. destruct (steps new_car l); [reflexivity|discriminate H..]. Qed.
(** The duty cycles of the wheels. *)
Definition duties (os : list output) : list (option Z) := map (fun w => last_word (reg_of w) os) [FrontLeft; FrontRight; RearLeft; RearRight].
Definition members (c : car) : bool * Z * Z := (forward c, power c, turn c).
Ltac not_file := intros [(p & s & u & Ep & Es & S)|(_ & S)];
  [injection Ep as <-; unfold same_i in S; repeat (destruct s as [|? s]; [discriminate S|]); injection Es; intros; subst; discriminate S|unfold same_i in S; discriminate S].
Lemma power_no_file : ~ file_asked ex_config (b "POST") (b "/power").
Proof. not_file. Qed.

(** ** C74: requests and histories *)
(** Whatever a request consists of, the car stays as it was, or it carries out one of the commands with a value that is allowed; after a shutdown nothing changes. *)
Theorem C74_requests : forall evs c cn e l a c', steps new_car evs = Ret c -> serve cn e c l = Ret (a, c') -> c' = c \/ closing c = false /\ exists x, acceptable x /\ obeys x c c'.
Proof. intros evs c cn e l a c' H. apply serve_obeys. apply (reached_new _ _ H). Qed.
(** After any events, one after the other: power and turn have allowed values, and the wheels do what the members say, or nothing was written to them yet; after a shutdown the hat was reset last. *)
Theorem C74_histories : forall evs c, steps new_car evs = Ret c -> five_powers (power c) /\ (exists d, steering (turn c) d) /\
  (closing c = false -> unmoved c \/ rolling c) /\ (closing c = true -> was_reset c).
Proof.
  intros evs c H. destruct (reached_new _ _ H) as (((P & T) & U & R & _) & _). split; [exact P|]. split; [apply steering_turns, T|]. split; [exact U|]. intros C. apply R, C.
Qed.
Example C74_ex : let evs := [ex_power "100"; ex_turn "-30"; ex_tick 15; ex_power "-50"; ex_power "40"] in let c := car_after evs in
  steps new_car evs = Ret c /\ members c = (false, 50, -30) /\ duties (outs c) = [Some 780; Some 1220; Some 780; Some 1220] /\ closing c = false /\ rolling c /\ unmoved new_car /\
  duties (outs (car_after (evs ++ [ex_tick 1; ex_power "0"]))) = [Some 0; Some 0; Some 0; Some 0] /\ closing (car_after (evs ++ [ex_down; ex_power "50"])) = true.
Proof.
  set (evs := [ex_power "100"; ex_turn "-30"; ex_tick 15; ex_power "-50"; ex_power "40"]). cbv zeta. assert (steps new_car evs = Ret (car_after evs)) as S by (apply car_went; vm_compute; reflexivity).
  split; [exact S|]. split; [vm_compute; reflexivity|]. split; [vm_compute; reflexivity|]. split; [vm_compute; reflexivity|].
  split. { destruct (C74_histories _ _ S) as (_ & _ & U & _). destruct (U ltac:(vm_compute; reflexivity)) as [(_ & P & _)|R]; [vm_compute in P; discriminate P|exact R]. }
  split; [repeat split; constructor|]. split; vm_compute; reflexivity.
Qed.

(** ** C75: interleaved threads *)
(** A request becomes a command only with an allowed value. *)
Theorem C75_orderly : forall e m r s x s', read_request e m r s = Ret (Found x, s') -> orderly (Arrive e x).
Proof. intros e m r s x s' H. exact (read_request_fits _ _ _ _ _ _ H). Qed.
(** In every interleaving of requests and the auto thread, at every moment: power and turn have allowed values, and only allowed values were written. *)
Theorem C75_values_partial : forall l s, Forall orderly l -> sys_run sys_new l = Some s ->
  five_powers (power (s_car s)) /\ (exists d, steering (turn (s_car s)) d) /\ Forall legal (outs (s_car s)).
Proof.
  intros l s O H. destruct (sys_run_ok _ _ _ sys_new_ok O H) as ((((P & T) & L & _) & _) & _). split; [exact P|]. split; [apply steering_turns, T|exact L].
Qed.
(** The state after the actions. *)
Definition sys_after (l : list action) : sys := match sys_run sys_new l with Some s => s | None => sys_new end.
Definition ran (x : option sys) : bool := match x with Some _ => true | None => false end.
Lemma sys_ran : forall l, ran (sys_run sys_new l) = true -> sys_run sys_new l = Some (sys_after l).
Proof. intros l H. unfold sys_after. destruct (sys_run sys_new l); [reflexivity|discriminate H]. Qed.
Lemma sys_goes : forall l m, ran (sys_run sys_new l) = true -> ran (sys_run sys_new (l ++ m)) = true -> sys_run (sys_after l) m = Some (sys_after (l ++ m)).
Proof. intros l m H K. unfold sys_after. rewrite sys_run_app in *. destruct (sys_run sys_new l); [|discriminate H]. destruct (sys_run s m); [reflexivity|discriminate K]. Qed.
Lemma all_done : forall l, forallb (fun p => match p with Done _ => true | _ => false end) l = true -> Forall finished l.
Proof. intros l H. apply Forall_forall. intros p I. rewrite forallb_forall in H. specialize (H p I). destruct p; try discriminate H. eexists. reflexivity. Qed.
Definition full_speed : list action := [Arrive car_env (Power 100)] ++ repeat (Handle 0) 26.
Ltac is_orderly := repeat constructor; try discriminate; try (exists 4; reflexivity); try (exists 3; reflexivity); try (exists 0; reflexivity); try (exists (-3); reflexivity).
Example C75_ex : let l := full_speed ++ [Arrive car_env (Turn 90); Sense (ex_sense 25)] ++ repeat Auto 15 ++ repeat (Handle 1) 4 ++ [Arrive car_env (Servo (-90)); Handle 2; Handle 2; Auto] in
  Forall orderly l /\ sys_run sys_new l = Some (sys_after l) /\ members (s_car (sys_after l)) = (true, 75, 90) /\ duties (outs (s_car (sys_after l))) = [Some 2000; Some 2000; Some 2000; Some 2000] /\
  last_word 32 (outs (s_car (sys_after l))) = Some 248.
Proof. cbv zeta. split; [is_orderly|]. split; [apply sys_ran; vm_compute; reflexivity|]. split; [vm_compute; reflexivity|]. split; vm_compute; reflexivity. Qed.
(** The full claim is false of threads: with the powers of the sides computed before and after another request, all wheels get full power while the members say that the car was stopped,
    after all requests were answered. *)
Theorem C75_race_refuted : exists l s, Forall orderly l /\ sys_run sys_new l = Some s /\ Forall finished (s_reqs s) /\ s_auto s = Done true /\ closing (s_car s) = false /\
  power (s_car s) = 0 /\ turn (s_car s) = 0 /\ forall w, turns (outs (s_car s)) w true 100.
Proof.
  set (l := full_speed ++ [Arrive car_env (Turn 90)] ++ repeat (Handle 1) 20 ++ [Arrive car_env (Turn 90); Arrive car_env (Power 0)] ++ repeat (Handle 2) 5 ++ repeat (Handle 3) 26 ++ repeat (Handle 2) 15).
  exists l, (sys_after l). split; [is_orderly|]. split; [apply sys_ran; vm_compute; reflexivity|]. split; [apply all_done; vm_compute; reflexivity|]. split; [vm_compute; reflexivity|]. repeat (split; [vm_compute; reflexivity|]). intros []; split; vm_compute; reflexivity.
Qed.

(** ** C76: stopping *)
(** After any events, one after the other, a request for power 0: all wheels are at rest, and nothing but another request moves them again. *)
Theorem C76_stop_partial : forall evs c cn root e l r v x q, steps new_car evs = Ret c -> closing c = false -> asked cn root e l r v -> same_i r (b "/power") ->
  number_in "power" v = Some x -> e_atof e x = Some q -> (q == 0)%Q ->
  exists a c', serve cn e c l = Ret (a, c') /\ done_reply (a_out a) (Power 0) c' /\ power c' = 0 /\ turn c' = 0 /\ tracking c' = false /\ at_rest (outs c') /\
    forall evs' c2, Forall of_sensors evs' -> steps c' evs' = Ret c2 -> outs c2 = outs c'.
Proof.
  intros evs c cn root e l r v x q H Op (Rd & Se & m & hs & body & Fr & Nf & Pm & Fh & J & B & Rv & Hf) R En Eq Q0. destruct (reached_new _ _ H) as ((W & _) & _).
  destruct (command_answer cn root e c l m r hs body v _ _ _ _ _ W Op Rd Se Fr Nf Pm (takes_power r R) Fh J B Rv Hf) as (a & c' & S & _ & _ & _ & K).
  assert (whole_part q 0) as Wq. { unfold whole_part. rewrite Q0. split; intros _; split; unfold Qle, Qlt; cbn; lia. }
  assert (within (Some q) 100) as Wi. { exists q. split; [reflexivity|]. rewrite Q0. split; unfold Qle; cbn; lia. }
  destruct (K x q 0 En Eq Wi Wq) as (K1 & _). destruct (K1 ltac:(split; [lia|exists 0; reflexivity])) as ((F1 & F2 & F3 & F4 & F5 & F6 & Ro) & D).
  exists a, c'. split; [exact S|]. split; [exact D|]. split; [exact F2|]. split; [exact F3|]. split; [exact F4|]. split; [exact (rolling_rest _ Ro F2 F3)|].
  intros evs' c2 Fe E. apply (sensors_still _ _ _ Fe F2 E).
Qed.
Lemma number_says : forall name text, str_ok (b name) = true -> Json_Spec.number_text (b text) -> body_says (compact (ex_number name text)) (ex_number name text).
Proof. intros name text N T. rewrite <- (app_nil_r (compact _)). apply obj_says. constructor; [|constructor]. split; [apply name_fair, N|constructor; exact T]. Qed.
Lemma digits_number : forall text, forallb (fun c => (48 <=? c) && (c <=? 57)) (b text) = true -> b text <> [] -> (b text = [48] \/ hd 0 (b text) <> 48) -> Json_Spec.number_text (b text).
Proof.
  intros text D N Z0. exists [], (b text), [], []. split; [rewrite !app_nil_r; reflexivity|]. split; [auto|]. split; [|split; [exact Z0|auto]]. split; [exact N|]. apply Forall_forall. intros z I. rewrite forallb_forall in D. specialize (D z I). unfold Json_Spec.dig. lia.
Qed.
Lemma ex_asked : forall r name text, str_ok (b name) = true -> Json_Spec.number_text (b text) -> readable (ex_number name text) -> ~ file_asked ex_config (b "POST") (b r) ->
  full_request (b "/srv/www") (ex_post r name text) (b "POST") (b r) ex_headers (compact (ex_number name text)) -> (length (compact (ex_number name text)) + 4 < 300)%nat ->
  asked ex_conn (b "/srv/www") car_env (ex_post r name text) (b r) (ex_number name text).
Proof.
  intros r name text N T Rv Nf Fr L. split; [exact ex_ready|]. split; [exact car_sized|]. exists (b "POST"), ex_headers, (compact (ex_number name text)). split; [exact Fr|]. split; [exact Nf|]. split; [reflexivity|].
  split; [exact ex_fits|]. split; [exact ex_json|]. split; [apply number_says; assumption|]. split; [exact Rv|exact L].
Qed.
Ltac ask := apply ex_asked; [reflexivity|try (apply digits_number; [reflexivity|discriminate|cbn; auto; right; discriminate])|apply fits_readable; vm_compute; reflexivity|not_file|full|vm_compute; lia].
Example C76_ex : let evs := [ex_power "100"; ex_turn "-30"; ex_tick 15] in let c := car_after evs in
  steps new_car evs = Ret c /\ closing c = false /\ duties (outs c) = [Some 1280; Some 1720; Some 1280; Some 1720] /\
  asked ex_conn (b "/srv/www") car_env (ex_post "/power" "power" "0") (b "/power") (ex_number "power" "0") /\ number_in "power" (ex_number "power" "0") = Some (b "0") /\ e_atof car_env (b "0") = Some (inject_Z 0) /\
  Forall of_sensors [ex_tick 3; Position (b "12.5") (b "-3"); ex_tick 100].
Proof.
  set (evs := [ex_power "100"; ex_turn "-30"; ex_tick 15]). cbv zeta. split; [apply car_went; vm_compute; reflexivity|]. split; [vm_compute; reflexivity|]. split; [vm_compute; reflexivity|]. split; [ask|].
  split; [reflexivity|]. split; [reflexivity|]. repeat constructor.
Qed.
(** The full claim is false of threads: all requests were answered, the last one stopped the car, and then the auto thread, which meant to slow it down, makes it drive. *)
Theorem C76_race_refuted : exists l1 s1 l2 s, Forall orderly l1 /\ sys_run sys_new l1 = Some s1 /\ Forall finished (s_reqs s1) /\ power (s_car s1) = 0 /\ at_rest (outs (s_car s1)) /\
  Forall goes_on l2 /\ sys_run s1 l2 = Some s /\ power (s_car s) = 75 /\ forall w, turns (outs (s_car s)) w true 75.
Proof.
  set (l := full_speed ++ [Sense (ex_sense 25)] ++ repeat Auto 10 ++ [Arrive car_env (Power 0)] ++ repeat (Handle 1) 26).
  exists l, (sys_after l), (repeat Auto 17), (sys_after (l ++ repeat Auto 17)). split; [is_orderly|]. split; [apply sys_ran; vm_compute; reflexivity|]. split; [apply all_done; vm_compute; reflexivity|]. split; [vm_compute; reflexivity|].
  split; [intros []; vm_compute; reflexivity|]. split; [repeat constructor|]. split; [apply sys_goes; vm_compute; reflexivity|]. split; [vm_compute; reflexivity|]. intros []; split; vm_compute; reflexivity.
Qed.

(** ** C77: obstacles *)
(** After any events, one turn of the auto thread: forwards, the power goes down by 25 at most to what is allowed at the distance; backwards nothing changes.  Direction and turn stay. *)
Theorem C77_turn_partial : forall evs c n c', steps new_car evs = Ret c -> closing c = false -> step c (Tick n) = Ret c' ->
  power c' = (if forward c && (allowed (sn_distance n) <? power c) then Z.max (allowed (sn_distance n)) (power c - 25) else power c) /\
  forward c' = forward c /\ turn c' = turn c /\ (power c' <> power c -> rolling c') /\ (power c' = power c -> outs c' = outs c).
Proof.
  intros evs c n c' H Op S. destruct (reached_new _ _ H) as ((W & _) & E). rewrite Op in E. destruct (tick_power n c c' W Op E S) as (A & B & C & _ & _ & D). auto.
Qed.
(** With an obstacle in sight for several turns the power goes down to what is allowed. *)
Theorem C77_turns_partial : forall evs c a l c', steps new_car evs = Ret c -> closing c = false -> forward c = true -> 0 <= a -> Forall (near a) l -> steps c l = Ret c' -> power c' <= Z.max a (power c - 25 * zlen l).
Proof.
  intros evs c a l c' H Op Fw Ha N S. destruct (reached_new _ _ H) as ((W & _) & E). rewrite Op in E. apply (ticks_slow a l c c' N W Op E Fw Ha S).
Qed.
Definition ex_bend : list event := [ex_power "100"; ex_turn "30"].
Definition ex_near : list event := [ex_tick 12; ex_tick 9; ex_tick 7; ex_tick 9].
Example C77_ex : steps new_car ex_bend = Ret (car_after ex_bend) /\ closing (car_after ex_bend) = false /\ forward (car_after ex_bend) = true /\ Forall (near 50) ex_near /\ steps (car_after ex_bend) ex_near = Ret (car_after (ex_bend ++ ex_near)) /\
  power (car_after ex_bend) = 100 /\ map (fun n => power (car_after (ex_bend ++ firstn n ex_near))) [1; 2; 3; 4]%nat = [75; 50; 25; 25] /\ power (car_after [ex_power "-100"; ex_tick 1]) = 100.
Proof.
  split; [apply car_went; vm_compute; reflexivity|]. split; [vm_compute; reflexivity|]. split; [vm_compute; reflexivity|]. split; [repeat constructor; vm_compute; discriminate|].
  split; [vm_compute; reflexivity|]. split; [vm_compute; reflexivity|]. split; vm_compute; reflexivity.
Qed.
(** The full claim, that the car does not drive on after an obstacle within 5 cm was seen, is false: at full power one turn of the thread makes it 75 percent. *)
Theorem C77_slow_refuted : exists evs n c c', steps new_car evs = Ret c /\ sn_distance n = 0 /\ step c (Tick n) = Ret c' /\ power c' = 75 /\ forall w, turns (outs c') w true 75.
Proof.
  exists [ex_power "100"], (ex_sense 0), (car_after [ex_power "100"]), (car_after [ex_power "100"; ex_tick 0]). split; [apply car_went; vm_compute; reflexivity|]. split; [reflexivity|].
  split; [vm_compute; reflexivity|]. split; [vm_compute; reflexivity|]. intros []; split; vm_compute; reflexivity.
Qed.
(** And with power 0 the turn is still carried out: the left wheels get full power towards the obstacle. *)
Theorem C77_turning_refuted : exists evs n c c', steps new_car evs = Ret c /\ sn_distance n = 0 /\ step c (Tick n) = Ret c' /\ power c' = 0 /\
  turns (outs c') FrontLeft true 100 /\ turns (outs c') RearLeft true 100 /\ turns (outs c') FrontRight true 0 /\ turns (outs c') RearRight true 0.
Proof.
  exists [ex_power "25"; ex_turn "90"], (ex_sense 0), (car_after [ex_power "25"; ex_turn "90"]), (car_after [ex_power "25"; ex_turn "90"; ex_tick 0]). split; [apply car_went; vm_compute; reflexivity|]. split; [reflexivity|].
  split; [vm_compute; reflexivity|]. split; [vm_compute; reflexivity|]. repeat split; vm_compute; reflexivity.
Qed.

(** ** C78: changes of direction *)
(** After any events, one more event: a wheel that has power is reversed only if the car was going backwards and is now to go forwards or to stop, or if it was turning with power 0 and is now to go backwards. *)
Theorem C78_direction_partial : forall evs c ev c', steps new_car evs = Ret c -> step c ev = Ret c' -> exists new, outs c' = outs c ++ new /\
  (reversed_under_power (outs c) new -> forward c = false /\ forward c' = true \/ forward c = true /\ power c = 0 /\ turn c <> 0 /\ forward c' = false).
Proof. intros evs c ev c' H S. destruct (reached_new _ _ H) as (F & E). exact (step_reverses ev c c' F E S). Qed.
Example C78_ex : let c := car_after [ex_power "50"; ex_turn "-90"] in steps new_car [ex_power "50"; ex_turn "-90"] = Ret c /\ step c (ex_power "-100") = Ret (car_after [ex_power "50"; ex_turn "-90"; ex_power "-100"]) /\
  duties (outs c) = [Some 0; Some 2000; Some 0; Some 2000] /\ members (car_after [ex_power "50"; ex_turn "-90"; ex_power "-100"]) = (false, 100, -90).
Proof. cbv zeta. split; [apply car_went; vm_compute; reflexivity|]. split; [vm_compute; reflexivity|]. split; vm_compute; reflexivity. Qed.
(** The full claim is false: from backwards to forwards, from backwards to a stop, and from a turn with power 0 to backwards the wheels are reversed under power. *)
Definition new_outs (c c' : car) : list output := skipn (length (outs c)) (outs c').
Ltac reversing evs ev := exists (car_after evs), (car_after (evs ++ [ev])), (new_outs (car_after evs) (car_after (evs ++ [ev])));
  split; [apply car_went; vm_compute; reflexivity|]; split; [vm_compute; reflexivity|]; split; [vm_compute; reflexivity|]; exists FrontLeft.
Theorem C78_forwards_refuted : exists c c' new, steps new_car [ex_power "-100"] = Ret c /\ step c (ex_power "100") = Ret c' /\ outs c' = outs c ++ new /\ reversed_under_power (outs c) new.
Proof. reversing [ex_power "-100"] (ex_power "100"). exists [], false. eexists. exists 2000. split; [vm_compute; reflexivity|]. repeat split; vm_compute; reflexivity. Qed.
Theorem C78_stop_refuted : exists c c' new, steps new_car [ex_power "-100"] = Ret c /\ step c (ex_power "0") = Ret c' /\ outs c' = outs c ++ new /\ reversed_under_power (outs c) new.
Proof. reversing [ex_power "-100"] (ex_power "0"). exists [], false. eexists. exists 2000. split; [vm_compute; reflexivity|]. repeat split; vm_compute; reflexivity. Qed.
Theorem C78_turning_refuted : exists c c' new, steps new_car [ex_power "0"; ex_turn "90"] = Ret c /\ step c (ex_power "-100") = Ret c' /\ outs c' = outs c ++ new /\ reversed_under_power (outs c) new.
Proof. reversing [ex_power "0"; ex_turn "90"] (ex_power "-100"). exists [], true. eexists. exists 2000. split; [vm_compute; reflexivity|]. repeat split; vm_compute; reflexivity. Qed.

(** ** C82: shutdown *)
(** After any events, a request for a shutdown is answered, the hat is reset, the auto thread ends; after that no event changes anything that was written. *)
Theorem C82_shutdown_partial : forall evs c cn root e l m r, steps new_car evs = Ret c -> closing c = false -> ready cn root -> request_line root l m r -> ~ file_asked (c_config cn) m r -> same_i r (b "/shutdown") -> same_i m (b "POST") ->
  exists a c', serve cn e c l = Ret (a, c') /\ a_shut a = true /\ stopped_serving c c' /\ done_reply (a_out a) Shutdown c' /\ forall evs' c2, steps c' evs' = Ret c2 -> outs c2 = outs c'.
Proof.
  intros evs c cn root e l m r H Op Rd Q Nf R Pm. destruct (reached_new _ _ H) as ((_ & _ & _ & J) & _). assert (joined c = false) as Jf by (destruct (joined c); [specialize (J eq_refl); congruence|reflexivity]).
  destruct (shutdown_answer cn root e c l m r Rd Op Q Nf Jf R Pm) as (a & c' & S & Sh & St & D). exists a, c'. repeat (split; [assumption|]).
  assert (closing c' = true /\ ended c' = true) as (C & E) by (unfold stopped_serving in St; subst c'; split; reflexivity). clear - C E.
  intros evs'. revert c' C E. induction evs' as [|ev evs' IH]; intros c' C E c2 K; cbn [steps] in K; [apply ret_inj in K; subst c2; reflexivity|].
  apply bind_inv in K. destruct K as (c1 & K1 & K). assert (outs c1 = outs c' /\ closing c1 = true /\ ended c1 = true) as (O1 & C1 & E1).
  { destruct ev as [cn e l|n|d w]; cbn [step] in K1.
    - apply bind_inv in K1. destruct K1 as ((a & c3) & S & K1). apply ret_inj in K1. subst c3. destruct (serve_performs _ _ _ _ _ _ S) as [-> |(X & _)]; [auto|congruence].
    - rewrite E in K1. apply ret_inj in K1. subst c1. auto.
    - apply ret_inj in K1. subst c1. auto. }
  rewrite (IH c1 C1 E1 c2 K). exact O1.
Qed.
Example C82_ex : let c := car_after [ex_power "100"; ex_turn "-30"] in steps new_car [ex_power "100"; ex_turn "-30"] = Ret c /\ closing c = false /\
  request_line (b "/srv/www") (ex_full "POST" "/shutdown" [] []) (b "POST") (b "/shutdown") /\ ~ file_asked ex_config (b "POST") (b "/shutdown") /\
  closing (car_after [ex_power "100"; ex_turn "-30"; ex_down; ex_tick 3; ex_power "0"]) = true.
Proof. cbv zeta. split; [apply car_went; vm_compute; reflexivity|]. split; [vm_compute; reflexivity|]. split; [fline|]. split; [not_file|]. vm_compute. reflexivity. Qed.
(** With threads: once the auto thread was joined and every request is answered or not started, nothing is written any more. *)
Theorem C82_quiet_partial : forall l1 s1 l2 s2, Forall orderly l1 -> sys_run sys_new l1 = Some s1 -> joined (s_car s1) = true -> Forall (fun p => finished p \/ not_started p) (s_reqs s1) ->
  sys_run s1 l2 = Some s2 -> outs (s_car s2) = outs (s_car s1).
Proof.
  intros l1 s1 l2 s2 O H J R K. destruct (sys_run_ok _ _ _ sys_new_ok O H) as (((_ & _ & E & Je) & _) & _). specialize (Je J). destruct (sys_run_sync _ _ _ sys_new_sync H) as (A & _).
  apply (asleep_run l2 s1 s2); [|exact K]. split; [exact (E Je)|]. split; [|exact R]. destruct A as [(_ & A)|(A & _)]; [exact A|congruence].
Qed.
(** The join waits for a thread that can always come to its end. *)
Theorem C82_join : forall l s n, Forall orderly l -> sys_run sys_new l = Some s -> closing (s_car s) = true -> exists l' s', Forall (fun a => a = Auto \/ a = Sense n) l' /\ sys_run s l' = Some s' /\ ended (s_car s') = true /\ s_reqs s' = s_reqs s.
Proof. intros l s n O H C. apply closing_ends; [apply (sys_run_ok _ _ _ sys_new_ok O H)|exact (sys_run_sync _ _ _ sys_new_sync H)|exact C]. Qed.
(** A shutdown beside the auto thread, which is about to drive. *)
Definition late : list action := full_speed ++ [Sense (ex_sense 25)] ++ repeat Auto 11 ++ [Arrive car_env Shutdown] ++ repeat (Handle 1) 5.
Definition later : list action := repeat Auto 16 ++ [Sense (ex_sense 25)] ++ repeat Auto 2 ++ repeat (Handle 1) 3.
Example C82_quiet_ex : Forall orderly (late ++ later) /\ sys_run sys_new (late ++ later) = Some (sys_after (late ++ later)) /\ joined (s_car (sys_after (late ++ later))) = true /\
  Forall (fun p => finished p \/ not_started p) (s_reqs (sys_after (late ++ later))) /\ ran (sys_run (sys_after (late ++ later)) [Arrive car_env (Power 50); Handle 2; Moved (b "1") (b "2")]) = true /\
  closing (s_car (sys_after late)) = true /\ ended (s_car (sys_after late)) = false.
Proof.
  split; [is_orderly|]. split; [apply sys_ran; vm_compute; reflexivity|]. split; [vm_compute; reflexivity|]. split; [eapply Forall_impl; [|apply all_done; vm_compute; reflexivity]; auto|]. split; [vm_compute; reflexivity|]. split; vm_compute; reflexivity.
Qed.
(** The full claim is false of threads: the auto thread drives the wheels after the hat was reset; the shutdown is answered, and the wheels keep their power. *)
Theorem C82_reset_refuted : exists l s os new, Forall orderly l /\ sys_run sys_new l = Some s /\ Forall finished (s_reqs s) /\ joined (s_car s) = true /\ s_auto s = Done false /\
  outs (s_car s) = os ++ [Level 21 false; Level 21 true] ++ new /\ forall w, turns new w true 75.
Proof.
  exists (late ++ later), (sys_after (late ++ later)), (firstn 8 (outs (s_car (sys_after (late ++ later))))), (skipn 10 (outs (s_car (sys_after (late ++ later))))).
  split; [is_orderly|]. split; [apply sys_ran; vm_compute; reflexivity|]. split; [apply all_done; vm_compute; reflexivity|]. split; [vm_compute; reflexivity|]. split; [vm_compute; reflexivity|].
  split; [vm_compute; reflexivity|]. intros []; split; vm_compute; reflexivity.
Qed.
(** Two shutdowns at a time: the second join throws. *)
Theorem C82_twice_refuted : exists l s, Forall orderly l /\ sys_run sys_new l = Some s /\ nth_error (s_reqs s) 1 = Some (Done Throw).
Proof.
  set (l := [Arrive car_env Shutdown; Arrive car_env Shutdown; Handle 0; Handle 1] ++ repeat (Handle 0) 4 ++ [Sense (ex_sense 25); Auto; Auto] ++ repeat (Handle 0) 3 ++ repeat (Handle 1) 4).
  exists l, (sys_after l). split; [is_orderly|]. split; [apply sys_ran; vm_compute; reflexivity|]. vm_compute. reflexivity.
Qed.

Print Assumptions C74_requests.
Print Assumptions C74_histories.
Print Assumptions C75_orderly.
Print Assumptions C75_values_partial.
Print Assumptions C75_race_refuted.
Print Assumptions C76_stop_partial.
Print Assumptions C76_race_refuted.
Print Assumptions C77_turn_partial.
Print Assumptions C77_turns_partial.
Print Assumptions C77_slow_refuted.
Print Assumptions C77_turning_refuted.
Print Assumptions C78_direction_partial.
Print Assumptions C78_forwards_refuted.
Print Assumptions C78_stop_refuted.
Print Assumptions C78_turning_refuted.
Print Assumptions C82_shutdown_partial.
Print Assumptions C82_quiet_partial.
Print Assumptions C82_join.
Print Assumptions C82_reset_refuted.
Print Assumptions C82_twice_refuted.
