(** Proofs for C74-C82, first part: driving. *)

From Coq Require Import String ZArith QArith List Bool Lia Znumtheory.
From Verif Require Import Base ListMem Ascii_Spec Http_Model Http_Calls Http_Spec Endpoint_Model Endpoint_Spec Rest_Model Rest_Spec RestBody_Spec Car_Model Car_Spec.
From Verif Require Json_Model Json_Spec Smbus_Model.
Import ListNotations.
Open Scope string_scope.
Open Scope list_scope.
Open Scope Z_scope.

(** The constructors of the PWM objects. *)
Lemma wheel_pwm_new : Smbus_Model.pwm_new 72000000 0 0 50 = Some wheel_pwm.
Proof. vm_compute. reflexivity. Qed.
Lemma servo_pwm_new : Smbus_Model.pwm_new 72000000 500 2500 50 = Some servo_pwm.
Proof. vm_compute. reflexivity. Qed.

(** ** Programs *)
Lemma run_next : forall A B (p : prog A) (k : A -> prog B) c, run (next p k) c = run (k (fst (run p c))) (snd (run p c)).
Proof. intros A B p k. induction p as [a|f IH|f p IH|p IH]; intros c; cbn [next run fst snd]; auto. Qed.
Lemma run_done : forall A (a : A) c, run (Done a) c = (a, c).
Proof. reflexivity. Qed.
Lemma run_read : forall A (f : car -> prog A) c, run (Read f) c = run (f c) c.
Proof. reflexivity. Qed.
Lemma run_write : forall A f (k : prog A) c, run (Write f k) c = run k (f c).
Proof. reflexivity. Qed.
Lemma run_join : forall A (k : prog A) c, run (Join k) c = run k (set_ended c).
Proof. reflexivity. Qed.
Definition puts (os : list output) (c : car) : car :=
  {| forward := forward c; power := power c; turn := turn c; tracking := tracking c; obstacle := obstacle c; gray_left := gray_left c; gray_center := gray_center c; gray_right := gray_right c; depth := depth c; width := width c; closing := closing c; ended := ended c; joined := joined c; outs := outs c ++ os |}.
Lemma puts_nil : forall c, puts [] c = c.
Proof. intros []. unfold puts. cbn. rewrite app_nil_r. reflexivity. Qed.
Lemma put_puts : forall o c, put o c = puts [o] c.
Proof. intros o []. reflexivity. Qed.
Lemma puts_puts : forall a k c, puts k (puts a c) = puts (a ++ k) c.
Proof. intros a k []. unfold puts. cbn. rewrite <- app_assoc. reflexivity. Qed.
Lemma puts_forward : forall a c, forward (puts a c) = forward c.
Proof. reflexivity. Qed.
Lemma puts_power : forall a c, power (puts a c) = power c.
Proof. reflexivity. Qed.
Lemma puts_turn : forall a c, turn (puts a c) = turn c.
Proof. reflexivity. Qed.
#[local] Opaque puts.

(** ** Driving *)
Definition delta_of (t t' : Z) : Z :=
  let d := if (t =? -30) || (t =? 30) then 11 else if (t =? -45) || (t =? 45) then 18 else if (t =? -60) || (t =? 60) then 25 else if (t =? -90) || (t =? 90) then 50 else 0 in
  if t' <? 0 then - d else d.
Definition adjusted (l r : Z) : Z :=
  if 100 <? l then 100 - l else if 100 <? r then 100 - r else if l <? 0 then 0 - l else if r <? 0 then 0 - r else 0.
Definition left_of (p t : Z) : Z := let d := delta_of t t in p + d + adjusted (p + d) (p - d).
Definition right_of (p t : Z) : Z := let d := delta_of t t in p - d + adjusted (p + d) (p - d).
Definition wheel_word (n : Z) : Z := Smbus_Model.capture_word wheel_pwm (wrap_u16 n).
Definition wheel_outs (f : bool) (pin reg n : Z) : list output := [Level pin (negb f); Word reg (wheel_word n)].
Definition drive_outs (f : bool) (l r : Z) : list output :=
  wheel_outs f 23 45 l ++ wheel_outs f 24 44 r ++ wheel_outs f 13 40 l ++ wheel_outs f 20 41 r.
Lemma run_sides : forall c, run get_side_powers c = ((left_of (power c) (turn c), right_of (power c) (turn c)), c).
Proof. intros c. unfold get_side_powers. rewrite run_next. reflexivity. Qed.
Lemma run_motor : forall pin reg n c, run (motor pin reg (wrap_u16 n)) c = (tt, puts (wheel_outs (forward c) pin reg n) c).
Proof. intros. unfold motor. cbn [run]. rewrite !put_puts, puts_puts. reflexivity. Qed.
Lemma run_drive : forall c, run drive c = (tt, puts (drive_outs (forward c) (left_of (power c) (turn c)) (right_of (power c) (turn c))) c).
Proof.
  intros c. unfold drive. rewrite run_next, run_sides. cbn [fst snd]. repeat (rewrite ?run_next, ?run_motor, ?puts_forward; cbn [fst snd]). rewrite !puts_puts. reflexivity.
Qed.

Definition seven_turns (t : Z) : Prop := t = 0 \/ t = 30 \/ t = 60 \/ t = 90 \/ t = -30 \/ t = -60 \/ t = -90.
Lemma steering_turns : forall t, seven_turns t <-> exists d, steering t d.
Proof.
  intros t. split.
  - intros [-> |[-> |[-> |[-> |[-> |[-> | ->]]]]]]; eexists; constructor.
  - intros (d & H). unfold seven_turns. inversion H; lia.
Qed.
Lemma delta_steering : forall t, seven_turns t -> steering t (delta_of t t).
Proof. intros t [-> |[-> |[-> |[-> |[-> |[-> | ->]]]]]]; constructor. Qed.
Lemma steering_det : forall t d d', steering t d -> steering t d' -> d = d'.
Proof. intros t d d' A B. inversion A; subst; inversion B; reflexivity. Qed.
Lemma sides_of : forall p t, 0 <= p <= 100 -> seven_turns t -> sides p t (left_of p t) (right_of p t).
Proof.
  intros p t Hp Ht. exists (delta_of t t). split; [apply delta_steering, Ht|]. unfold left_of, right_of. cbv zeta.
  assert (Z.abs (delta_of t t) <= 50) as Hd by (destruct Ht as [-> |[-> |[-> |[-> |[-> |[-> | ->]]]]]]; cbn; lia).
  generalize dependent (delta_of t t). intros d Hd. unfold adjusted.
  destruct (100 <? p + d) eqn:A; [|destruct (100 <? p - d) eqn:B; [|destruct (p + d <? 0) eqn:C; [|destruct (p - d <? 0) eqn:D]]]; repeat split; lia.
Qed.
Lemma sides_det : forall p t l r l' r', 0 <= p <= 100 -> sides p t l r -> sides p t l' r' -> l = l' /\ r = r'.
Proof.
  intros p t l r l' r' Hp (d & S & A & B & C & D & E & F) (d' & S' & A' & B' & C' & D' & E' & F'). rewrite (steering_det _ _ _ S S') in *. clear d S.
  assert (100 < p + Z.abs d' \/ p + Z.abs d' <= 100 /\ p - Z.abs d' < 0 \/ p + Z.abs d' <= 100 /\ 0 <= p - Z.abs d') as [H|[(H & K)|(H & K)]] by lia.
  - specialize (F H). specialize (F' H). lia.
  - specialize (E K H). specialize (E' K H). lia.
  - specialize (D K H). specialize (D' K H). lia.
Qed.
Lemma wheel_word_in : forall n, 0 <= n <= 100 -> wheel_word n = 20 * n.
Proof.
  intros n Hn. unfold wheel_word, Smbus_Model.capture_word, Smbus_Model.capture, wheel_pwm, wrap_u16, wrap_u64. cbn [Smbus_Model.min_w Smbus_Model.max_w Smbus_Model.autoreload].
  rewrite (Z.mod_small n) by lia. replace (n <? 0) with false by lia. replace (100 <? n) with false by lia.
  destruct (n =? 0) eqn:E0; [apply Z.eqb_eq in E0; subst; reflexivity|]. destruct (n =? 100) eqn:E1; [apply Z.eqb_eq in E1; subst; reflexivity|].
  change (2000 - 0) with 2000. rewrite (Z.mod_small 2000), (Z.mod_small (n * 2000)) by lia. replace (n * 2000) with (20 * n * 100) by lia. rewrite Z.div_mul by lia. rewrite (Z.mod_small (0 + _)) by lia. rewrite Z.mod_small by lia. lia.
Qed.
(** Whatever the powers are, the words are at most 2000. *)
Lemma wheel_word_any : forall n, 0 <= wheel_word n <= 2000.
Proof.
  intros n. assert (0 <= wrap_u16 n) as H by (unfold wrap_u16; apply Z.mod_pos_bound; lia).
  destruct (Z.leb_spec (wrap_u16 n) 100) as [L|L].
  - assert (wheel_word n = wheel_word (wrap_u16 n)) as ->. { unfold wheel_word. f_equal. unfold wrap_u16 in *. rewrite Z.mod_mod by lia. reflexivity. }
    rewrite wheel_word_in by lia. lia.
  - unfold wheel_word, Smbus_Model.capture_word, Smbus_Model.capture. replace (wrap_u16 n <? 0) with false by lia. replace (100 <? wrap_u16 n) with true by lia. vm_compute. split; discriminate.
Qed.

(** ** What was written last *)
Lemma last_level_app : forall pin os a, last_level pin (os ++ a) = match last_level pin a with Some h => Some h | None => last_level pin os end.
Proof.
  intros pin os a. unfold last_level. rewrite fold_left_app. generalize (fold_left (fun a o => match o with Level q h => if q =? pin then Some h else a | Word _ _ => a end) os None). intros x.
  revert x. induction a as [|o a IH] using rev_ind; intros x; [reflexivity|]. rewrite !fold_left_app, IH. cbn [fold_left]. destruct o as [q h|]; [destruct (q =? pin)|]; reflexivity.
Qed.
Lemma last_word_app : forall reg os a, last_word reg (os ++ a) = match last_word reg a with Some h => Some h | None => last_word reg os end.
Proof.
  intros reg os a. unfold last_word. rewrite fold_left_app. generalize (fold_left (fun a o => match o with Word q w => if q =? reg then Some w else a | Level _ _ => a end) os None). intros x.
  revert x. induction a as [|o a IH] using rev_ind; intros x; [reflexivity|]. rewrite !fold_left_app, IH. cbn [fold_left]. destruct o as [|q h]; [|destruct (q =? reg)]; reflexivity.
Qed.
Lemma drive_turns : forall os f l r w, 0 <= l <= 100 -> 0 <= r <= 100 -> turns (os ++ drive_outs f l r) w f (if is_left w then l else r).
Proof.
  intros os f l r w Hl Hr. unfold turns. rewrite last_level_app, last_word_app. unfold drive_outs, wheel_outs. rewrite !wheel_word_in by assumption. destruct w; split; reflexivity.
Qed.
Lemma rolling_puts : forall c, 0 <= power c <= 100 -> seven_turns (turn c) -> rolling (puts (drive_outs (forward c) (left_of (power c) (turn c)) (right_of (power c) (turn c))) c).
Proof.
  intros c Hp Ht. pose proof (sides_of _ _ Hp Ht) as S. exists (left_of (power c) (turn c)), (right_of (power c) (turn c)). split; [exact S|].
  destruct S as (d & _ & _ & L & R & _). intros w. apply drive_turns; assumption.
Qed.

(** ** The commands *)
Definition power_outs (p : Z) (c : car) : list output :=
  (if p * power c <? 0 then drive_outs (forward c) 0 0 else []) ++
  drive_outs (0 <=? p) (left_of (Z.abs p) (if p =? 0 then 0 else turn c)) (right_of (Z.abs p) (if p =? 0 then 0 else turn c)).
Definition new_power (p : Z) (c : car) : car :=
  {| forward := 0 <=? p; power := Z.abs p; turn := if p =? 0 then 0 else turn c; tracking := negb (p =? 0); obstacle := obstacle c; gray_left := gray_left c; gray_center := gray_center c; gray_right := gray_right c;
     depth := depth c; width := width c; closing := closing c; ended := ended c; joined := joined c; outs := outs c ++ power_outs p c |}.
Definition power_text (p t : Z) : list Z := b "power: forward=" ++ (if 0 <=? p then [49] else [48]) ++ b ", power=" ++ show (Z.abs p) ++ b ", turn=" ++ show (if p =? 0 then 0 else t).
Lemma run_stop : forall p c, run (stop_first p) c = (tt, if p * power c <? 0 then set_turn (turn c) (set_tracking false (puts (drive_outs (forward c) 0 0) (set_turn 0 (set_power 0 c)))) else c).
Proof. intros p c. unfold stop_first. cbn [run]. destruct (p * power c <? 0); [|reflexivity]. cbn [run]. rewrite run_next, run_drive. reflexivity. Qed.
Lemma run_power : forall p c, run (do_power p) c = (power_text p (turn c), new_power p c).
Proof.
  intros p c. unfold do_power. rewrite run_next, run_stop. cbn [fst snd].
  set (c1 := if p * power c <? 0 then _ else c).
  assert (c1 = {| forward := forward c; power := if p * power c <? 0 then 0 else power c; turn := turn c; tracking := if p * power c <? 0 then false else tracking c; obstacle := obstacle c; gray_left := gray_left c; gray_center := gray_center c; gray_right := gray_right c;
     depth := depth c; width := width c; closing := closing c; ended := ended c; joined := joined c; outs := outs c ++ (if p * power c <? 0 then drive_outs (forward c) 0 0 else []) |}) as E.
  { subst c1. destruct (p * power c <? 0); destruct c; [reflexivity|]. cbn. rewrite app_nil_r. reflexivity. }
  clearbody c1. rewrite run_next.
  set (c2 := {| forward := forward c; power := power c1; turn := turn c; tracking := if p =? 0 then tracking c1 else true; obstacle := obstacle c; gray_left := gray_left c; gray_center := gray_center c; gray_right := gray_right c;
     depth := depth c; width := width c; closing := closing c; ended := ended c; joined := joined c; outs := outs c1 |}).
  assert (run (start_tracking p) c1 = (tt, c2)) as ->.
  { unfold start_tracking. subst c2. destruct (p =? 0); [rewrite run_done|rewrite run_read; destruct (tracking c1) eqn:T; [rewrite run_done|rewrite run_write, run_done]]; subst c1; cbn in *; rewrite ?T; reflexivity. }
  cbn [fst snd]. rewrite run_write, run_next.
  set (c3 := set_turn (if p =? 0 then 0 else turn c) (set_forward true c2)).
  assert (run (if p =? 0 then Write (set_turn 0) (Done tt) else Done tt) (set_forward true c2) = (tt, c3)) as -> by (unfold c3; destruct (p =? 0); reflexivity).
  cbn [fst snd]. rewrite run_next.
  set (c4 := set_forward (0 <=? p) c3).
  assert (run (if p <? 0 then Write (set_forward false) (Done tt) else Done tt) c3 = (tt, c4)) as -> by (unfold c4; destruct (p <? 0) eqn:N; [replace (0 <=? p) with false by lia|replace (0 <=? p) with true by lia]; reflexivity).
  cbn [fst snd]. rewrite run_write, run_next, run_drive. cbn [fst snd]. rewrite run_read, run_next, puts_power.
  change (power (set_power (Z.abs p) c4)) with (Z.abs p). change (turn (set_power (Z.abs p) c4)) with (if p =? 0 then 0 else turn c). change (forward (set_power (Z.abs p) c4)) with (0 <=? p).
  set (c5 := puts _ _).
  assert (run (if Z.abs p =? 0 then Write (set_tracking false) (Done tt) else Done tt) c5 = (tt, new_power p c)) as ->.
  { replace (Z.abs p =? 0) with (p =? 0) by (destruct p; reflexivity). unfold c5, c4, c3, c2, new_power, power_outs. rewrite E. cbn [outs]. rewrite app_assoc. destruct (p =? 0); reflexivity. }
  cbn [fst snd]. rewrite !run_read. reflexivity.
Qed.
Definition turn_text (p t : Z) : list Z := b "turn: power=" ++ show p ++ b ", turn=" ++ show t.
Lemma run_turn : forall t c, run (do_turn t) c = (turn_text (power c) t, puts (drive_outs (forward c) (left_of (power c) t) (right_of (power c) t)) (set_turn t c)).
Proof. intros t c. unfold do_turn. cbn [run]. rewrite run_next, run_drive. reflexivity. Qed.
Definition servo_word (a : Z) : Z := Smbus_Model.capture_word servo_pwm (servo_duty a).
Lemma servo_words : forall a, seven_turns a -> 50 <= servo_word a <= 250 /\
  servo_word a = (if a =? -90 then 248 else if a =? -60 then 216 else if a =? -30 then 184 else if a =? 0 then 150 else if a =? 30 then 118 else if a =? 60 then 86 else 54).
Proof. intros a [-> |[-> |[-> |[-> |[-> |[-> | ->]]]]]]; vm_compute; repeat split; discriminate. Qed.
Lemma servo_pulse : forall a, seven_turns a -> pulse_for a (10 * servo_word a).
Proof. intros a H. destruct (servo_words a H) as (R & E). split; [lia|]. rewrite E. unfold seven_turns in H. repeat match type of H with _ \/ _ => destruct H as [->|H] end; try subst a; cbn; lia. Qed.
Lemma run_servo : forall a c, run (do_servo a) c = (b "servo: angle=" ++ show a, put (Word 32 0) (put (Word 32 (servo_word a)) c)).
Proof. intros a c. reflexivity. Qed.
Definition shut_car (c : car) : car := set_joined (set_ended (put (Level 21 true) (put (Level 21 false) (set_closing c)))).
Lemma run_shutdown : forall c, joined c = false -> run do_shutdown c = (Some (b "Server is shuting down..."), shut_car c).
Proof. intros c H. unfold do_shutdown. cbn [run]. change (joined (put (Level line_reset true) (put (Level line_reset false) (set_closing c)))) with (joined c). rewrite H. cbn [run]. change (joined (set_ended (put (Level line_reset true) (put (Level line_reset false) (set_closing c))))) with (joined c). rewrite H. reflexivity. Qed.
Lemma run_shutdown_twice : forall c, joined c = true -> fst (run do_shutdown c) = None.
Proof. intros c H. unfold do_shutdown. cbn [run]. change (joined (put (Level line_reset true) (put (Level line_reset false) (set_closing c)))) with (joined c). rewrite H. reflexivity. Qed.
Lemma run_autos : forall e c, run (do_autos e) c = (json_text (e_body e 513) (autos_tokens (obstacle c) (gray_left c) (gray_center c) (gray_right c) (depth c) (width c)), c).
Proof. reflexivity. Qed.

(** ** Values that are accepted *)
Lemma five_steps : forall p, fits_steps p 100 25 -> five_powers (Z.abs p).
Proof. intros p (H & k & ->). unfold five_powers. lia. Qed.
Lemma seven_steps : forall t, fits_steps t 90 30 <-> seven_turns t.
Proof.
  intros t. split.
  - intros (H & k & ->). unfold seven_turns. lia.
  - intros [-> |[-> |[-> |[-> |[-> |[-> | ->]]]]]]; (split; [lia|]); [exists 0|exists 1|exists 2|exists 3|exists (-1)|exists (-2)|exists (-3)]; reflexivity.
Qed.
Lemma five_range : forall p, five_powers p -> 0 <= p <= 100.
Proof. unfold five_powers. lia. Qed.
Lemma in_range_fits : forall v hi st, 0 < st -> in_range v hi st = true -> fits_steps v hi st.
Proof.
  intros v hi st Hs H. unfold in_range in H. apply negb_true_iff in H. rewrite !orb_false_iff, negb_false_iff in H. destruct H as ((A & B) & C). split; [lia|].
  apply Z.eqb_eq in C. apply Z.rem_divide; [lia|exact C].
Qed.
Lemma fits_in_range : forall v hi st, 0 < st -> fits_steps v hi st -> in_range v hi st = true.
Proof.
  intros v hi st Hs (A & B). unfold in_range. apply negb_true_iff. rewrite !orb_false_iff, negb_false_iff. split; [split; lia|]. apply Z.eqb_eq. apply Z.rem_divide; [lia|exact B].
Qed.
Lemma in_range_iff : forall v hi st, 0 < st -> in_range v hi st = false -> ~ fits_steps v hi st.
Proof. intros v hi st Hs H F. rewrite (fits_in_range _ _ _ Hs F) in H. discriminate. Qed.

(** ** What a request does to the car *)
Definition well (c : car) : Prop := five_powers (power c) /\ seven_turns (turn c).
Lemma same_rest_refl : forall c, same_rest c c.
Proof. intros c. repeat split. Qed.
Lemma outs_puts : forall os c, outs (puts os c) = outs c ++ os.
Proof. reflexivity. Qed.
Lemma power_obeyed : forall p c, well c -> fits_steps p 100 25 -> powered p c (new_power p c).
Proof.
  intros p c (Hp & Ht) F. unfold powered. do 4 (split; [reflexivity|]). split; [repeat split|]. split; [exists (power_outs p c); reflexivity|].
  pose proof (five_range _ (five_steps _ F)) as R. assert (seven_turns (if p =? 0 then 0 else turn c)) as T by (destruct (p =? 0); [left; reflexivity|exact Ht]).
  unfold rolling. change (power (new_power p c)) with (Z.abs p). change (turn (new_power p c)) with (if p =? 0 then 0 else turn c). change (forward (new_power p c)) with (0 <=? p).
  pose proof (sides_of _ _ R T) as S. eexists _, _. split; [exact S|]. destruct S as (d & _ & _ & L & Q & _). intros w.
  change (outs (new_power p c)) with (outs c ++ power_outs p c). unfold power_outs. rewrite app_assoc. apply drive_turns; assumption.
Qed.
Lemma turn_obeyed : forall t c, well c -> fits_steps t 90 30 -> turned t c (puts (drive_outs (forward c) (left_of (power c) t) (right_of (power c) t)) (set_turn t c)).
Proof.
  intros t c (Hp & Ht) F. unfold turned. do 4 (split; [reflexivity|]). split; [repeat split|]. split; [eexists; reflexivity|].
  exact (rolling_puts (set_turn t c) (five_range _ Hp) (proj1 (seven_steps t) F)).
Qed.
#[local] Opaque json_text bytes_of_string decimal drive.
Lemma perform_power : forall e p c, run (perform e (Power p)) c = (Ret (ok_response (power_text p (turn c))), new_power p c).
Proof. intros e p c. unfold perform. rewrite run_next, run_power. exact (run_done _ _ _). Qed.
Lemma perform_turn : forall e t c, run (perform e (Turn t)) c = (Ret (ok_response (turn_text (power c) t)), puts (drive_outs (forward c) (left_of (power c) t) (right_of (power c) t)) (set_turn t c)).
Proof. intros e t c. unfold perform. rewrite run_next, run_turn. exact (run_done _ _ _). Qed.
Lemma perform_servo : forall e a c, run (perform e (Servo a)) c = (Ret (ok_response (b "servo: angle=" ++ show a)), put (Word 32 0) (put (Word 32 (servo_word a)) c)).
Proof. intros e a c. unfold perform. rewrite run_next, run_servo. exact (run_done _ _ _). Qed.
Lemma perform_autos : forall e c, run (perform e Autos) c = (Http_Model.bind (json_text (e_body e 513) (autos_tokens (obstacle c) (gray_left c) (gray_center c) (gray_right c) (depth c) (width c))) (fun t => Ret (json_response t)), c).
Proof. intros e c. unfold perform. rewrite run_next, run_autos. generalize (json_text (e_body e 513) (autos_tokens (obstacle c) (gray_left c) (gray_center c) (gray_right c) (depth c) (width c))). intros j. exact (run_done _ _ _). Qed.
Lemma perform_shutdown : forall e c, joined c = false -> run (perform e Shutdown) c = (Ret (ok_response (b "Server is shuting down...")), shut_car c).
Proof. intros e c J. unfold perform. rewrite run_next, (run_shutdown c J). exact (run_done _ _ _). Qed.
Lemma perform_shutdown_twice : forall e c, joined c = true -> fst (run (perform e Shutdown) c) = Throw.
Proof. intros e c J. unfold perform. rewrite run_next, (run_shutdown_twice c J). reflexivity. Qed.
Lemma pair_snd : forall A B (a a' : A) (x y : B), (a, x) = (a', y) -> y = x.
Proof. intros A B a a' x y H. apply (f_equal snd) in H. symmetry. exact H. Qed.
Lemma perform_obeyed : forall e x c rp c', well c -> acceptable x -> run (perform e x) c = (Ret rp, c') -> obeys x c c'.
Proof.
  intros e x c rp c' W A H. destruct x as [p|t|a| |].
  - rewrite perform_power in H. rewrite (pair_snd _ _ _ _ _ _ H). apply power_obeyed; assumption.
  - rewrite perform_turn in H. rewrite (pair_snd _ _ _ _ _ _ H). apply turn_obeyed; assumption.
  - rewrite perform_servo in H. rewrite (pair_snd _ _ _ _ _ _ H). exists (10 * servo_word a). split; [apply servo_pulse, seven_steps, A|]. exists (servo_word a). split; reflexivity.
  - rewrite perform_autos in H. rewrite (pair_snd _ _ _ _ _ _ H). reflexivity.
  - destruct (joined c) eqn:J.
    + pose proof (perform_shutdown_twice e c J) as N. rewrite H in N. cbn [fst] in N. discriminate N.
    + rewrite (perform_shutdown e c J) in H. rewrite (pair_snd _ _ _ _ _ _ H). reflexivity.
Qed.
Lemma bind_inv : forall A B (x : hres A) (k : A -> hres B) r, Http_Model.bind x k = Ret r -> exists a, x = Ret a /\ k a = Ret r.
Proof. intros A B x k r H. destruct x; cbn in H; try discriminate H. eexists. split; [reflexivity|exact H]. Qed.
Lemma read_command_fits : forall e name hi st bad mk m s x s', 0 < st -> read_command e name hi st bad mk m s = Ret (Found x, s') -> exists n, x = mk n /\ fits_steps n hi st.
Proof.
  intros e name hi st bad mk m s x s' Hs H. unfold read_command in H. apply bind_inv in H. destruct H as (post & _ & H). destruct (negb post); [discriminate H|].
  apply bind_inv in H. destruct H as ((v & s1) & _ & H). destruct v as [[|]|]; try discriminate H. apply bind_inv in H. destruct H as (n & _ & H). destruct n as [n|]; [|discriminate H].
  destruct (in_range n hi st) eqn:R; [|discriminate H]. injection H as <- _. exists n. split; [reflexivity|]. apply in_range_fits; assumption.
Qed.
Lemma read_request_fits : forall e m r s x s', read_request e m r s = Ret (Found x, s') -> acceptable x.
Proof.
  intros e m r s x s' H. unfold read_request in H.
  apply bind_inv in H. destruct H as (b1 & _ & H). destruct b1. { destruct (read_command_fits _ _ _ _ _ _ _ _ _ _ (eq_refl : 0 < 25) H) as (n & -> & F). exact F. }
  apply bind_inv in H. destruct H as (b2 & _ & H). destruct b2. { destruct (read_command_fits _ _ _ _ _ _ _ _ _ _ (eq_refl : 0 < 30) H) as (n & -> & F). exact F. }
  apply bind_inv in H. destruct H as (b3 & _ & H). destruct b3. { unfold read_autos in H. apply bind_inv in H. destruct H as (g & _ & H). destruct g; [|discriminate H]. injection H as <- _. exact I. }
  apply bind_inv in H. destruct H as (b4 & _ & H). destruct b4. { destruct (read_command_fits _ _ _ _ _ _ _ _ _ _ (eq_refl : 0 < 30) H) as (n & -> & F). exact F. }
  apply bind_inv in H. destruct H as (b5 & _ & H). destruct b5. { unfold read_shutdown in H. apply bind_inv in H. destruct H as (g & _ & H). destruct g; [|discriminate H]. injection H as <- _. exact I. }
  discriminate H.
Qed.
Lemma serve_performs : forall cn e c l a c', serve cn e c l = Ret (a, c') -> c' = c \/ closing c = false /\ exists x rp, acceptable x /\ run (perform e x) c = (Ret rp, c').
Proof.
  intros cn e c l a c' H. unfold serve in H. apply bind_inv in H. destruct H as (((m & path) & s) & _ & H).
  destruct (closing c) eqn:C. { injection H as _ <-. left. reflexivity. }
  destruct (is_file_request _ _ _) as [[|]|]; [| |discriminate H].
  - apply bind_inv in H. destruct H as ((p & calls) & _ & H). apply bind_inv in H. destruct H as (w & _ & H). injection H as _ <-. left. reflexivity.
  - apply bind_inv in H. destruct H as ((x & s') & R & H). destruct x as [calls|x].
    + apply bind_inv in H. destruct H as (w & _ & H). injection H as _ <-. left. reflexivity.
    + right. split; [reflexivity|]. pose proof (read_request_fits _ _ _ _ _ _ R) as A. destruct (run (perform e x) c) as (rp, c2) eqn:P. apply bind_inv in H. destruct H as (calls & -> & H).
      apply bind_inv in H. destruct H as (w & _ & H). injection H as _ <-. exists x, calls. split; [exact A|exact P].
Qed.
Lemma serve_obeys : forall cn e c l a c', well c -> serve cn e c l = Ret (a, c') -> c' = c \/ closing c = false /\ exists x, acceptable x /\ obeys x c c'.
Proof.
  intros cn e c l a c' W H. destruct (serve_performs _ _ _ _ _ _ H) as [H1|(C & x & rp & A & P)]; [left; exact H1|]. right. split; [exact C|]. exists x. split; [exact A|]. exact (perform_obeyed _ _ _ _ _ W A P).
Qed.

(** ** The auto thread *)
Definition limited (f : bool) (p d : Z) : Z :=
  if f then (if (75 <? p) && (d <? 30) then 75 else if (50 <? p) && (d <? 20) then 50 else if (25 <? p) && (d <? 10) then 25 else if (0 <? p) && (d <? 5) then 0 else p) else p.
Definition redriven (c : car) : car := puts (drive_outs (forward c) (left_of (power c) (turn c)) (right_of (power c) (turn c))) c.
Lemma run_limit : forall c, run auto_limit_power c =
  (tt, if limited (forward c) (power c) (obstacle c) <? power c then redriven (set_power (limited (forward c) (power c) (obstacle c)) c) else c).
Proof.
  intros c. unfold auto_limit_power. rewrite !run_read, run_next.
  set (q := if forward c then _ else Done (power c)).
  assert (run q c = (limited (forward c) (power c) (obstacle c), c)) as ->.
  { subst q. unfold limited. destruct (forward c); [|reflexivity]. rewrite run_read. destruct ((75 <? power c) && (obstacle c <? 30)); [reflexivity|]. rewrite run_read. destruct ((50 <? power c) && (obstacle c <? 20)); [reflexivity|].
    rewrite run_read. destruct ((25 <? power c) && (obstacle c <? 10)); [reflexivity|]. rewrite run_read. destruct ((0 <? power c) && (obstacle c <? 5)); reflexivity. }
  cbn [fst snd]. rewrite run_read. destruct (limited (forward c) (power c) (obstacle c) <? power c); [|reflexivity]. rewrite run_write, run_drive. reflexivity.
Qed.
Definition sensed (n : senses) (c : car) : car := set_gray_right (sn_right n) (set_gray_center (sn_center n) (set_gray_left (sn_left n) (set_obstacle (sn_distance n) c))).
Lemma run_auto : forall n c, closing c = false -> snd (run (auto_turn n) c) =
  if limited (forward c) (power c) (sn_distance n) <? power c then redriven (set_power (limited (forward c) (power c) (sn_distance n)) (sensed n c)) else sensed n c.
Proof.
  intros n c H. unfold auto_turn. rewrite run_read, H, !run_write, run_next, run_limit. reflexivity.
Qed.
Lemma limited_five : forall f p d, five_powers p -> five_powers (limited f p d).
Proof. intros f p d H. unfold limited. destruct f; [|exact H]. repeat match goal with |- five_powers (if ?b then _ else _) => destruct b end; try exact H; unfold five_powers; auto. Qed.
Lemma limited_rule : forall p d, five_powers p -> limited true p d = if allowed d <? p then Z.max (allowed d) (p - 25) else p.
Proof.
  intros p d H. unfold limited, allowed.
  destruct (d <? 5) eqn:A; [|destruct (d <? 10) eqn:B; [|destruct (d <? 20) eqn:C; [|destruct (d <? 30) eqn:D]]];
  repeat match goal with |- context [d <? ?k] => (replace (d <? k) with true by lia) || (replace (d <? k) with false by lia) end;
  destruct H as [-> |[-> |[-> |[-> | ->]]]]; reflexivity.
Qed.
Lemma limited_lt : forall f p d, five_powers p -> limited f p d < p -> f = true /\ allowed d < p.
Proof. intros f p d H L. destruct f; [|unfold limited in L; lia]. split; [reflexivity|]. rewrite limited_rule in L by exact H. destruct (allowed d <? p) eqn:A; lia. Qed.
Lemma redriven_rolling : forall c, well c -> rolling (redriven c).
Proof. intros c (P & T). apply rolling_puts; [apply five_range, P|exact T]. Qed.

(** ** Histories *)
Definition fine (c : car) : Prop :=
  well c /\ (closing c = false -> unmoved c \/ rolling c) /\ (closing c = true -> was_reset c /\ ended c = true) /\ (joined c = true -> closing c = true).
Lemma fine_new : fine new_car.
Proof. split; [split; left; reflexivity|]. split; [intros _; left; repeat split; constructor|]. split; intros H; discriminate H. Qed.
Lemma not_for_servo : forall w, ~ for_wheels (Word 32 w).
Proof. intros w ([| | |] & H); cbn in H; lia. Qed.
Lemma rolling_servo : forall c x y, rolling c -> rolling (put (Word 32 x) (put (Word 32 y) c)).
Proof.
  intros c x y (l & r & S & T). exists l, r. split; [exact S|]. intros w. specialize (T w). unfold turns in *.
  change (outs (put (Word 32 x) (put (Word 32 y) c))) with ((outs c ++ [Word 32 y]) ++ [Word 32 x]). rewrite <- app_assoc, last_level_app, last_word_app. destruct w; exact T.
Qed.
Lemma fine_obeys : forall x c c', fine c -> closing c = false -> acceptable x -> obeys x c c' -> fine c'.
Proof.
  intros x c c' ((P & T) & U & R & J) C A O. destruct x as [p|t|a| |]; cbn [obeys acceptable] in O, A.
  - destruct O as (F1 & F2 & F3 & F4 & (_ & _ & _ & _ & _ & _ & S1 & S2 & S3) & _ & Ro). split; [split|split; [|split]].
    + rewrite F2. apply five_steps, A.
    + rewrite F3. destruct (p =? 0); [left; reflexivity|exact T].
    + intros _. right. exact Ro.
    + intros H. congruence.
    + intros H. rewrite S1. apply J. congruence.
  - destruct O as (F1 & F2 & F3 & F4 & (_ & _ & _ & _ & _ & _ & S1 & S2 & S3) & _ & Ro). split; [split|split; [|split]].
    + rewrite F2. exact P.
    + rewrite F3. apply seven_steps, A.
    + intros _. right. exact Ro.
    + intros H. congruence.
    + intros H. rewrite S1. apply J. congruence.
  - destruct O as (us & _ & w & _ & ->). split; [split; assumption|]. split; [|split; [intros H; cbn in H; congruence|exact J]].
    intros _. destruct (U C) as [(N & N1 & N2 & N3)|Ro]; [left|right; apply rolling_servo, Ro]. split; [|repeat split; assumption].
    change (outs (put (Word 32 0) (put (Word 32 w) c))) with ((outs c ++ [Word 32 w]) ++ [Word 32 0]). rewrite !Forall_app. repeat split; [exact N| |]; repeat constructor; apply not_for_servo.
  - subst c'. split; [split; assumption|]. split; [exact U|]. split; assumption.
  - rewrite O. split; [split; assumption|]. split; [intros H; discriminate H|]. split; [|reflexivity]. intros _. split; [|reflexivity]. exists (outs c).
    change (outs (set_joined (set_ended (put (Level 21 true) (put (Level 21 false) (set_closing c)))))) with ((outs c ++ [Level 21 false]) ++ [Level 21 true]). rewrite <- app_assoc. reflexivity.
Qed.
Lemma fine_same : forall c c', fine c -> forward c' = forward c -> power c' = power c -> turn c' = turn c -> outs c' = outs c -> closing c' = closing c -> ended c' = ended c -> joined c' = joined c -> fine c'.
Proof.
  intros c c' (W & U & R & J) E1 E2 E3 E4 E5 E6 E7. unfold fine, well, unmoved, rolling, was_reset. rewrite E1, E2, E3, E4, E5, E6, E7. split; [exact W|]. split; [exact U|]. split; [exact R|exact J].
Qed.
Lemma fine_tick : forall n c, fine c -> ended c = false -> fine (snd (run (auto_turn n) c)).
Proof.
  intros n c H E. destruct (closing c) eqn:C. { destruct H as (_ & _ & R & _). destruct (R C) as (_ & K). congruence. }
  rewrite run_auto by exact C. destruct (limited _ _ _ <? _) eqn:L.
  - destruct H as ((P & T) & U & R & J). assert (well (set_power (limited (forward c) (power c) (sn_distance n)) (sensed n c))) as W by (split; [apply limited_five, P|exact T]).
    split; [exact W|]. split; [intros _; right; apply redriven_rolling, W|]. split; [intros K; change (closing c = true) in K; congruence|exact J].
  - apply (fine_same c); try reflexivity. exact H.
Qed.
Lemma fine_step : forall ev c c', fine c -> step c ev = Ret c' -> fine c'.
Proof.
  intros ev c c' F H. destruct ev as [cn e l|n|d w]; cbn [step] in H.
  - apply bind_inv in H. destruct H as ((a & c2) & S & H). injection H as <-. destruct (serve_obeys _ _ _ _ _ _ (proj1 F) S) as [-> |(C & x & A & O)]; [exact F|]. exact (fine_obeys _ _ _ F C A O).
  - injection H as <-. destruct (ended c) eqn:E; [exact F|]. apply fine_tick; assumption.
  - injection H as <-. apply (fine_same c); try reflexivity. exact F.
Qed.
Lemma fine_steps : forall l c c', fine c -> steps c l = Ret c' -> fine c'.
Proof.
  induction l as [|ev l IH]; intros c c' F H; cbn [steps] in H; [injection H as <-; exact F|]. apply bind_inv in H. destruct H as (c1 & S & H). exact (IH _ _ (fine_step _ _ _ F S) H).
Qed.

(** ** After a stop *)
Definition halted (c : car) : Prop := power c = 0 /\ turn c = 0 /\ at_rest (outs c).
Lemma halted_power : forall c, well c -> halted (new_power 0 c).
Proof.
  intros c W. split; [reflexivity|]. split; [reflexivity|]. intros w. change (outs (new_power 0 c)) with (outs c ++ power_outs 0 c). unfold power_outs. rewrite app_assoc. change (Z.abs 0) with 0. cbn [Z.eqb].
  destruct (drive_turns (outs c ++ (if 0 * power c <? 0 then drive_outs (forward c) 0 0 else [])) (0 <=? 0) (left_of 0 0) (right_of 0 0) w) as (_ & H); [vm_compute; split; discriminate|vm_compute; split; discriminate|]. rewrite H. destruct (is_left w); reflexivity.
Qed.
Lemma ret_inj : forall A (x y : A), Ret x = Ret y -> y = x.
Proof. intros A x y H. injection H as ->. reflexivity. Qed.
(** Nothing but another power or turn moves the car again. *)
Lemma tick_still : forall n c, power c = 0 -> forall c', step c (Tick n) = Ret c' -> outs c' = outs c /\ power c' = 0 /\ turn c' = turn c.
Proof.
  intros n c P c' H. unfold step in H. apply ret_inj in H. subst c'. destruct (ended c); [auto|]. destruct (closing c) eqn:C.
  - unfold auto_turn. rewrite run_read, C. cbn. auto.
  - rewrite run_auto by exact C. replace (limited (forward c) (power c) (sn_distance n) <? power c) with false; [repeat split; exact P|]. rewrite P. unfold limited. destruct (forward c); reflexivity.
Qed.
Lemma sensors_still : forall l c c', Forall of_sensors l -> power c = 0 -> steps c l = Ret c' -> outs c' = outs c /\ power c' = 0 /\ turn c' = turn c.
Proof.
  induction l as [|ev l IH]; intros c c' A P H. { apply ret_inj in H. subst c'. auto. }
  inversion A as [|? ? A1 A2]. subst. cbn [steps] in H. apply bind_inv in H. destruct H as (c1 & S & H).
  assert (outs c1 = outs c /\ power c1 = 0 /\ turn c1 = turn c) as (E1 & E2 & E3).
  { destruct ev as [| |d w]; [contradiction|exact (tick_still _ _ P _ S)|]. apply ret_inj in S. subst c1. auto. }
  destruct (IH _ _ A2 E2 H) as (F1 & F2 & F3). repeat split; congruence.
Qed.

(** ** Obstacles *)
Lemma tick_power : forall n c c', well c -> closing c = false -> ended c = false -> step c (Tick n) = Ret c' ->
  power c' = (if forward c && (allowed (sn_distance n) <? power c) then Z.max (allowed (sn_distance n)) (power c - 25) else power c) /\
  forward c' = forward c /\ turn c' = turn c /\ closing c' = false /\ ended c' = false /\ (power c' <> power c -> rolling c') /\ (power c' = power c -> outs c' = outs c).
Proof.
  intros n c c' W C E H. unfold step in H. apply ret_inj in H. rewrite E in H. rewrite run_auto in H by exact C.
  assert (limited (forward c) (power c) (sn_distance n) = if forward c && (allowed (sn_distance n) <? power c) then Z.max (allowed (sn_distance n)) (power c - 25) else power c) as L.
  { destruct (forward c); [|reflexivity]. apply limited_rule, W. }
  destruct (limited (forward c) (power c) (sn_distance n) <? power c) eqn:Q.
  - assert (power c' = limited (forward c) (power c) (sn_distance n)) as P by (rewrite H; reflexivity). rewrite P, L. split; [reflexivity|]. rewrite H. split; [reflexivity|]. split; [reflexivity|]. split; [exact C|]. split; [exact E|].
    split; [intros _; apply redriven_rolling; split; [apply limited_five, W|apply W]|]. intros K. rewrite <- L in K. rewrite K in Q. rewrite Z.ltb_irrefl in Q. discriminate Q.
  - assert (power c' = power c) as P by (rewrite H; reflexivity). rewrite P. split.
    + rewrite <- L. assert (limited (forward c) (power c) (sn_distance n) <= power c).
      { rewrite L. destruct (forward c && (allowed (sn_distance n) <? power c)) eqn:K; [|lia]. apply andb_true_iff in K. lia. }
      lia.
    + rewrite H. split; [reflexivity|]. split; [reflexivity|]. split; [exact C|]. split; [exact E|]. split; [intros K; contradiction|reflexivity].
Qed.
Lemma tick_well : forall n c c', well c -> closing c = false -> ended c = false -> step c (Tick n) = Ret c' -> well c'.
Proof.
  intros n c c' W C E H. destruct (tick_power n c c' W C E H) as (P & _ & T & _). split; [|rewrite T; apply W]. rewrite P. destruct W as (W & _).
  destruct (forward c && (allowed (sn_distance n) <? power c)) eqn:K; [|exact W].
  pose proof (limited_five true _ (sn_distance n) W) as L. rewrite (limited_rule _ _ W) in L. apply andb_true_iff in K. destruct K as (_ & K). rewrite K in L. exact L.
Qed.
Lemma ticks_slow : forall a l c c', Forall (near a) l -> well c -> closing c = false -> ended c = false -> forward c = true -> 0 <= a -> steps c l = Ret c' ->
  power c' <= Z.max a (power c - 25 * zlen l) /\ forward c' = true /\ turn c' = turn c.
Proof.
  intros a l. induction l as [|ev l IH]; intros c c' A W C E F Ha H.
  - apply ret_inj in H. subst c'. change (zlen (@nil event)) with 0. split; [lia|split; [exact F|reflexivity]].
  - inversion A as [|? ? A1 A2]. subst. cbn [steps] in H. apply bind_inv in H. destruct H as (c1 & S & H). destruct ev as [|n|]; try contradiction. cbn in A1.
    destruct (tick_power n c c1 W C E S) as (P & F1 & T & C1 & E1 & _). rewrite F in P, F1. cbn [andb] in P.
    destruct (IH _ _ A2 (tick_well _ _ _ W C E S) C1 E1 F1 Ha H) as (P2 & F2 & T2). split; [|split; [exact F2|congruence]].
    replace (zlen (Tick n :: l)) with (1 + zlen l) by (unfold zlen; cbn [Datatypes.length]; lia). assert (0 <= zlen l) by (unfold zlen; lia). destruct (allowed (sn_distance n) <? power c) eqn:K; lia.
Qed.

(** ** Changes of direction *)
Lemma reversed_app : forall os x y, reversed_under_power os (x ++ y) -> reversed_under_power os x \/ reversed_under_power (os ++ x) y.
Proof.
  intros os x y (w & a & h & k & u & E & L & W & P). destruct (app_eq_app _ _ _ _ E) as (m & [(E1 & E2)|(E1 & E2)]).
  - destruct m as [|o m].
    + right. rewrite app_nil_r in E1. subst x. cbn in E2. exists w, [], h, k, u. rewrite app_nil_r. subst y. repeat split; assumption.
    + left. cbn in E2. injection E2 as <- E2. exists w, a, h, m, u. repeat split; assumption.
  - right. exists w, m, h, k, u. subst a. rewrite app_assoc in L, W. repeat split; assumption.
Qed.
Lemma cons_tail : forall A (x y : A) l m, x :: l = y :: m -> x = y /\ l = m.
Proof. intros A x y l m H. injection H as -> ->. split; reflexivity. Qed.
Definition turnable (os : list output) (f : bool) (w : wheel) : Prop :=
  last_level (line_of w) os = Some (negb f) \/ last_level (line_of w) os = None \/ last_word (reg_of w) os = Some 0.
Lemma drive_clean : forall os f l r, (forall w, turnable os f w) -> ~ reversed_under_power os (drive_outs f l r).
Proof.
  intros os f l r H (w & a & h & k & u & E & L & W & P). specialize (H w). unfold drive_outs, wheel_outs in E. cbn [app] in E. rewrite last_level_app in L. rewrite last_word_app in W. unfold turnable in H.
  do 8 (destruct a as [|o a];
    [apply (f_equal (hd (Word 0 0))) in E; cbn [app hd] in E; try discriminate E; destruct w; try discriminate E; injection E as <-; cbn in L, W, H; rewrite ?L, ?W in H; destruct H as [H|[H|H]]; try discriminate H;
       ((destruct f; discriminate H) || (injection H as ->; lia))
    |cbn [app] in E; apply cons_tail in E; destruct E as (<- & E)]).
  apply (f_equal (@Datatypes.length output)) in E. rewrite app_length in E. cbn in E. lia.
Qed.
Lemma rolling_turnable : forall c f w, rolling c -> f = forward c -> turnable (outs c) f w.
Proof. intros c f w (l & r & _ & T) ->. left. apply (T w). Qed.
Lemma rest_turnable : forall os f w, last_word (reg_of w) os = Some 0 -> turnable os f w.
Proof. intros os f w H. right. right. exact H. Qed.
Lemma power_clean : forall p c, well c -> rolling c -> fits_steps p 100 25 ->
  forward c = true /\ (0 <= p \/ 0 < power c \/ turn c = 0) \/ forward c = false /\ p < 0 -> ~ reversed_under_power (outs c) (power_outs p c).
Proof.
  intros p c (Wp & Wt) R F K N. pose proof (five_range _ Wp) as Rp. unfold power_outs in N. destruct (p * power c <? 0) eqn:M.
  - assert (p < 0) as Hp by nia. apply reversed_app in N. destruct N as [N|N].
    + revert N. apply drive_clean. intros w. apply rolling_turnable; [exact R|reflexivity].
    + revert N. apply drive_clean. intros w. apply rest_turnable. destruct (drive_turns (outs c) (forward c) 0 0 w) as (_ & T); [lia|lia|]. rewrite T. destruct (is_left w); reflexivity.
  - cbn [app] in N. revert N. apply drive_clean. intros w. destruct K as [(Fw & K)|(Fw & Hp)].
    + destruct (Z.leb_spec 0 p) as [Q|Q]; [apply rolling_turnable; [exact R|rewrite Fw; reflexivity]|].
      assert (power c = 0) as P0 by nia. assert (turn c = 0) as T0 by lia. apply rest_turnable. destruct R as (l & r & S & T). rewrite P0, T0 in S.
      destruct (sides_det 0 0 l r 0 0 ltac:(lia) S) as (-> & ->). { exists 0. split; [constructor|]. cbn. lia. }
      destruct (T w) as (_ & T2). rewrite T2. destruct (is_left w); reflexivity.
    + apply rolling_turnable; [exact R|]. rewrite Fw. lia.
Qed.
(** Turns keep the direction. *)
Lemma turn_clean : forall t c, rolling c -> ~ reversed_under_power (outs c) (drive_outs (forward c) (left_of (power c) t) (right_of (power c) t)).
Proof. intros t c R. apply drive_clean. intros w. apply rolling_turnable; [exact R|reflexivity]. Qed.
Lemma unmoved_level : forall os w, Forall (fun o => ~ for_wheels o) os -> last_level (line_of w) os = None.
Proof.
  intros os w. induction os as [|o os IH] using rev_ind; intros H; [reflexivity|]. rewrite Forall_app in H. destruct H as (H1 & H2). inversion H2 as [|? ? H3 _]. subst.
  rewrite last_level_app. destruct o as [q h|q x]; cbn; [|exact (IH H1)]. destruct (q =? line_of w) eqn:E; [|exact (IH H1)]. exfalso. apply H3. exists w. apply Z.eqb_eq, E.
Qed.
Lemma power_clean_unmoved : forall p c, unmoved c -> ~ reversed_under_power (outs c) (power_outs p c).
Proof.
  intros p c (N & P & _). unfold power_outs. replace (p * power c <? 0) with false by (rewrite P; lia). cbn [app]. apply drive_clean. intros w. right. left. apply unmoved_level, N.
Qed.
(** The auto thread has ended exactly when a shutdown was requested. *)
Lemma ended_step : forall ev c c', well c -> ended c = closing c -> step c ev = Ret c' -> ended c' = closing c'.
Proof.
  intros ev c c' W E H. destruct ev as [cn e l|n|d w]; cbn [step] in H.
  - apply bind_inv in H. destruct H as ((a & c2) & S & H). injection H as <-. destruct (serve_obeys _ _ _ _ _ _ W S) as [-> |(C & x & A & O)]; [exact E|].
    destruct x; cbn [obeys] in O.
    + destruct O as (_ & _ & _ & _ & (_ & _ & _ & _ & _ & _ & S1 & S2 & _) & _). congruence.
    + destruct O as (_ & _ & _ & _ & (_ & _ & _ & _ & _ & _ & S1 & S2 & _) & _). congruence.
    + destruct O as (us & _ & w & _ & ->). exact E.
    + subst c2. exact E.
    + unfold stopped_serving in O. subst c2. reflexivity.
  - destruct (ended c) eqn:E1; [injection H as <-; congruence|]. assert (step c (Tick n) = Ret c') as T by (cbn [step]; rewrite E1; exact H).
    destruct (tick_power n c c' W (eq_sym E) E1 T) as (_ & _ & _ & C & D & _). congruence.
  - injection H as <-. exact E.
Qed.
Lemma reached : forall l c c', fine c -> ended c = closing c -> steps c l = Ret c' -> fine c' /\ ended c' = closing c'.
Proof.
  induction l as [|ev l IH]; intros c c' F E H; cbn [steps] in H; [apply ret_inj in H; subst c'; auto|]. apply bind_inv in H. destruct H as (c1 & S & H).
  apply (IH c1 c'); [exact (fine_step _ _ _ F S)|exact (ended_step _ _ _ (proj1 F) E S)|exact H].
Qed.
Lemma reached_new : forall l c, steps new_car l = Ret c -> fine c /\ ended c = closing c.
Proof. intros l c. apply reached; [exact fine_new|reflexivity]. Qed.
(** Which events reverse a wheel under power. *)
Lemma wheels_clean : forall os new, Forall (fun o => ~ for_wheels o) new -> ~ reversed_under_power os new.
Proof.
  intros os new F (w & a & h & k & u & -> & _). rewrite !Forall_app in F. destruct F as (_ & F & _). inversion F as [|? ? N _]. apply N. exists w. reflexivity.
Qed.
Lemma step_reverses : forall ev c c', fine c -> ended c = closing c -> step c ev = Ret c' -> exists new, outs c' = outs c ++ new /\
  (reversed_under_power (outs c) new -> forward c = false /\ forward c' = true \/ forward c = true /\ power c = 0 /\ turn c <> 0 /\ forward c' = false).
Proof.
  intros ev c c' (W & U & _) E H.
  assert (outs c' = outs c -> exists new, outs c' = outs c ++ new /\
    (reversed_under_power (outs c) new -> forward c = false /\ forward c' = true \/ forward c = true /\ power c = 0 /\ turn c <> 0 /\ forward c' = false)) as Same.
  { intros S. exists []. split; [rewrite app_nil_r; exact S|]. intros N. exfalso. revert N. apply wheels_clean. constructor. }
  destruct ev as [cn e l|n|d w]; cbn [step] in H.
  - apply bind_inv in H. destruct H as ((a & c2) & S & H). apply ret_inj in H. subst c2. destruct (serve_performs _ _ _ _ _ _ S) as [-> |(C & x & rp & A & P)]; [apply Same; reflexivity|].
    specialize (U C). destruct x as [p|t|s| |].
    + rewrite perform_power in P. rewrite (pair_snd _ _ _ _ _ _ P). exists (power_outs p c). split; [reflexivity|]. intros N. change (forward (new_power p c)) with (0 <=? p).
      destruct U as [U|U]; [exfalso; exact (power_clean_unmoved p c U N)|]. pose proof (fun K => power_clean p c W U A K N) as X. pose proof (five_range _ (proj1 W)) as Rp.
      destruct (forward c); [right|left]; [|split; [reflexivity|]; destruct (Z.leb_spec 0 p); [reflexivity|exfalso; apply X; auto]].
      destruct (Z.leb_spec 0 p) as [Hp|Hp]; [exfalso; apply X; auto|]. destruct (Z.eq_dec (power c) 0) as [P0|P0]; [|exfalso; apply X; left; split; [reflexivity|]; right; left; lia].
      destruct (Z.eq_dec (turn c) 0) as [T0|T0]; [exfalso; apply X; auto 6|]. auto.
    + rewrite perform_turn in P. rewrite (pair_snd _ _ _ _ _ _ P). exists (drive_outs (forward c) (left_of (power c) t) (right_of (power c) t)). split; [reflexivity|]. intros N. exfalso. destruct U as [U|U]; [|exact (turn_clean _ _ U N)].
      revert N. apply drive_clean. intros w. right. left. apply unmoved_level, U.
    + rewrite perform_servo in P. rewrite (pair_snd _ _ _ _ _ _ P). exists [Word 32 (servo_word s); Word 32 0]. split; [cbn [outs put]; rewrite <- app_assoc; reflexivity|]. intros N. exfalso. revert N. apply wheels_clean. repeat constructor; apply not_for_servo.
    + rewrite perform_autos in P. rewrite (pair_snd _ _ _ _ _ _ P). rewrite (pair_snd _ _ _ _ _ _ P) in Same. apply Same. reflexivity.
    + destruct (joined c) eqn:J. { pose proof (perform_shutdown_twice e c J) as X. rewrite P in X. discriminate X. }
      rewrite (perform_shutdown e c J) in P. rewrite (pair_snd _ _ _ _ _ _ P). exists [Level 21 false; Level 21 true]. split; [unfold shut_car; cbn [outs set_joined set_ended put set_closing]; rewrite <- app_assoc; reflexivity|].
      intros N. exfalso. revert N. apply wheels_clean. repeat constructor; intros (w & X); destruct w; discriminate X.
  - destruct (ended c) eqn:E1; [apply ret_inj in H; subst c'; apply Same; reflexivity|]. symmetry in E. apply ret_inj in H. rewrite run_auto in H by exact E. specialize (U E).
    destruct (_ <? _) eqn:L; [|apply Same; subst c'; reflexivity]. set (q := limited (forward c) (power c) (sn_distance n)) in *. exists (drive_outs (forward c) (left_of q (turn c)) (right_of q (turn c))). split; [subst c'; reflexivity|].
    intros N. exfalso. revert N. apply drive_clean. intros w. destruct U as [U|U]; [right; left; apply unmoved_level, U|]. apply rolling_turnable; [exact U|reflexivity].
  - apply ret_inj in H. subst c'. apply Same. reflexivity.
Qed.
(** A car with power 0 and turn 0 is at rest. *)
Lemma rolling_rest : forall c, rolling c -> power c = 0 -> turn c = 0 -> at_rest (outs c).
Proof.
  intros c (l & r & S & T) P0 T0 w. rewrite P0, T0 in S. destruct (sides_det 0 0 l r 0 0 ltac:(lia) S) as (-> & ->). { exists 0. split; [constructor|]. cbn. lia. }
  destruct (T w) as (_ & T2). rewrite T2. destruct (is_left w); reflexivity.
Qed.
