(** Proofs for C75, C76, C79, C82: the threads of the car. *)

From Coq Require Import String ZArith QArith List Bool Lia.
From Verif Require Import Base ListMem Ascii_Spec Http_Model Http_Calls Http_Spec Endpoint_Model Endpoint_Spec Rest_Model Rest_Spec RestBody_Spec Car_Model Car_Spec Car_Proofs.
From Verif Require Json_Model Json_Spec Smbus_Model.
Import ListNotations.
Open Scope string_scope.
Open Scope list_scope.
Open Scope Z_scope.

(** ** What every step keeps *)
Definition kept (c : car) : Prop := well c /\ Forall legal (outs c) /\ (ended c = true -> closing c = true) /\ (joined c = true -> ended c = true).
(** What a thread knows of flags that are never taken back: closing, ended. *)
Record facts := { f_closing : bool; f_ended : bool }.
Definition know (k : facts) (c : car) : Prop := (f_closing k = true -> closing c = true) /\ (f_ended k = true -> ended c = true).
Definition mono (c c' : car) : Prop := (closing c = true -> closing c' = true) /\ (ended c = true -> ended c' = true) /\ (joined c = true -> joined c' = true).
Lemma know_mono : forall k c c', know k c -> mono c c' -> know k c'.
Proof. intros k c c' (A & B) (C & D & _). split; auto. Qed.
Fixpoint keeps {A} (Q : A -> Prop) (k : facts) (p : prog A) : Prop :=
  match p with
  | Done a => Q a
  | Read f => forall c, kept c -> know k c -> exists k', know k' c /\ keeps Q k' (f c)
  | Write f p => exists k', (forall c, kept c -> know k c -> kept (f c) /\ mono c (f c) /\ know k' (f c)) /\ keeps Q k' p
  | Join p => keeps Q {| f_closing := f_closing k; f_ended := true |} p
  end.
Lemma keeps_next : forall A B (Q : A -> Prop) (R : B -> Prop) (p : prog A) (q : A -> prog B) k,
  keeps Q k p -> (forall a k', Q a -> keeps R k' (q a)) -> keeps R k (next p q).
Proof.
  intros A B Q R p q. induction p as [a|f IH|f p IH|p IH]; intros k H N; cbn [next keeps] in *.
  - apply N, H.
  - intros c C K. destruct (H c C K) as (k' & K' & H'). exists k'. split; [exact K'|]. apply IH; assumption.
  - destruct H as (k' & F & H). exists k'. split; [exact F|]. apply IH; assumption.
  - apply IH; assumption.
Qed.
(** Writes that keep the flags. *)
Definition plain (f : car -> car) : Prop := forall c, kept c -> kept (f c) /\ closing (f c) = closing c /\ ended (f c) = ended c /\ joined (f c) = joined c.
Lemma keeps_write : forall A (Q : A -> Prop) k f p, plain f -> keeps Q k p -> keeps Q k (Write f p).
Proof.
  intros A Q k f p F H. cbn [keeps]. exists k. split; [|exact H]. intros c C (K1 & K2). destruct (F c C) as (F1 & F2 & F3 & F4). split; [exact F1|]. unfold mono, know. rewrite F2, F3, F4. auto.
Qed.
Lemma keeps_read : forall A (Q : A -> Prop) k f, (forall c, kept c -> keeps Q k (f c)) -> keeps Q k (Read f).
Proof. intros A Q k f H. cbn [keeps]. intros c C K. exists k. split; [exact K|]. apply H, C. Qed.
Lemma keeps_learn : forall A (Q : A -> Prop) k k' f p, (forall c, kept c -> know k c -> kept (f c) /\ mono c (f c) /\ know k' (f c)) -> keeps Q k' p -> keeps Q k (Write f p).
Proof. intros A Q k k' f p F H. exists k'. split; assumption. Qed.
Lemma keeps_join : forall A (Q : A -> Prop) k p, keeps Q {| f_closing := f_closing k; f_ended := true |} p -> keeps Q k (Join p).
Proof. intros A Q k p H. exact H. Qed.
Lemma plain_same : forall f, (forall c, power (f c) = power c /\ turn (f c) = turn c /\ outs (f c) = outs c /\ closing (f c) = closing c /\ ended (f c) = ended c /\ joined (f c) = joined c) -> plain f.
Proof.
  intros f H c ((P & T) & L & E & J). destruct (H c) as (H1 & H2 & H3 & H4 & H5 & H6). unfold kept, well. rewrite H1, H2, H3, H4, H5, H6. auto 10.
Qed.
Lemma plain_power : forall p, five_powers p -> plain (set_power p).
Proof. intros p F c ((P & T) & L & E & J). repeat split; auto. Qed.
Lemma plain_turn : forall t, seven_turns t -> plain (set_turn t).
Proof. intros t F c ((P & T) & L & E & J). repeat split; auto. Qed.
Lemma plain_put : forall o, legal o -> plain (put o).
Proof. intros o F c ((P & T) & L & E & J). repeat split; auto. cbn [outs put]. apply Forall_app. split; [exact L|]. constructor; [exact F|constructor]. Qed.

(** ** The programs *)
Definition any {A} (a : A) : Prop := True.
Lemma motor_keeps : forall w duty k, keeps any k (motor (line_of w) (reg_of w) (wrap_u16 duty)).
Proof.
  intros w duty k. unfold motor. apply keeps_read. intros c _. apply keeps_write.
  { apply plain_put. left. exists w. reflexivity. }
  apply keeps_write; [|exact I]. apply plain_put. left. exists w. split; [reflexivity|]. apply (wheel_word_any duty).
Qed.
Lemma drive_keeps : forall k, keeps any k drive.
Proof.
  intros k. unfold drive. apply (keeps_next _ _ any). { unfold get_side_powers. apply (keeps_next _ _ any). { unfold get_delta_power. do 2 (apply keeps_read; intros ? _). exact I. } intros d k' _. do 2 (apply keeps_read; intros ? _). exact I. }
  intros s k1 _. cbv zeta. apply (keeps_next _ _ any); [exact (motor_keeps FrontLeft _ _)|]. intros [] k2 _. apply (keeps_next _ _ any); [exact (motor_keeps FrontRight _ _)|]. intros [] k3 _.
  apply (keeps_next _ _ any); [exact (motor_keeps RearLeft _ _)|]. intros [] k4 _. exact (motor_keeps RearRight _ _).
Qed.
Ltac same := apply plain_same; intros ?; repeat split; reflexivity.
Lemma power_keeps : forall p k, fits_steps p 100 25 -> keeps any k (do_power p).
Proof.
  intros p k F. unfold do_power. apply (keeps_next _ _ any).
  { unfold stop_first. apply keeps_read. intros c _. destruct (p * power c <? 0); [|exact I]. apply keeps_read. intros c' ((_ & T) & _). cbv zeta. apply keeps_write; [apply plain_power; left; reflexivity|].
    apply keeps_write; [apply plain_turn; left; reflexivity|]. apply (keeps_next _ _ any); [apply drive_keeps|]. intros [] k' _. apply keeps_write; [same|]. apply keeps_write; [apply plain_turn, T|exact I]. }
  intros [] k1 _. apply (keeps_next _ _ any).
  { unfold start_tracking. destruct (p =? 0); [exact I|]. apply keeps_read. intros c _. destruct (tracking c); [exact I|]. apply keeps_write; [same|exact I]. }
  intros [] k2 _. apply keeps_write; [same|]. apply (keeps_next _ _ any).
  { destruct (p =? 0); [|exact I]. apply keeps_write; [apply plain_turn; left; reflexivity|exact I]. }
  intros [] k3 _. apply (keeps_next _ _ any).
  { destruct (p <? 0); [|exact I]. apply keeps_write; [same|exact I]. }
  intros [] k4 _. apply keeps_write; [apply plain_power, five_steps, F|]. apply (keeps_next _ _ any); [apply drive_keeps|]. intros [] k5 _. apply keeps_read. intros c _. apply (keeps_next _ _ any).
  { destruct (power c =? 0); [|exact I]. apply keeps_write; [same|exact I]. }
  intros [] k6 _. do 3 (apply keeps_read; intros ? _). exact I.
Qed.
Lemma turn_keeps : forall t k, fits_steps t 90 30 -> keeps any k (do_turn t).
Proof.
  intros t k F. unfold do_turn. apply keeps_write; [apply plain_turn, seven_steps, F|]. apply (keeps_next _ _ any); [apply drive_keeps|]. intros [] k' _. do 2 (apply keeps_read; intros ? _). exact I.
Qed.
Lemma servo_keeps : forall a k, fits_steps a 90 30 -> keeps any k (do_servo a).
Proof.
  intros a k F. unfold do_servo. destruct (servo_words _ (proj1 (seven_steps a) F)) as (R & _). apply keeps_write; [apply plain_put; right; split; [reflexivity|right; exact R]|].
  apply keeps_write; [apply plain_put; right; split; [reflexivity|left; reflexivity]|]. exact I.
Qed.
Lemma autos_keeps : forall e k, keeps any k (do_autos e).
Proof. intros e k. unfold do_autos. do 6 (apply keeps_read; intros ? _). exact I. Qed.
Lemma shutdown_keeps : forall k, keeps any k do_shutdown.
Proof.
  intros k. unfold do_shutdown. apply keeps_learn with (k' := {| f_closing := true; f_ended := f_ended k |}).
  { intros c (W & L & E & J) (K1 & K2). split; [exact (conj W (conj L (conj (fun _ => eq_refl) J)))|]. repeat split; auto. }
  apply keeps_write; [apply plain_put; right; reflexivity|]. apply keeps_write; [apply plain_put; right; reflexivity|]. apply keeps_read. intros c C. destruct (joined c); [exact I|]. apply keeps_join. apply keeps_read. intros c' C'.
  destruct (joined c'); [exact I|]. apply keeps_learn with (k' := {| f_closing := true; f_ended := true |}); [|exact I]. intros c2 (W & L & E & J) (K1 & K2). cbn in K1, K2.
  split; [exact (conj W (conj L (conj E (fun _ => K2 eq_refl))))|]. repeat split; auto.
Qed.
Lemma perform_keeps : forall e x k, acceptable x -> keeps any k (perform e x).
Proof.
  intros e x k A. destruct x; unfold perform; apply (keeps_next _ _ any); try (intros ? ? _; exact I).
  - apply power_keeps, A.
  - apply turn_keeps, A.
  - apply servo_keeps, A.
  - apply autos_keeps.
  - apply shutdown_keeps.
Qed.
Lemma handler_keeps : forall e x k, acceptable x -> keeps any k (handler e x).
Proof. intros e x k A. unfold handler. apply keeps_read. intros c _. destruct (closing c); [exact I|]. apply perform_keeps, A. Qed.
Lemma limit_keeps : forall k, keeps any k auto_limit_power.
Proof.
  intros k. unfold auto_limit_power. do 3 (apply keeps_read; intros ? (( ? & ?) & _)). cbv zeta. apply (keeps_next _ _ five_powers).
  { match goal with |- keeps _ _ (if ?b then _ else _) => destruct b end; [|assumption].
    repeat (apply keeps_read; intros ? _; match goal with |- keeps _ _ (if ?b then _ else _) => destruct b end; [unfold keeps, five_powers; auto|]). assumption. }
  intros p k' P. apply keeps_read. intros c9 _. destruct (p <? power c9); [|exact I]. apply keeps_write; [apply plain_power, P|apply drive_keeps].
Qed.
Lemma auto_keeps : forall n k, keeps any k (auto_turn n).
Proof.
  intros n k. unfold auto_turn. intros c C K. exists {| f_closing := closing c; f_ended := f_ended k |}. split; [split; [auto|apply K]|]. destruct (closing c).
  - apply keeps_learn with (k' := {| f_closing := true; f_ended := true |}); [|exact I]. intros c' (W & L & E & J) (K1 & K2). cbn in K1.
    split; [exact (conj W (conj L (conj (fun _ => K1 eq_refl) (fun _ => eq_refl))))|]. repeat split; auto.
  - do 4 (apply keeps_write; [same|]). apply (keeps_next _ _ any); [apply limit_keeps|]. intros [] ? _. exact I.
Qed.

(** ** The system *)
Ltac stay := split; [|exact (conj (fun H => H) (conj (fun H => H) (fun H => H)))].
Definition thread_ok {A} (c : car) (p : prog A) : Prop := exists k, know k c /\ keeps any k p.
Definition sys_ok (s : sys) : Prop := kept (s_car s) /\ thread_ok (s_car s) (s_auto s) /\ Forall (thread_ok (s_car s)) (s_reqs s).
Lemma move_ok : forall A (p : prog A) c p' c', kept c -> thread_ok c p -> move p c = Some (p', c') -> kept c' /\ mono c c' /\ thread_ok c' p'.
Proof.
  intros A p c p' c' C (k & K & H) M. destruct p as [a|f|f p|p]; cbn [move] in M; [discriminate M|injection M as <- <-|injection M as <- <-|].
  - destruct (H c C K) as (k' & K' & H'). repeat split; auto; try apply C. exists k'. split; assumption.
  - destruct H as (k' & F & H). destruct (F c C K) as (F1 & F2 & F3). split; [exact F1|]. split; [exact F2|]. exists k'. split; assumption.
  - destruct (ended c) eqn:E; [|discriminate M]. injection M as <- <-. split; [exact C|]. split; [repeat split; auto|]. cbn [keeps] in H. eexists. split; [|exact H]. split; [apply K|auto].
Qed.
Lemma thread_mono : forall A c c' (p : prog A), mono c c' -> thread_ok c p -> thread_ok c' p.
Proof. intros A c c' p M (k & K & H). exists k. split; [exact (know_mono _ _ _ K M)|exact H]. Qed.
Lemma Forall_upd : forall A (P : A -> Prop) l n x, Forall P l -> P x -> Forall P (upd l n x).
Proof. intros A P l. induction l as [|y l IH]; intros n x H X; destruct n; cbn; auto; inversion H; subst; constructor; auto. Qed.
Lemma sys_step_ok : forall s a s', sys_ok s -> orderly a -> sys_step s a = Some s' -> sys_ok s' /\ mono (s_car s) (s_car s').
Proof.
  intros s a s' (C & A & R) O H. destruct a as [e x|n| |i|d w]; cbn [sys_step orderly] in H, O.
  - injection H as <-. cbn [s_car s_auto s_reqs]. stay. split; [exact C|]. split; [exact A|]. cbn. apply Forall_app. split; [exact R|]. constructor; [|constructor]. exists {| f_closing := false; f_ended := false |}. split; [split; discriminate|]. apply handler_keeps, O.
  - destruct (s_auto s) as [[]| | |]; try discriminate H. injection H as <-. cbn [s_car]. stay. split; [exact C|]. split; [|exact R]. exists {| f_closing := false; f_ended := false |}. split; [split; discriminate|]. apply auto_keeps.
  - destruct (move (s_auto s) (s_car s)) as [(p, c)|] eqn:M; [|discriminate H]. injection H as <-. destruct (move_ok _ _ _ _ _ C A M) as (C' & Mo & A'). cbn [s_car]. split; [|exact Mo]. split; [exact C'|]. split; [exact A'|]. cbn.
    revert R. apply Forall_impl. intros p0. apply thread_mono, Mo.
  - destruct (nth_error (s_reqs s) i) as [p|] eqn:N; [|discriminate H]. destruct (move p (s_car s)) as [(p', c)|] eqn:M; [|discriminate H]. injection H as <-.
    assert (thread_ok (s_car s) p) as T. { rewrite Forall_forall in R. apply R. exact (nth_error_In _ _ N). }
    destruct (move_ok _ _ _ _ _ C T M) as (C' & Mo & T'). cbn [s_car]. split; [|exact Mo]. split; [exact C'|]. split; [exact (thread_mono _ _ _ _ Mo A)|]. cbn. apply Forall_upd; [|exact T'].
    revert R. apply Forall_impl. intros p0. apply thread_mono, Mo.
  - injection H as <-. cbn [s_car]. assert (mono (s_car s) (set_position d w (s_car s))) as Mo by (repeat split; auto). split; [|exact Mo]. split; [exact C|]. split; [exact (thread_mono _ _ _ _ Mo A)|]. cbn. revert R. apply Forall_impl. intros p0. apply thread_mono, Mo.
Qed.
Lemma sys_run_ok : forall l s s', sys_ok s -> Forall orderly l -> sys_run s l = Some s' -> sys_ok s' /\ mono (s_car s) (s_car s').
Proof.
  induction l as [|a l IH]; intros s s' S O H; cbn [sys_run] in H. { injection H as <-. split; [exact S|repeat split; auto]. }
  inversion O as [|? ? O1 O2]. subst. destruct (sys_step s a) as [s1|] eqn:E; [|discriminate H]. destruct (sys_step_ok _ _ _ S O1 E) as (S1 & M1). destruct (IH _ _ S1 O2 H) as (S2 & M2). split; [exact S2|].
  destruct M1 as (A1 & A2 & A3). destruct M2 as (B1 & B2 & B3). repeat split; auto.
Qed.
Lemma sys_new_ok : sys_ok sys_new.
Proof.
  split; [|split]. { split; [split; left; reflexivity|]. split; [constructor|]. split; intros H; discriminate H. }
  { exists {| f_closing := false; f_ended := false |}. split; [split; discriminate|exact I]. } constructor.
Qed.

(** ** The end of the auto thread *)
Fixpoint calm {A} (j : bool) (p : prog A) : Prop :=
  match p with
  | Done _ => True
  | Read f => forall c, calm j (f c)
  | Write f p => (forall c, ended (f c) = ended c) /\ calm j p
  | Join p => j = true /\ calm j p
  end.
Fixpoint auto_ok (p : prog bool) : Prop :=
  match p with
  | Done r => r = true
  | Read f => forall c, auto_ok (f c)
  | Write f p => (forall c, ended (f c) = ended c) /\ auto_ok p \/ (forall c, ended (f c) = true) /\ p = Done false
  | Join _ => False
  end.
Lemma calm_next : forall A B j (p : prog A) (q : A -> prog B), calm j p -> (forall a, calm j (q a)) -> calm j (next p q).
Proof. intros A B j p q H N. induction p as [a|f IH|f p IH|p IH]; cbn [next calm] in *; auto; try (destruct H; split; auto). Qed.
Lemma auto_next : forall A (p : prog A), calm false p -> auto_ok (next p (fun _ => Done true)).
Proof.
  intros A p H. induction p as [a|f IH|f p IH|p IH]; cbn [next calm auto_ok] in *; auto. { destruct H as (H1 & H2). left. split; auto. } destruct H as (H & _). discriminate H.
Qed.
Ltac still := repeat match goal with
  | |- calm _ (Done _) => exact I
  | |- calm _ (Read _) => intros ?; cbv zeta
  | |- calm _ (Write _ _) => split; [reflexivity|]
  | |- calm _ (next _ _) => apply calm_next
  | |- calm _ (if ?b then _ else _) => destruct b
  | |- forall _, calm _ _ => intros ?; cbv zeta
  end.
Lemma drive_calm : forall j, calm j drive.
Proof. intros j. unfold drive, motor, get_side_powers, get_delta_power. still. Qed.
Lemma limit_calm : forall j, calm j auto_limit_power.
Proof. intros j. unfold auto_limit_power. still. apply drive_calm. Qed.
Lemma perform_calm : forall e x, calm true (perform e x).
Proof.
  intros e x. destruct x; unfold perform; (apply calm_next; [|intros ?; exact I]).
  - unfold do_power, stop_first, start_tracking. still; try apply drive_calm.
  - unfold do_turn. still; apply drive_calm.
  - unfold do_servo. still.
  - unfold do_autos. still.
  - unfold do_shutdown. still. split; [reflexivity|]. still.
Qed.
Lemma handler_calm : forall e x, calm true (handler e x).
Proof. intros e x. unfold handler. intros c. destruct (closing c); [exact I|apply perform_calm]. Qed.
Lemma auto_turn_ok : forall n, auto_ok (auto_turn n).
Proof.
  intros n. unfold auto_turn. intros c. destruct (closing c). { right. split; reflexivity. } do 4 (left; split; [reflexivity|]). apply auto_next, limit_calm.
Qed.
Definition auto_sync (s : sys) : Prop :=
  (ended (s_car s) = true /\ s_auto s = Done false \/ ended (s_car s) = false /\ auto_ok (s_auto s)) /\ Forall (calm true) (s_reqs s).
Lemma sys_step_sync : forall s a s', auto_sync s -> sys_step s a = Some s' -> auto_sync s'.
Proof.
  intros s a s' (A & R) H. destruct a as [e x|n| |i|d w]; cbn [sys_step] in H.
  - injection H as <-. split; [exact A|]. cbn. apply Forall_app. split; [exact R|]. constructor; [apply handler_calm|constructor].
  - destruct (s_auto s) as [[]| | |] eqn:E; try discriminate H. injection H as <-. split; [|exact R]. right. destruct A as [(_ & A)|(A & _)]; [discriminate A|]. split; [exact A|apply auto_turn_ok].
  - destruct (move (s_auto s) (s_car s)) as [(p, c)|] eqn:M; [|discriminate H]. injection H as <-. split; [|exact R]. cbn [s_car s_auto]. destruct A as [(_ & A)|(E & A)]; [rewrite A in M; discriminate M|].
    destruct (s_auto s) as [r|f|f q|q]; cbn [move] in M; [discriminate M|injection M as <- <-|injection M as <- <-|contradiction].
    + right. split; [exact E|]. apply A.
    + destruct A as [(F & A)|(F & A)]; [right; rewrite F; auto|left; rewrite F; auto].
  - destruct (nth_error (s_reqs s) i) as [p|] eqn:N; [|discriminate H]. destruct (move p (s_car s)) as [(p', c)|] eqn:M; [|discriminate H]. injection H as <-.
    assert (calm true p) as T by (rewrite Forall_forall in R; apply R; exact (nth_error_In _ _ N)).
    assert (ended c = ended (s_car s) /\ calm true p') as (E & T').
    { destruct p as [r|f|f q|q]; cbn [move] in M; [discriminate M|injection M as <- <-|injection M as <- <-|].
      - split; [reflexivity|apply T].
      - destruct T as (T1 & T2). auto.
      - destruct (ended (s_car s)) eqn:E; [|discriminate M]. injection M as <- <-. split; [exact E|apply T]. }
    split; [|cbn; apply Forall_upd; assumption]. cbn [s_car s_auto]. rewrite E. exact A.
  - injection H as <-. split; [exact A|exact R].
Qed.
Lemma sys_run_sync : forall l s s', auto_sync s -> sys_run s l = Some s' -> auto_sync s'.
Proof.
  induction l as [|a l IH]; intros s s' S H; cbn [sys_run] in H. { injection H as <-. exact S. }
  destruct (sys_step s a) as [s1|] eqn:E; [|discriminate H]. exact (IH _ _ (sys_step_sync _ _ _ S E) H).
Qed.
Lemma sys_new_sync : auto_sync sys_new.
Proof. split; [right; split; reflexivity|constructor]. Qed.

(** ** After the shutdown *)
Definition idle (p : prog (hres (list (wcall * list Z)))) : Prop := finished p \/ not_started p.
Definition asleep (s : sys) : Prop := closing (s_car s) = true /\ s_auto s = Done false /\ Forall idle (s_reqs s).
Lemma asleep_step : forall s a s', asleep s -> sys_step s a = Some s' -> asleep s' /\ outs (s_car s') = outs (s_car s).
Proof.
  intros s a s' (C & A & R) H. destruct a as [e x|n| |i|d w]; cbn [sys_step] in H.
  - injection H as <-. split; [|reflexivity]. split; [exact C|]. split; [exact A|]. cbn. apply Forall_app. split; [exact R|]. constructor; [|constructor]. right. exists e, x. reflexivity.
  - rewrite A in H. discriminate H.
  - rewrite A in H. discriminate H.
  - destruct (nth_error (s_reqs s) i) as [p|] eqn:N; [|discriminate H]. assert (idle p) as T by (rewrite Forall_forall in R; apply R; exact (nth_error_In _ _ N)).
    destruct T as [(r & ->)|(e & x & ->)]; cbn [move handler] in H; [discriminate H|]. rewrite C in H. injection H as <-. split; [|reflexivity]. split; [exact C|]. split; [exact A|]. cbn. apply Forall_upd; [exact R|]. left. eexists. reflexivity.
  - injection H as <-. split; [|reflexivity]. split; [exact C|]. split; [exact A|exact R].
Qed.
Lemma asleep_run : forall l s s', asleep s -> sys_run s l = Some s' -> outs (s_car s') = outs (s_car s).
Proof.
  induction l as [|a l IH]; intros s s' S H; cbn [sys_run] in H. { injection H as <-. reflexivity. }
  destruct (sys_step s a) as [s1|] eqn:E; [|discriminate H]. destruct (asleep_step _ _ _ S E) as (S1 & E1). rewrite (IH _ _ S1 H). exact E1.
Qed.

(** ** The shutdown waits for the auto thread, not for ever *)
Lemma calm_runs : forall p s, s_auto s = p -> auto_ok p -> exists n s' r, sys_run s (repeat Auto n) = Some s' /\ s_auto s' = Done r /\ s_reqs s' = s_reqs s.
Proof.
  induction p as [r|f IH|f p IH|p IH]; intros s E A.
  - exists 0%nat, s, r. auto.
  - set (s1 := {| s_car := s_car s; s_auto := f (s_car s); s_reqs := s_reqs s |}). destruct (IH (s_car s) s1 eq_refl (A _)) as (n & s' & r & H & D & Q). exists (S n), s', r. cbn [repeat sys_run sys_step]. rewrite E. cbn [move]. auto.
  - set (s1 := {| s_car := f (s_car s); s_auto := p; s_reqs := s_reqs s |}). destruct A as [(_ & A)|(_ & A)].
    + destruct (IH s1 eq_refl A) as (n & s' & r & H & D & Q). exists (S n), s', r. cbn [repeat sys_run sys_step]. rewrite E. cbn [move]. auto.
    + exists 1%nat, s1, false. cbn [repeat sys_run sys_step]. rewrite E. cbn [move]. auto.
  - contradiction.
Qed.
Lemma sys_run_app : forall l m s, sys_run s (l ++ m) = match sys_run s l with Some s1 => sys_run s1 m | None => None end.
Proof. induction l as [|a l IH]; intros m s; [reflexivity|]. cbn [app sys_run]. destruct (sys_step s a); [apply IH|reflexivity]. Qed.
Lemma closing_ends : forall s n, sys_ok s -> auto_sync s -> closing (s_car s) = true -> exists l s', Forall (fun a => a = Auto \/ a = Sense n) l /\ sys_run s l = Some s' /\ ended (s_car s') = true /\ s_reqs s' = s_reqs s.
Proof.
  intros s n K S C. destruct S as ([(E & A)|(E & A)] & R).
  - exists [], s. auto.
  - destruct (calm_runs _ s eq_refl A) as (m & s1 & r & H & D & Q).
    assert (Forall orderly (repeat Auto m)) as O by (apply Forall_forall; intros a Ha; apply repeat_spec in Ha; subst a; exact I).
    destruct (sys_run_ok _ _ _ K O H) as (K1 & M1). pose proof (proj1 M1 C) as C1.
    assert (auto_sync s1) as S1 by (apply (sys_run_sync (repeat Auto m) s); [split; [right; auto|exact R]|exact H]).
    assert (Forall (fun a => a = Auto \/ a = Sense n) (repeat Auto m)) as F by (apply Forall_forall; intros a Ha; apply repeat_spec in Ha; auto).
    destruct S1 as ([(E1 & A1)|(E1 & A1)] & _).
    + exists (repeat Auto m), s1. auto.
    + rewrite D in A1. cbn in A1. subst r. exists (repeat Auto m ++ [Sense n; Auto; Auto]). eexists. split; [apply Forall_app; split; [exact F|constructor; [auto|constructor; [auto|constructor; [auto|constructor]]]]|]. rewrite sys_run_app, H.
      cbn [sys_run sys_step]. rewrite D. cbn [s_auto s_car s_reqs move auto_turn]. rewrite C1. cbn [s_auto s_car s_reqs move auto_turn]. split; [reflexivity|]. cbn. auto.
Qed.
