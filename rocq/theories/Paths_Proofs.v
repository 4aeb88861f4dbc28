(** Proofs about the paths of the samples. *)

From Coq Require Import String ZArith List Bool Lia ZifyBool.
From Verif Require Import Base ListMem Paths_Model Paths_Spec.
Import ListNotations.
Open Scope list_scope.
Open Scope Z_scope.

Lemma sep_none : forall s, started_by_name s -> last_separator s = None.
Proof.
  unfold started_by_name. induction s as [|c s IH]; intro H; cbn [last_separator]; [reflexivity|]. rewrite IH by (intro I; apply H; right; exact I).
  destruct (Z.eqb_spec c 47) as [->|]; [exfalso; apply H; left; reflexivity|reflexivity].
Qed.
Lemma sep_some : forall dir prog, started_in dir prog -> last_separator prog = Some (zlen dir).
Proof.
  intros dir prog (name & -> & N). induction dir as [|c dir IH]; cbn [app last_separator].
  - rewrite (sep_none name N). reflexivity.
  - rewrite IH, zlen_cons. reflexivity.
Qed.
Lemma started : forall prog, started_by_name prog \/ exists dir, started_in dir prog.
Proof.
  unfold started_by_name, started_in. induction prog as [|c s IH]; [left; intros []|]. destruct IH as [IH|(dir & name & -> & N)].
  - destruct (Z.eq_dec c 47) as [->|D]; [right; exists [], s; auto|left; intros [E|I]; auto].
  - right. exists (c :: dir), name. auto.
Qed.
Lemma started_dir_text : forall dir prog, text prog -> started_in dir prog -> text dir.
Proof. unfold text. intros dir prog T (name & -> & _). apply Forall_app in T. apply T. Qed.
Lemma c_str_text : forall t r, text t -> c_str (t ++ 0 :: r) = Some t.
Proof.
  induction t as [|c t IH]; intros r T; [reflexivity|]. inversion T as [|? ? C T']; subst. cbn [app c_str]. destruct (Z.eqb_spec c 0); [contradiction|]. rewrite IH by exact T'. reflexivity.
Qed.
Lemma strcpy_prefix : forall pre rest src, zlen src + 1 <= zlen rest -> exists r, strcpy_at (pre ++ rest) (zlen pre) src = Some (pre ++ src ++ 0 :: r) /\ zlen (src ++ 0 :: r) = zlen rest.
Proof.
  intros pre rest src L. unfold strcpy_at. assert (E : zlen (src ++ [0]) = zlen src + 1) by (rewrite zlen_app, zlen_cons, zlen_nil; lia).
  rewrite write_at_prefix by lia. exists (drop (zlen (src ++ [0])) rest). rewrite <- app_assoc. cbn [app]. split; [reflexivity|].
  assert (0 <= zlen src) by apply zlen_nonneg. rewrite zlen_app, zlen_cons, zlen_drop by lia. lia.
Qed.
Lemma strncpy_dir : forall b dir rest, zlen dir <= zlen b -> exists r, strncpy b (dir ++ rest) (zlen dir) = Some (dir ++ r) /\ zlen (dir ++ r) = zlen b.
Proof.
  intros b dir rest L. unfold strncpy. assert (0 <= zlen dir) by apply zlen_nonneg. assert (0 <= zlen rest) by apply zlen_nonneg.
  replace (Z.to_nat (zlen dir - zlen (dir ++ rest))) with O by (rewrite zlen_app; lia). rewrite take_app_exact. cbn [repeat]. rewrite app_nil_r.
  assert (W := write_at_prefix [] b dir L). change (zlen (@nil Z)) with 0 in W. cbn [app] in W. rewrite W. exists (drop (zlen dir) b). split; [reflexivity|].
  rewrite zlen_app, zlen_drop by lia. lia.
Qed.
Lemma put0 : forall pre c rest, write_at (pre ++ c :: rest) (zlen pre) [0] = Some (pre ++ 0 :: rest).
Proof. intros. exact (write_at_app pre [c] rest [0] eq_refl). Qed.

(** strcpy and what the array reads then *)
Lemma named : forall pre rest file, zlen file + 1 <= zlen rest -> text pre -> text file ->
  exists r, strcpy_at (pre ++ rest) (zlen pre) file = Some (pre ++ file ++ 0 :: r) /\ zlen (file ++ 0 :: r) = zlen rest /\ c_str (pre ++ file ++ 0 :: r) = Some (pre ++ file).
Proof.
  intros pre rest file L P F. destruct (strcpy_prefix pre rest file L) as (r & E & Z1). exists r. split; [exact E|]. split; [exact Z1|].
  rewrite app_assoc. apply c_str_text. apply Forall_app. split; assumption.
Qed.

Lemma game_spec : forall vf rf prog buf, zlen buf = 1024 -> text prog -> text vf -> text rf -> zlen vf < 1000 -> zlen rf < 1000 -> vf <> [] -> rf <> [] ->
  (started_by_name prog -> game_main vf rf (Some prog) buf = Goes (vf, rf, [])) /\
  (forall dir, started_in dir prog -> game_main vf rf (Some prog) buf =
     if 1024 <=? zlen dir + 1 + Z.max (zlen vf) (zlen rf) then Too_long else Goes (dir ++ 47 :: vf, dir ++ 47 :: rf, dir)).
Proof.
  intros vf rf prog buf B T TV TR LV LR NV NR. unfold game_main. destruct buf as [|c0 buf]; [discriminate|]. change (write_at (c0 :: buf) 0 [0]) with (write_at ([] ++ c0 :: buf) (zlen (@nil Z)) [0]).
  rewrite put0. cbn [app then_]. rewrite zlen_cons in B. split.
  - intro S. rewrite (sep_none _ S).
    destruct (named [] (0 :: buf) vf) as (r & E & Z1 & C); [rewrite zlen_cons; lia|constructor|exact TV|]. cbn [app] in E, C. change (zlen (@nil Z)) with 0 in E. rewrite E. cbn [then_]. rewrite C. cbn [then_].
    destruct (named [] (vf ++ 0 :: r) rf) as (r2 & E2 & Z2 & C2); [rewrite Z1, zlen_cons; lia|constructor|exact TR|]. cbn [app] in E2, C2. change (zlen (@nil Z)) with 0 in E2. rewrite E2. cbn [then_]. rewrite C2. cbn [then_].
    destruct rf as [|x rf]; [contradiction|]. change (write_at ((x :: rf) ++ 0 :: r2) 0 [0]) with (write_at ([] ++ x :: (rf ++ 0 :: r2)) (zlen (@nil Z)) [0]). rewrite put0. reflexivity.
  - intros dir S. assert (TD := started_dir_text _ _ T S). rewrite (sep_some _ _ S). unfold max_path. destruct (Z.leb_spec 1024 (zlen dir + 1 + Z.max (zlen vf) (zlen rf))) as [G|G]; [reflexivity|].
    destruct S as (name & -> & N). assert (D1 : zlen dir + 1 = zlen (dir ++ [47])) by (rewrite zlen_app; reflexivity). rewrite D1 in *.
    replace (dir ++ 47 :: name) with ((dir ++ [47]) ++ name) by (rewrite <- app_assoc; reflexivity).
    assert (TD1 : text (dir ++ [47])) by (apply Forall_app; split; [exact TD|constructor; [discriminate|constructor]]).
    assert (0 <= zlen vf) by apply zlen_nonneg. assert (0 <= zlen rf) by apply zlen_nonneg. assert (0 <= zlen dir) by apply zlen_nonneg.
    destruct (strncpy_dir (0 :: buf) (dir ++ [47]) name) as (r0 & E0 & Z0); [rewrite zlen_cons; lia|]. rewrite E0. cbn [then_]. rewrite !zlen_app, !zlen_cons in Z0. change (zlen (@nil Z)) with 0 in Z0.
    rewrite <- D1 in G.
    destruct (named (dir ++ [47]) r0 vf) as (r & E & Z1 & C); [lia|exact TD1|exact TV|]. rewrite E. cbn [then_]. rewrite C. cbn [then_].
    destruct (named (dir ++ [47]) (vf ++ 0 :: r) rf) as (r2 & E2 & Z2 & C2); [lia|exact TD1|exact TR|]. rewrite E2. cbn [then_]. rewrite C2. cbn [then_].
    replace ((dir ++ [47]) ++ rf ++ 0 :: r2) with (dir ++ 47 :: (rf ++ 0 :: r2)) by (rewrite <- app_assoc; reflexivity). rewrite put0. cbn [then_]. rewrite c_str_text by exact TD. cbn [then_].
    rewrite <- !app_assoc. reflexivity.
Qed.
Lemma vmem_spec : forall prog buf, zlen buf = 1024 -> text prog ->
  (started_by_name prog -> vmem_main (Some prog) buf = Goes pool_vmem) /\
  (forall dir, started_in dir prog -> vmem_main (Some prog) buf = if 1014 <=? zlen dir then Too_long else Goes (dir ++ 47 :: pool_vmem)).
Proof.
  intros prog buf B T. assert (TV : text pool_vmem) by (repeat constructor; discriminate). unfold vmem_main. destruct buf as [|c0 buf]; [discriminate|]. change (write_at (c0 :: buf) 0 [0]) with (write_at ([] ++ c0 :: buf) (zlen (@nil Z)) [0]).
  rewrite put0. cbn [app then_]. rewrite zlen_cons in B. assert (LV : zlen pool_vmem = 9) by reflexivity. split.
  - intro S. rewrite (sep_none _ S).
    destruct (named [] (0 :: buf) pool_vmem) as (r & E & Z1 & C); [rewrite zlen_cons; lia|constructor|exact TV|]. cbn [app] in E, C. change (zlen (@nil Z)) with 0 in E. rewrite E. cbn [then_]. rewrite C. reflexivity.
  - intros dir S. assert (TD := started_dir_text _ _ T S). rewrite (sep_some _ _ S). unfold max_path. rewrite LV. destruct (Z.leb_spec 1024 (zlen dir + 1 + 9)); destruct (Z.leb_spec 1014 (zlen dir)); try lia; [reflexivity|].
    destruct S as (name & -> & N). assert (D1 : zlen dir + 1 = zlen (dir ++ [47])) by (rewrite zlen_app; reflexivity). rewrite D1 in *.
    replace (dir ++ 47 :: name) with ((dir ++ [47]) ++ name) by (rewrite <- app_assoc; reflexivity).
    assert (TD1 : text (dir ++ [47])) by (apply Forall_app; split; [exact TD|constructor; [discriminate|constructor]]).
    assert (0 <= zlen dir) by apply zlen_nonneg.
    destruct (strncpy_dir (0 :: buf) (dir ++ [47]) name) as (r0 & E0 & Z0); [rewrite zlen_cons; lia|]. rewrite E0. cbn [then_]. rewrite !zlen_app, !zlen_cons in Z0. change (zlen (@nil Z)) with 0 in Z0.
    destruct (named (dir ++ [47]) r0 pool_vmem) as (r & E & Z1 & C); [lia|exact TD1|exact TV|]. rewrite E. cbn [then_]. rewrite C. cbn [then_]. rewrite <- app_assoc. reflexivity.
Qed.
Lemma tls_spec : forall prog buf1 buf2, zlen buf1 = 1024 -> zlen buf2 = 1024 -> text prog ->
  (started_by_name prog -> tls_main (Some prog) buf1 buf2 = Goes (cert_pem, pkey_pem)) /\
  (forall dir, started_in dir prog -> tls_main (Some prog) buf1 buf2 = if 1015 <=? zlen dir then Too_long else Goes (dir ++ 47 :: cert_pem, dir ++ 47 :: pkey_pem)).
Proof.
  intros prog buf1 buf2 B1 B2 T. assert (TC : text cert_pem) by (repeat constructor; discriminate). assert (TK : text pkey_pem) by (repeat constructor; discriminate).
  unfold tls_main. destruct buf1 as [|c1 buf1]; [discriminate|]. destruct buf2 as [|c2 buf2]; [discriminate|].
  change (write_at (c1 :: buf1) 0 [0]) with (write_at ([] ++ c1 :: buf1) (zlen (@nil Z)) [0]). change (write_at (c2 :: buf2) 0 [0]) with (write_at ([] ++ c2 :: buf2) (zlen (@nil Z)) [0]).
  rewrite !put0. cbn [app then_]. rewrite zlen_cons in B1, B2. assert (LC : zlen cert_pem = 8) by reflexivity. assert (LK : zlen pkey_pem = 8) by reflexivity. split.
  - intro S. rewrite (sep_none _ S).
    destruct (named [] (0 :: buf1) cert_pem) as (r & E & Z1 & C); [rewrite zlen_cons; lia|constructor|exact TC|]. cbn [app] in E, C. change (zlen (@nil Z)) with 0 in E. rewrite E. cbn [then_].
    destruct (named [] (0 :: buf2) pkey_pem) as (r2 & E2 & Z2 & C2); [rewrite zlen_cons; lia|constructor|exact TK|]. cbn [app] in E2, C2. change (zlen (@nil Z)) with 0 in E2. rewrite E2. cbn [then_].
    rewrite C. cbn [then_]. rewrite C2. reflexivity.
  - intros dir S. assert (TD := started_dir_text _ _ T S). rewrite (sep_some _ _ S). unfold max_path. rewrite LC, LK. change (Z.max 8 8) with 8. destruct (Z.leb_spec 1024 (zlen dir + 1 + 8)); destruct (Z.leb_spec 1015 (zlen dir)); try lia; [reflexivity|].
    destruct S as (name & -> & N). assert (D1 : zlen dir + 1 = zlen (dir ++ [47])) by (rewrite zlen_app; reflexivity). rewrite D1 in *.
    replace (dir ++ 47 :: name) with ((dir ++ [47]) ++ name) by (rewrite <- app_assoc; reflexivity).
    assert (TD1 : text (dir ++ [47])) by (apply Forall_app; split; [exact TD|constructor; [discriminate|constructor]]).
    assert (0 <= zlen dir) by apply zlen_nonneg.
    destruct (strncpy_dir (0 :: buf1) (dir ++ [47]) name) as (r0 & E0 & Z0); [rewrite zlen_cons; lia|]. rewrite E0. cbn [then_]. rewrite !zlen_app, !zlen_cons in Z0. change (zlen (@nil Z)) with 0 in Z0.
    destruct (strncpy_dir (0 :: buf2) (dir ++ [47]) name) as (r1 & E1 & Z1); [rewrite zlen_cons; lia|]. rewrite E1. cbn [then_]. rewrite !zlen_app, !zlen_cons in Z1. change (zlen (@nil Z)) with 0 in Z1.
    destruct (named (dir ++ [47]) r0 cert_pem) as (r & E & Z2 & C); [lia|exact TD1|exact TC|]. rewrite E. cbn [then_].
    destruct (named (dir ++ [47]) r1 pkey_pem) as (r2 & E2 & Z3 & C2); [lia|exact TD1|exact TK|]. rewrite E2. cbn [then_].
    rewrite C. cbn [then_]. rewrite C2. cbn [then_]. rewrite <- !app_assoc. reflexivity.
Qed.
Lemma car_spec : forall prog buf, zlen buf = 1024 -> text prog ->
  (started_by_name prog -> car_main (Some prog) buf = Goes []) /\
  (forall dir, started_in dir prog -> car_main (Some prog) buf = if 1024 <=? zlen dir then Too_long else Goes dir).
Proof.
  intros prog buf B T. unfold car_main. destruct buf as [|c0 buf]; [discriminate|]. change (write_at (c0 :: buf) 0 [0]) with (write_at ([] ++ c0 :: buf) (zlen (@nil Z)) [0]).
  rewrite put0. cbn [app then_]. rewrite zlen_cons in B. split.
  - intro S. rewrite (sep_none _ S). change (write_at (0 :: buf) 0 [0]) with (write_at ([] ++ 0 :: buf) (zlen (@nil Z)) [0]). rewrite put0. reflexivity.
  - intros dir S. assert (TD := started_dir_text _ _ T S). rewrite (sep_some _ _ S). unfold max_path. destruct (Z.leb_spec 1024 (zlen dir)) as [G|G]; [reflexivity|].
    destruct S as (name & -> & N). assert (0 <= zlen dir) by apply zlen_nonneg.
    destruct (strncpy_dir (0 :: buf) dir (47 :: name)) as (r0 & E0 & Z0); [rewrite zlen_cons; lia|]. rewrite E0. cbn [then_]. rewrite zlen_app, zlen_cons in Z0.
    destruct r0 as [|x r0]; [rewrite zlen_nil in Z0; lia|]. rewrite put0. cbn [then_]. rewrite c_str_text by exact TD. reflexivity.
Qed.
