(** Lemmas about split_resource and get_resource_parameter (C15). *)

From Coq Require Import ZArith List Bool Lia ZifyBool.
From Verif Require Import Base ListMem Ascii_Model Http_Model Http_Spec Http_Calls Http_Proofs.
Import ListNotations.
Open Scope Z_scope.

Lemma strchr_found : forall a c k i, Forall (fun x => x <> 0 /\ x <> c) a -> strchr (a ++ c :: k) c i = Ret (Some (i + zlen a)).
Proof.
  intros a c k; induction a as [|x a IH]; intros i F.
  - cbn [app strchr]. rewrite Z.eqb_refl. f_equal. f_equal. cbn. lia.
  - inversion F as [|? ? (A & B) F']; subst. cbn [app strchr]. rewrite (proj2 (Z.eqb_neq x c) B), (proj2 (Z.eqb_neq x 0) A), IH by exact F'.
    rewrite zlen_cons. f_equal. f_equal. lia.
Qed.
Lemma strchr_none : forall a c k i, c <> 0 -> Forall (fun x => x <> 0 /\ x <> c) a -> strchr (a ++ 0 :: k) c i = Ret None.
Proof.
  intros a c k i C; revert i; induction a as [|x a IH]; intros i F.
  - cbn [app strchr]. rewrite (proj2 (Z.eqb_neq 0 c)) by congruence. reflexivity.
  - inversion F as [|? ? (A & B) F']; subst. cbn [app strchr]. rewrite (proj2 (Z.eqb_neq x c) B), (proj2 (Z.eqb_neq x 0) A), IH by exact F'. reflexivity.
Qed.
Lemma strlen_at : forall a k, Forall (fun x => x <> 0) a -> strlen (a ++ 0 :: k) = Ret (zlen a).
Proof.
  intros a k; induction a as [|x a IH]; intros F; [reflexivity|].
  inversion F as [|? ? A F']; subst. cbn [app strlen]. rewrite (proj2 (Z.eqb_neq x 0) A), IH by exact F'. cbn [bind]. rewrite zlen_cons. reflexivity.
Qed.
Lemma store_at : forall a x k c, store (a ++ x :: k) (zlen a) c = Ret (a ++ c :: k).
Proof.
  intros a x k c. unfold store. pose proof (write_at_app a [x] k [c]) as H. cbn [app] in H. rewrite H by reflexivity. reflexivity.
Qed.
Lemma load_at : forall a x k, load (a ++ x :: k) (zlen a) = Ret x.
Proof.
  intros a x k. unfold load. pose proof (read_at_app a [x] k) as H. cbn [app] in H. change (zlen [x]) with 1 in H. rewrite H. reflexivity.
Qed.

Lemma split_params : forall ps done x junk fuel, ps <> [] -> Forall param_text ps -> (length ps < fuel)%nat ->
  split_loop fuel (done ++ x :: query_text ps ++ [0; 0] ++ junk) (zlen (done ++ x :: query_text ps ++ [0; 0] ++ junk)) (Some (zlen done)) =
  Ret (done ++ [0] ++ strings ps ++ junk).
Proof.
  induction ps as [|p ps IH]; intros done x junk fuel N F L; [congruence|].
  inversion F as [|? ? (Np & Fp) F']; subst. destruct fuel as [|fuel]; [cbn in L; lia|].
  cbn [split_loop]. pose proof (zlen_nonneg _ done) as Z1.
  set (q := query_text (p :: ps) ++ [0; 0] ++ junk).
  assert (Q : exists y k, q = p ++ y :: k) by (unfold q; destruct ps; cbn [query_text]; rewrite <- ?app_assoc; do 2 eexists; reflexivity).
  destruct Q as (y & k0 & Q). set (k := y :: k0) in Q. assert (Zk : 0 < zlen k) by (unfold k; rewrite zlen_cons; pose proof (zlen_nonneg _ k0); lia).
  clearbody k. clear y k0.
  destruct p as [|c p]; [congruence|].
  pose proof (zlen_nonneg _ p) as Z2.
  assert (Zq : zlen q = 1 + zlen p + zlen k) by (rewrite Q, zlen_app, zlen_cons; lia).
  rewrite zlen_app, zlen_cons. replace (zlen done <? zlen done + (zlen q + 1)) with true by lia.
  rewrite store_at. cbn [bind]. replace (zlen done + 1 <? zlen done + (zlen q + 1)) with true by lia.
  assert (D1 : zlen done + 1 = zlen (done ++ [0])) by (rewrite zlen_app; reflexivity).
  replace (done ++ 0 :: q) with ((done ++ [0]) ++ c :: (p ++ k)) by (rewrite Q, <- app_assoc; reflexivity).
  rewrite D1, load_at. cbn [bind].
  inversion Fp as [|? ? (A & B) Fp']; subst. replace (c =? 0) with false by lia. cbn [negb]. rewrite drop_app_exact.
  change (c :: p ++ k) with ((c :: p) ++ k).
  destruct ps as [|p2 ps].
  - assert (Ek : k = 0 :: 0 :: junk).
    { unfold q in Q. cbn [query_text] in Q. apply app_inv_head in Q. rewrite <- Q. reflexivity. }
    rewrite Ek. rewrite strchr_none by (first [discriminate | exact Fp]). cbn [bind]. destruct fuel; [cbn in L; lia|]. cbn [split_loop].
    unfold strings. cbn [map concat]. rewrite <- !app_assoc. reflexivity.
  - assert (Ek : k = 38 :: query_text (p2 :: ps) ++ [0; 0] ++ junk).
    { unfold q in Q. cbn [query_text] in Q. change (match ps with [] => p2 | _ :: _ => p2 ++ [38] ++ query_text ps end) with (query_text (p2 :: ps)) in Q.
      rewrite <- !app_assoc in Q. apply app_inv_head in Q. rewrite <- Q. reflexivity. }
    rewrite Ek. rewrite strchr_found by exact Fp. cbn [bind].
    replace ((done ++ [0]) ++ (c :: p) ++ 38 :: query_text (p2 :: ps) ++ [0; 0] ++ junk)
      with ((done ++ [0] ++ c :: p) ++ 38 :: query_text (p2 :: ps) ++ [0; 0] ++ junk) by (rewrite <- !app_assoc; reflexivity).
    replace (zlen (done ++ [0]) + zlen (c :: p)) with (zlen (done ++ [0] ++ c :: p)) by (rewrite !zlen_app; lia).
    replace (zlen done + (zlen q + 1)) with (zlen ((done ++ [0] ++ c :: p) ++ 38 :: query_text (p2 :: ps) ++ [0; 0] ++ junk)).
    + rewrite IH by (first [discriminate | exact F' | cbn in *; lia]).
      unfold strings. cbn [map concat]. rewrite <- !app_assoc. reflexivity.
    + rewrite Zq, Ek. rewrite ?zlen_app, ?zlen_cons, ?zlen_app, ?zlen_cons, ?zlen_nil, ?zlen_app, ?zlen_cons, ?zlen_nil; lia.
Qed.
Lemma params_short : forall ps, Forall param_text ps -> (length ps <= length (query_text ps))%nat.
Proof.
  intros ps F; induction F as [|p ps (N & _) F IH]; [cbn; lia|]. destruct p as [|c p]; [congruence|].
  cbn [query_text]. destruct ps; cbn [length app] in *; [lia|]. rewrite app_length. cbn [length]. cbn [query_text] in IH. cbn [query_text]. lia.
Qed.
(** split_resource on a path with a query *)
Lemma split_query : forall path ps junk, path_text path -> ps <> [] -> Forall param_text ps ->
  split_resource (path ++ [63] ++ query_text ps ++ [0; 0] ++ junk) (zlen (path ++ [63] ++ query_text ps ++ [0; 0] ++ junk)) =
  Ret (path ++ [0] ++ strings ps ++ junk).
Proof.
  intros path ps junk P N F. unfold split_resource. cbn [app]. rewrite strchr_found by exact P. cbn [bind].
  change (0 + zlen path) with (zlen path). apply split_params; auto.
  pose proof (params_short ps F). rewrite app_length. cbn [length]. rewrite app_length. cbn [length]. lia.
Qed.
(** and on a path alone *)
Lemma split_path : forall path junk size, path_text path -> split_resource (path ++ [0; 0] ++ junk) size = Ret (path ++ [0] ++ strings [] ++ junk).
Proof.
  intros path junk size P. unfold split_resource. cbn [app]. rewrite strchr_none by (first [discriminate | exact P]). reflexivity.
Qed.

Lemma strncmp_name : forall name p k, Forall (fun c => c <> 0) name -> Forall (fun c => c <> 0) p ->
  (exists r, p = name ++ r /\ strncmp0 (length name) (p ++ 0 :: k) (name ++ [0]) = Ret true) \/
  ((forall r, p <> name ++ r) /\ strncmp0 (length name) (p ++ 0 :: k) (name ++ [0]) = Ret false).
Proof.
  intros name; induction name as [|c name IH]; intros p k Fn Fp; [left; exists p; auto|].
  inversion Fn as [|? ? A Fn']; subst. destruct p as [|x p].
  - right. split; [intros r; discriminate|]. cbn [length app strncmp0]. rewrite (proj2 (Z.eqb_neq 0 c)) by congruence. reflexivity.
  - inversion Fp as [|? ? B Fp']; subst. cbn [length app strncmp0]. destruct (Z.eqb_spec x c) as [->|E].
    + cbn [negb]. rewrite (proj2 (Z.eqb_neq c 0) A). destruct (IH p k Fn' Fp') as [(r & -> & H)|(H & H')].
      * left. exists r. auto.
      * right. split; [intros r E; injection E as E; apply (H r E)|exact H'].
    + right. split; [intros r E'; injection E' as E' _; contradiction|reflexivity].
Qed.
Lemma find_params : forall name, Forall (fun c => c <> 0) name -> forall ps r, lookup name ps r -> Forall param_text ps -> forall done junk fuel,
  (length ps < fuel)%nat ->
  exists o, param_loop fuel (done ++ strings ps ++ junk) (zlen (done ++ strings ps ++ junk)) (name ++ [0]) (zlen name) (zlen done) = Ret o /\
    found_at (done ++ strings ps ++ junk) r o.
Proof.
  intros name Fn ps r H. induction H as [|v ps|p ps r H0 H IH]; intros F done junk fuel L; (destruct fuel as [|fuel]; [cbn in L; lia|]); cbn [param_loop].
  - pose proof (zlen_nonneg _ junk). exists None. split; [|exact I]. unfold strings. cbn [map concat app].
    rewrite zlen_app, zlen_cons. replace (zlen done <? zlen done + (zlen junk + 1)) with true by lia. rewrite load_at. reflexivity.
  - inversion F as [|? ? (Np & Fp) F']; subst. unfold strings. cbn [map concat].
    set (k := (concat (map (fun p => p ++ [0]) ps) ++ [0]) ++ junk).
    assert (E : done ++ (((name ++ [61] ++ v) ++ [0]) ++ concat (map (fun p => p ++ [0]) ps)) ++ [0] = done ++ ((name ++ [61] ++ v) ++ [0] ++ concat (map (fun p => p ++ [0]) ps)) ++ [0]) by (rewrite <- !app_assoc; reflexivity).
    clear E.
    replace (done ++ ((((name ++ [61] ++ v) ++ [0]) ++ concat (map (fun p => p ++ [0]) ps)) ++ [0]) ++ junk) with (done ++ (name ++ 61 :: v) ++ 0 :: k)
      by (unfold k; rewrite <- !app_assoc; reflexivity).
    assert (Fz : Forall (fun c => c <> 0) (name ++ 61 :: v)) by (eapply Forall_impl; [|exact Fp]; intros c (A & _); exact A).
    destruct (name ++ 61 :: v) as [|c t] eqn:Et; [destruct name; discriminate|].
    pose proof (zlen_nonneg _ t). pose proof (zlen_nonneg _ k). pose proof (zlen_nonneg _ name).
    rewrite zlen_app. cbn [app]. rewrite zlen_cons. replace (zlen done <? _) with true by (rewrite zlen_app, zlen_cons; lia).
    rewrite load_at. cbn [bind]. inversion Fz as [|? ? A Fz']; subst. replace (c =? 0) with false by lia. cbn [negb].
    rewrite drop_app_exact. change (c :: t ++ 0 :: k) with ((c :: t) ++ 0 :: k). rewrite <- Et.
    replace (Z.to_nat (zlen name)) with (length name) by (unfold zlen; lia).
    destruct (strncmp_name name (name ++ 61 :: v) k Fn ltac:(rewrite Et; constructor; assumption)) as [(r & Er & S)|(S & _)]; [|exfalso; apply (S (61 :: v)); reflexivity].
    rewrite S. cbn [bind].
    replace (done ++ (name ++ 61 :: v) ++ 0 :: k) with ((done ++ name) ++ 61 :: v ++ 0 :: k) by (rewrite <- !app_assoc; reflexivity).
    rewrite <- zlen_app, load_at. cbn [bind]. exists (Some (zlen (done ++ name) + 1)). split; [reflexivity|].
    cbn [found_at]. exists ((done ++ name) ++ [61]), k. split; [rewrite <- !app_assoc; reflexivity|]. rewrite (zlen_app _ _ [61]). reflexivity.
  - inversion F as [|? ? (Np & Fp) F']; subst. unfold strings. cbn [map concat].
    set (k := strings ps ++ junk).
    replace (done ++ (((p ++ [0]) ++ concat (map (fun p => p ++ [0]) ps)) ++ [0]) ++ junk) with (done ++ p ++ 0 :: k)
      by (unfold k, strings; rewrite <- !app_assoc; reflexivity).
    assert (Fz : Forall (fun c => c <> 0) p) by (eapply Forall_impl; [|exact Fp]; intros c (A & _); exact A).
    destruct p as [|c t] eqn:Et; [congruence|]. rewrite <- Et in *.
    pose proof (zlen_nonneg _ p). pose proof (zlen_nonneg _ k). pose proof (zlen_nonneg _ name).
    rewrite zlen_app, zlen_app, zlen_cons. replace (zlen done <? zlen done + (zlen p + (zlen k + 1))) with true by lia.
    assert (Ld : load (done ++ p ++ 0 :: k) (zlen done) = Ret c) by (rewrite Et; apply load_at).
    rewrite Ld. cbn [bind]. assert (A : c <> 0) by (rewrite Et in Fz; inversion Fz; assumption). replace (c =? 0) with false by lia. cbn [negb].
    rewrite drop_app_exact. replace (Z.to_nat (zlen name)) with (length name) by (unfold zlen; lia).
    assert (Rest : forall found, found = Ret false ->
      exists o, (do found <- (found : hres bool); if found then Ret (Some (zlen done + zlen name + 1))
         else do n <- strlen (p ++ 0 :: k); param_loop fuel (done ++ p ++ 0 :: k) (zlen done + (zlen p + (zlen k + 1))) (name ++ [0]) (zlen name) (zlen done + n + 1)) = Ret o /\
         found_at (done ++ p ++ 0 :: k) r o).
    { intros found ->. cbn [bind]. rewrite strlen_at by exact Fz. cbn [bind].
      destruct (IH F' (done ++ p ++ [0]) junk fuel) as (o & E & Q); [cbn in L; lia|]. exists o.
      replace ((done ++ p ++ [0]) ++ strings ps ++ junk) with (done ++ p ++ 0 :: k) in E, Q by (unfold k; rewrite <- !app_assoc; reflexivity).
      split; [|exact Q]. rewrite <- E. f_equal; [rewrite !zlen_app, zlen_cons; reflexivity|rewrite !zlen_app; cbn; lia]. }
    destruct (strncmp_name name p k Fn Fz) as [(q & Er & S)|(_ & S)]; rewrite S; cbn [bind].
    + assert (Q : exists x k', q ++ 0 :: k = x :: k' /\ x <> 61).
      { destruct q as [|x q]; [exists 0, k; split; [reflexivity|lia]|]. exists x, (q ++ 0 :: k). split; [reflexivity|]. intros ->. apply (H0 q). exact Er. }
      destruct Q as (x & k' & Q & Nx). apply Rest.
      replace (done ++ p ++ 0 :: k) with ((done ++ name) ++ x :: k') by (rewrite Er, <- !app_assoc, Q; reflexivity).
      rewrite <- zlen_app, load_at. cbn [bind]. rewrite (proj2 (Z.eqb_neq x 61) Nx). reflexivity.
    + exact (Rest (Ret false) eq_refl).
Qed.
(** C15 *)
Lemma find_parameter : forall path ps junk name r, path_text path -> Forall param_text ps -> Forall (fun c => c <> 0) name -> lookup name ps r ->
  exists o, get_resource_parameter (path ++ [0] ++ strings ps ++ junk) (zlen (path ++ [0] ++ strings ps ++ junk)) (name ++ [0]) = Ret o /\
    found_at (path ++ [0] ++ strings ps ++ junk) r o.
Proof.
  intros path ps junk name r P F Fn H. unfold get_resource_parameter. rewrite strlen_at by exact Fn. cbn [bind].
  assert (Fz : Forall (fun c => c <> 0) path) by (eapply Forall_impl; [|exact P]; intros c (A & _); exact A).
  change (path ++ [0] ++ strings ps ++ junk) with (path ++ 0 :: strings ps ++ junk). rewrite strlen_at by exact Fz. cbn [bind].
  replace (zlen path + 1) with (zlen (path ++ [0])) by (rewrite zlen_app; reflexivity).
  replace (path ++ 0 :: strings ps ++ junk) with ((path ++ [0]) ++ strings ps ++ junk) by (rewrite <- app_assoc; reflexivity).
  apply find_params; auto.
  assert (L : (length ps <= length (strings ps))%nat).
  { unfold strings. rewrite app_length. clear. induction ps as [|p ps IH]; [cbn; lia|]. cbn [map concat]. rewrite !app_length in *. cbn [length] in *. lia. }
  rewrite !app_length. lia.
Qed.
