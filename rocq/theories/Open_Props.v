(** Opening a pool: C37. *)

From Coq Require Import ZArith List Bool String Lia.
From Verif Require Import Base Cache_Model Open_Model Open_Spec.
Import ListNotations.
Open Scope Z_scope.

Lemma land_page n : 0 <= n -> Z.land n (page_size - 1) = n mod 4096.
Proof. intro H. change (page_size - 1) with (Z.ones 12). rewrite Z.land_ones by lia. reflexivity. Qed.
Lemma u16_split a b x y : 0 <= a < 256 -> 0 <= b < 256 -> 0 <= x < 256 -> 0 <= y < 256 -> (a + 256 * b =? x + 256 * y) = (a =? x) && (b =? y).
Proof. intros. destruct (Z.eqb_spec (a + 256 * b) (x + 256 * y)), (Z.eqb_spec a x), (Z.eqb_spec b y); cbn; try reflexivity; lia. Qed.
Lemma root_ok_iff f : bytes f -> root_ok f = true <-> has_bytes f 0 header.
Proof.
  intros (_ & B). unfold root_ok, u16_at, header, signature, page_size. cbn [bytes_of_string strcmp_eq has_bytes].
  change 2 with (2 + 256 * 0) at 1. change 4096 with (0 + 256 * 16). rewrite !u16_split by (auto; lia).
  cbn - [Z.add Z.eqb]. rewrite !andb_true_iff, !Z.eqb_eq. cbn - [Z.eqb]. tauto.
Qed.

(** A file that is not a pool file is refused and left as it is, whatever it holds; an empty file is one that was just
    made by open().  No log is passed; for a log see C37_log_refuted. *)
Theorem C37_not_a_pool : forall max f w0 w1,
  bytes f -> f_size f <> 0 -> ~ is_pool f -> open_pool false max true true f w0 w1 = Thrown f.
Proof.
  intros max f w0 w1 B N P. unfold open_pool. destruct (max <? min_mapped_pages); [reflexivity|]. cbn [negb]. rewrite land_page by apply B.
  destruct (Z.eqb_spec (f_size f mod 4096) 0) as [E|]; [|reflexivity]. cbn [negb].
  assert (0 < f_size f) by (destruct B; lia). destruct (Z.ltb_spec 0 (f_size f)); [|lia]. unfold verify_pool. cbn [andb].
  destruct (root_ok f) eqn:R; [|reflexivity]. exfalso. apply P. split; [apply root_ok_iff; auto|]. split; [auto|]. apply Z.mod_divide; [lia|auto].
Qed.
Print Assumptions C37_not_a_pool.

(** A pool file is opened, by any pool with at least three mapped pages, and nothing in it changes. *)
Theorem C37_pool : forall max f w0 w1,
  bytes f -> 3 <= max -> is_pool f -> open_pool false max true true f w0 w1 = Ready f.
Proof.
  intros max f w0 w1 B M (H & S & D). unfold open_pool. destruct (Z.ltb_spec max min_mapped_pages) as [L|_]; [unfold min_mapped_pages in L; lia|]. cbn [negb]. rewrite land_page by apply B.
  apply Z.mod_divide in D; [|lia]. rewrite D. cbn [Z.eqb negb]. destruct (Z.ltb_spec 0 (f_size f)); [|lia]. unfold verify_pool. cbn [andb].
  apply root_ok_iff in H; auto. rewrite H. reflexivity.
Qed.
Print Assumptions C37_pool.

(** The states of a file that becomes a pool: zeroes, or a root page and zeroes behind it. *)
Definition zero_file (n : Z) (g : file) : Prop := f_size g = n /\ forall i, 0 <= i < n -> f_at g i = 0.
Definition root_file (n : Z) (g : file) : Prop :=
  f_size g = 4096 + n /\ (forall i, 0 <= i < 4096 -> f_at g i = nth (Z.to_nat i) root_bytes 0) /\ (forall i, 4096 <= i < 4096 + n -> f_at g i = 0).
Lemma create_zero f w : f_size f = 0 -> write_result w -> zero_file (Z.max 0 w) (fst (create_page f w)).
Proof.
  intros Z0 Hw. unfold create_page, zero_file. cbn [fst f_size f_at]. rewrite Z0. split; [lia|]. intros i Hi. destruct (Z.leb_spec 0 i), (Z.ltb_spec i (0 + Z.max 0 w)); cbn [andb]; try lia; reflexivity.
Qed.
Lemma create_root f w : root_file 0 f -> write_result w -> root_file (Z.max 0 w) (fst (create_page f w)).
Proof.
  intros (S & R & _) Hw. unfold create_page, root_file. cbn [fst f_size f_at]. rewrite S. split; [lia|]. split; intros i Hi;
    destruct (Z.leb_spec (4096 + 0) i), (Z.ltb_spec i (4096 + 0 + Z.max 0 w)); cbn [andb]; try lia; auto; apply R; lia.
Qed.
Lemma zero_write f : zero_file 4096 f -> zero_file 4096 (write_page f 0 []).
Proof.
  intros (S & R). split; [exact S|]. intros i Hi. unfold write_page, page_size. cbn [f_at]. destruct (Z.leb_spec (0 * 4096) i), (Z.ltb_spec i ((0 + 1) * 4096)); cbn [andb]; try lia.
  destruct (Z.to_nat _); reflexivity.
Qed.
Lemma root_write f : zero_file 4096 f -> root_file 0 (write_page f 0 root_bytes).
Proof.
  intros (S & R). split; [cbn; lia|]. split; intros i Hi; [|lia]. unfold write_page, page_size. cbn [f_at]. destruct (Z.leb_spec (0 * 4096) i), (Z.ltb_spec i ((0 + 1) * 4096)); cbn [andb]; try lia.
  f_equal. f_equal. lia.
Qed.
Lemma start_write f : root_file 4096 f -> root_file 4096 (write_page f 1 []).
Proof.
  intros (S & R & Q). split; [exact S|]. unfold write_page, page_size. cbn [f_at]. split; intros i Hi; destruct (Z.leb_spec (1 * 4096) i), (Z.ltb_spec i ((1 + 1) * 4096)); cbn [andb]; try lia; auto.
  destruct (Z.to_nat _); reflexivity.
Qed.
(** Where creation can stop: [Zeros n], [Root n]. *)
Lemma init_states f w0 w1 : f_size f = 0 -> write_result w0 -> write_result w1 ->
  (forall g, In g (fst (init_pool f w0 w1)) -> (exists n, 0 <= n <= 4096 /\ zero_file n g) \/ (exists n, 0 <= n <= 4096 /\ root_file n g)) /\
  (snd (init_pool f w0 w1) = true <-> w0 = 4096 /\ w1 = 4096) /\
  (w0 <> 4096 -> zero_file (Z.max 0 w0) (last (fst (init_pool f w0 w1)) f)) /\
  (w0 = 4096 -> root_file (Z.max 0 w1) (last (fst (init_pool f w0 w1)) f)).
Proof.
  intros Z0 H0 H1. pose proof (create_zero f w0 Z0 H0) as C0. unfold init_pool.
  assert (P0 : snd (create_page f w0) = if w0 =? 4096 then 0 else page_nil). { unfold create_page, page_size. cbn [snd]. rewrite Z0. reflexivity. }
  destruct (create_page f w0) as [f0 p0]. cbn [fst snd] in *. subst p0. destruct (Z.eqb_spec w0 4096) as [->|N].
  2: { rewrite Z.eqb_refl. cbn [fst snd In last]. split; [|split; [|split]]; try (split; [discriminate|lia]); try lia; auto.
       intros g [<-|[]]. left. exists (Z.max 0 w0). split; [unfold write_result in *; lia|auto]. }
  change (0 =? page_nil) with false. cbn iota. change (Z.max 0 4096) with 4096 in C0.
  pose proof (zero_write _ C0) as C1. pose proof (root_write _ C1) as C2. set (f1 := write_page f0 0 []) in *. set (f2 := write_page f1 0 root_bytes) in *.
  pose proof (create_root f2 w1 C2 H1) as C3.
  assert (P1 : snd (create_page f2 w1) = if w1 =? 4096 then 1 else page_nil). { unfold create_page, page_size. cbn [snd]. destruct C2 as (-> & _). reflexivity. }
  clearbody f1 f2. destruct (create_page f2 w1) as [f3 p1]. cbn [fst snd] in *. subst p1.
  assert (U : forall g, In g [f0; f1; f2; f3] -> (exists n, 0 <= n <= 4096 /\ zero_file n g) \/ (exists n, 0 <= n <= 4096 /\ root_file n g)).
  { intros g [<-|[<-|[<-|[<-|[]]]]]; [left; exists 4096; split; [lia|auto]|left; exists 4096; split; [lia|auto]|right; exists 0; split; [lia|auto]|right; exists (Z.max 0 w1); unfold write_result in *; split; [lia|auto]]. }
  destruct (Z.eqb_spec w1 4096) as [->|N].
  - change (1 =? page_nil) with false. cbn iota. cbn [fst snd last]. change (Z.max 0 4096) with 4096 in *. pose proof (start_write _ C3) as C4.
    split; [|split; [tauto|split; [lia|auto]]]. intros g [<-|[<-|[<-|[<-|[<-|[]]]]]]; try (apply U; cbn; tauto). right. exists 4096. split; [lia|auto].
  - rewrite Z.eqb_refl. cbn [fst snd last]. split; [exact U|]. split; [split; [discriminate|lia]|]. split; [lia|auto].
Qed.
Lemma ends_at f off n k : 0 <= k < Z.of_nat n -> f_at f (off + k) = 0 -> string_ends f off n = true.
Proof.
  revert off k. induction n as [|n IH]; intros off k Hk E; [lia|]. cbn [string_ends]. destruct (Z.eqb_spec (f_at f off) 0); [reflexivity|]. cbn [orb].
  apply (IH (off + 1) (k - 1)); [|replace (off + 1 + (k - 1)) with (off + k) by lia; auto]. assert (k <> 0) by (intros ->; rewrite Z.add_0_r in E; auto). lia.
Qed.
Lemma root_header n g : root_file n g -> has_bytes g 0 header /\ root_ok g = true /\ string_ends g 2 (Z.to_nat (page_size - 2)) = true.
Proof.
  intros (S & R & Q). assert (E : forall i, 0 <= i < 14 -> f_at g i = nth (Z.to_nat i) root_bytes 0) by (intros; apply R; lia).
  split; [|split].
  - unfold header. cbn [has_bytes]. cbn - [nth Z.to_nat root_bytes]. rewrite !E by lia. vm_compute. tauto.
  - unfold root_ok, u16_at, signature. cbn [bytes_of_string strcmp_eq]. cbn - [nth Z.to_nat root_bytes Z.eqb Z.mul Z.add f_at]. cbn [Z.add Pos.add Pos.succ]. rewrite !E by lia. vm_compute. reflexivity.
  - apply (ends_at _ _ _ 9); [vm_compute; split; [discriminate|reflexivity]|]. rewrite E by lia. reflexivity.
Qed.
Lemma root_pool g : root_file 4096 g -> is_new_pool g /\ is_pool g.
Proof.
  intros R. destruct (root_header _ _ R) as (H & _). destruct R as (S & R & Q). split.
  - split; [exact S|]. split; [exact H|]. split; [cbn [repeat has_bytes]; cbn - [nth Z.to_nat root_bytes]; rewrite !R by lia; vm_compute; tauto|].
    intros i Hi. destruct (Z.lt_ge_cases i 4096); [|apply Q; lia]. rewrite R by lia. apply nth_overflow. cbn. lia.
  - split; [exact H|]. rewrite S. split; [lia|]. exists 2. reflexivity.
Qed.
Lemma zero_refused log g : zero_file 4096 g -> verify_pool log g = Thrown g.
Proof.
  intros (S & R). unfold verify_pool. rewrite (ends_at g 2 (Z.to_nat (page_size - 2)) 0); [|vm_compute; split; [discriminate|reflexivity]|apply R; lia]. rewrite andb_false_r.
  unfold root_ok, u16_at. rewrite (R 0), (R (0 + 1)) by lia. reflexivity.
Qed.
Lemma open_some log max g w0 w1 : 3 <= max -> 0 < f_size g -> open_pool log max true true g w0 w1 = if f_size g mod 4096 =? 0 then verify_pool log g else Thrown g.
Proof.
  intros M S. unfold open_pool. destruct (Z.ltb_spec max min_mapped_pages) as [L|_]; [unfold min_mapped_pages in L; lia|]. cbn [negb]. rewrite land_page by lia.
  destruct (f_size g mod 4096 =? 0); [|reflexivity]. cbn [negb]. destruct (Z.ltb_spec 0 (f_size g)); [reflexivity|lia].
Qed.
Lemma open_none log max g w0 w1 : 3 <= max -> f_size g = 0 -> open_pool log max true true g w0 w1 =
  let '(fs, ok) := init_pool g w0 w1 in if ok then verify_pool log (last fs g) else Thrown (last fs g).
Proof.
  intros M S. unfold open_pool. destruct (Z.ltb_spec max min_mapped_pages) as [L|_]; [unfold min_mapped_pages in L; lia|]. cbn [negb]. rewrite S. reflexivity.
Qed.

(** Creating a pool in an empty file gives a new pool, which is a pool file, if both pages can be written; otherwise
    an exception. *)
Theorem C37_create : forall log max f w0 w1, 3 <= max -> f_size f = 0 -> write_result w0 -> write_result w1 ->
  match open_pool log max true true f w0 w1 with
  | Ready g => w0 = 4096 /\ w1 = 4096 /\ is_new_pool g /\ is_pool g
  | Thrown g => w0 <> 4096 \/ w1 <> 4096
  | Overrun => False
  end.
Proof.
  intros log max f w0 w1 M Z0 H0 H1. rewrite open_none by auto. destruct (init_states f w0 w1 Z0 H0 H1) as (_ & B & C & D). destruct (init_pool f w0 w1) as [fs ok]. cbn [fst snd] in *.
  destruct ok.
  - destruct (proj1 B eq_refl) as (-> & ->). specialize (D eq_refl). change (Z.max 0 4096) with 4096 in D. destruct (root_header _ _ D) as (_ & R & E). unfold verify_pool. rewrite R, E, andb_false_r. cbn.
    split; [auto|]. split; [auto|]. apply root_pool; auto.
  - destruct (Z.eq_dec w0 4096), (Z.eq_dec w1 4096); auto. destruct B as [_ B]. discriminate B; auto.
Qed.
Print Assumptions C37_create.

(** A crash while a pool is created leaves one of the states of [init_pool].  Opened again, it is still empty and
    becomes a pool, or is refused and stays as it is, or it is the complete new pool, or - what is missing - it is
    a file of one page that is taken for a pool, see C37_refuted. *)
Theorem C37_crash_partial : forall log max f w0 w1 g v0 v1,
  3 <= max -> f_size f = 0 -> write_result w0 -> write_result w1 -> In g (f :: fst (init_pool f w0 w1)) ->
  f_size g = 0 \/
  open_pool log max true true g v0 v1 = Thrown g \/
  (open_pool log max true true g v0 v1 = Ready g /\ is_new_pool g) \/
  (open_pool log max true true g v0 v1 = Ready g /\ has_bytes g 0 header /\ f_size g = 4096).
Proof.
  intros log max f w0 w1 g v0 v1 M Z0 H0 H1 [<-|Hg]; [left; auto|]. destruct (init_states f w0 w1 Z0 H0 H1) as (A & _). destruct (A g Hg) as [(n & Hn & Zf)|(n & Hn & R)].
  - destruct (Z.eq_dec n 0) as [->|]; [left; apply Zf|]. right; left. pose proof Zf as (S & _). rewrite open_some by lia. rewrite S.
    destruct (Z.eqb_spec (n mod 4096) 0) as [E|]; [|reflexivity]. assert (n = 4096). { apply Z.mod_divide in E; [|lia]. destruct E as (k & ->). assert (k = 1) by lia. lia. }
    apply zero_refused. congruence.
  - right. pose proof R as (S & _). rewrite open_some by lia. rewrite S. destruct (root_header _ _ R) as (H & K & E).
    destruct (Z.eqb_spec ((4096 + n) mod 4096) 0) as [Em|]; [|left; reflexivity]. right. unfold verify_pool. rewrite K, E, andb_false_r.
    assert (n = 0 \/ n = 4096) as [-> | ->]. { apply Z.mod_divide in Em; [|lia]. destruct Em as (k & Ek). assert (k = 1 \/ k = 2) by lia. lia. }
    + right. auto.
    + left. split; [reflexivity|]. apply root_pool; auto.
Qed.
Print Assumptions C37_crash_partial.

(** After a crash behind the creation of the root page the file is taken for a pool, although it has no start page;
    the next page that is allocated is the start page. *)
Theorem C37_refuted : exists g, In g (fst (init_pool no_file 4096 4096)) /\
  open_pool true 3 true true g 4096 4096 = Ready g /\ f_size g = 4096 /\ snd (create_page g 4096) = 1.
Proof.
  exists (nth 2 (fst (init_pool no_file 4096 4096)) no_file). split; [right; right; left; reflexivity|].
  assert (R : root_file 0 (nth 2 (fst (init_pool no_file 4096 4096)) no_file)).
  { apply root_write, zero_write. apply (create_zero no_file 4096); [reflexivity|]. unfold write_result; lia. }
  destruct (root_header _ _ R) as (H & K & E). split; [|split; reflexivity].
  rewrite open_some by (destruct R; lia). destruct R as (S & _). rewrite S. cbn [Z.add Z.modulo Z.eqb]. unfold verify_pool. rewrite K, E. reflexivity.
Qed.
Print Assumptions C37_refuted.

(** With a log that records debug entries, a file of 4096 bytes without a zero is not refused: writing its signature
    to the log reads on behind the page. *)
Theorem C37_log_refuted : exists f, bytes f /\ ~ is_pool f /\
  open_pool true 3 true true f 4096 4096 = Overrun /\ open_pool false 3 true true f 4096 4096 = Thrown f.
Proof.
  exists (mkFile 4096 (fun _ => 65)). split; [split; [cbn; lia|intro; cbn; lia]|]. split; [intros (H & _); cbn in H; lia|].
  assert (E : forall n off, string_ends (mkFile 4096 (fun _ => 65)) off n = false) by (induction n; intro; cbn; auto).
  split; rewrite open_some by (cbn; lia); cbn [f_size]; unfold verify_pool; [rewrite E; reflexivity|reflexivity].
Qed.
Print Assumptions C37_log_refuted.

(** A page of text, a pool with a wrong version, a pool file with three pages and any contents, and creation. *)
Definition text_file : file := mkFile 4096 (fun i => if i =? 4095 then 0 else 65).
Definition old_pool : file := mkFile 8192 (fun i => if i =? 0 then 1 else nth (Z.to_nat i) root_bytes 7).
Definition some_pool : file := mkFile 12288 (fun i => nth (Z.to_nat i) root_bytes (i mod 251)).
Example C37_examples :
  (bytes text_file /\ f_size text_file <> 0 /\ ~ is_pool text_file) /\ (bytes old_pool /\ f_size old_pool <> 0 /\ ~ is_pool old_pool) /\
  is_pool some_pool /\
  match open_pool true 3 true true no_file 4096 4096 with Ready g => f_size g = 8192 | _ => False end /\
  match open_pool true 3 true true no_file 4096 100 with Thrown g => f_size g = 4196 /\ open_pool true 3 true true g 4096 4096 = Thrown g | _ => False end.
Proof.
  split; [|split; [|split; [|split]]].
  - split; [split; [cbn; lia|intro i; cbn; destruct (i =? 4095); lia]|]. split; [discriminate|]. intros (H & _). cbn in H. lia.
  - split; [split; [cbn; lia|]|].
    + intro i. unfold old_pool. cbn [f_at]. destruct (i =? 0); [lia|].
      assert (F : Forall (fun x => 0 <= x < 256) root_bytes) by (vm_compute; repeat constructor; discriminate).
      rewrite Forall_forall in F. destruct (nth_in_or_default (Z.to_nat i) root_bytes 7) as [Hi|E]; [apply F; auto|rewrite E; lia].
    + split; [discriminate|]. intros (H & _). cbn in H. lia.
  - split; [vm_compute; tauto|]. split; [cbn; lia|]. exists 3. reflexivity.
  - vm_compute. reflexivity.
  - vm_compute. split; reflexivity.
Qed.
