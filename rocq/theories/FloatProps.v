(** C86, C87 and the float64 side of C79: what the Go code's floating point arithmetic returns. *)
From Coq Require Import NArith ZArith Reals Lia Lra List.
From Flocq Require Import Core.
From Flocq Require BinarySingleNaN.
From Verif Require Import SmhFlip.
From Verif Require SmhProps2.
From Verif Require Import Words HashTableModel HashTableSpec HashTableProofs HashTableMore HashTableProps SmhModel SmhSpec F64 FloatModel FloatProofs FloatProofs2.
Import ListNotations.
Open Scope R_scope.

(** C86.  The quality of n keys in a chained table of m buckets, [pairs] of them sharing a bucket:
    the float64 nearest to the Red Dragon book's quotient while both integers fit 53 bits. *)
Theorem c86_rounded : forall np sz extra prime (hf : key -> N) ks t,
  let t0 := new_table np sz extra false prime in
  (1 <= size t0)%N -> fits 64 (size t0) -> ks <> [] -> insert_all hf t0 ks = Ret t ->
  let n := Z.of_nat (length ks) in
  let m := Z.of_N (size t0) in
  let pairs := Z.of_N (same_bucket_pairs prime (size t0) hf ks) in
  (2 * m * (n + pairs) <= 2 ^ 53)%Z -> (n * (n + 2 * m - 1) < 2 ^ 53)%Z ->
  finite (hash_quality_f t) = true /\
  val (hash_quality_f t) = rnd (IZR (2 * m * (n + pairs)) / IZR (n * (n + 2 * m - 1))).
Proof.
  intros np sz extra prime hf ks t t0 H1 H2 K E. destruct (chained_new np sz extra prime hf ks H1 H2) as (t' & E' & I). fold t0 in E', I.
  rewrite E in E'. injection E' as <-. exact (quality_exact hf prime (size t0) ks t I H1 K).
Qed.
Print Assumptions c86_rounded.
(** In general: finite, and the relative error grows with the number of non-empty buckets only. *)
Theorem c86_error : forall np sz extra prime (hf : key -> N) ks t,
  let t0 := new_table np sz extra false prime in
  (1 <= size t0)%N -> fits 64 (size t0) -> ks <> [] -> insert_all hf t0 ks = Ret t ->
  let n := Z.of_nat (length ks) in
  let m := Z.of_N (size t0) in
  let pairs := Z.of_N (same_bucket_pairs prime (size t0) hf ks) in
  let q := IZR (2 * m * (n + pairs)) / IZR (n * (n + 2 * m - 1)) in
  (n + 2 * m <= 2 ^ 52)%Z ->
  finite (hash_quality_f t) = true /\
  Rabs (val (hash_quality_f t) - q) <= (INR (N.to_nat (used_buckets t)) + 4) * q / 2 ^ 52.
Proof.
  intros np sz extra prime hf ks t t0 H1 H2 K E n m pairs q A. destruct (chained_new np sz extra prime hf ks H1 H2) as (t' & E' & I). fold t0 in E', I.
  rewrite E in E'. injection E' as <-. destruct (quality_error hf prime (size t0) ks t I H1 K A) as [F B]. split; [exact F|].
  cbn zeta in B. fold n m pairs in B. fold q in B. refine (Rle_trans _ _ _ B _). right. unfold u. lra.
Qed.
Print Assumptions c86_error.
(** Without insertions it is 0, not 0/0. *)
Theorem c86_empty : forall np sz extra oa prime,
  finite (hash_quality_f (new_table np sz extra oa prime)) = true /\ val (hash_quality_f (new_table np sz extra oa prime)) = 0.
Proof.
  intros. assert (E : inserts (st (new_table np sz extra oa prime)) = 0%N) by (unfold new_table; destruct (table_size np sz extra prime); reflexivity).
  unfold hash_quality_f. rewrite E. apply fofZ_int. lia.
Qed.
Print Assumptions c86_empty.
(** The example of C09: 128/78, rounded; 7390522465428506 / 2^52. *)
Example c86_nonvacuous : exists t,
  insert_all ex_hash (new_table ex_np 4 0 false false) ex_keys = Ret t /\
  val (hash_quality_f t) = rnd (IZR 128 / IZR 78) /\
  BinarySingleNaN.B2SF (hash_quality_f t) = SpecFloat.S754_finite false 7390522465428506 (-52).
Proof.
  assert (X : exists t, insert_all ex_hash (new_table ex_np 4 0 false false) ex_keys = Ret t) by (eexists; vm_compute; reflexivity).
  destruct X as (t & E). exists t. split; [exact E|]. split.
  - pose proof (c86_rounded ex_np 4 0 false ex_hash ex_keys t) as T. cbn zeta in T.
    set (m := size (new_table ex_np 4 0 false false)) in *. assert (Em : m = 4%N) by reflexivity.
    set (n := Z.of_nat (length ex_keys)) in *. assert (En : n = 6%Z) by reflexivity.
    rewrite Em in T. set (p := same_bucket_pairs false 4 ex_hash ex_keys) in *. assert (Ep : p = 10%N) by reflexivity.
    rewrite En, Ep in T. apply T; [lia|reflexivity|discriminate|exact E|lia|lia].
  - vm_compute in E. injection E as <-. vm_compute. reflexivity.
Qed.
Example c86_error_nonvacuous : exists t,
  insert_all ex_hash (new_table ex_np 4 0 false false) ex_keys = Ret t /\ used_buckets t = 2%N /\
  same_bucket_pairs false 4 ex_hash ex_keys = 10%N /\ (6 + 2 * 4 <= 2 ^ 52)%Z.
Proof. eexists. split; [vm_compute; reflexivity|]. split; [vm_compute; reflexivity|]. split; [vm_compute; reflexivity|lia]. Qed.

(** C79.  The verdict on a set of hashes, computed with float64 and math.Sqrt. *)
Theorem c79_check_float : forall hs, (length hs <= 2 ^ 27)%nat -> check_f (set_of hs) = true <-> ~ NoDup hs.
Proof. exact check_f_iff. Qed.
Print Assumptions c79_check_float.
(** So the verdicts of C79, stated for exact arithmetic, are those of the float64 code. *)
Theorem c79_check_same : forall hs, (length hs <= 2 ^ 27)%nat -> check_f (set_of hs) = check (set_of hs).
Proof.
  intros hs L. pose proof (check_f_iff hs L) as A. pose proof (SmhProofs.check_iff hs L) as B.
  destruct (check_f (set_of hs)), (check (set_of hs)); try reflexivity; [symmetry; apply B|apply A]; [apply A|apply B]; reflexivity.
Qed.
Print Assumptions c79_check_same.
Example c79_check_float_nonvacuous : check_f (set_of [5; 6; 5]%N) = true /\ check_f (set_of [5; 6; 7]%N) = false.
Proof. split; vm_compute; reflexivity. Qed.

(** C80.  What the avalanche test does with its grid.  The search for c ends: of math.Erf it is
    enough that it is 1 from 6 on, and of math.Pow that 1 to any power is 1.  The bounds are four
    times c standard deviations from the mean, for c tenths: 4 * (k / 10) * sqrt 100000 / 2 is the
    square root of 4000 k^2. *)
Definition erf_ends (erf : f64 -> f64) : Prop := forall x, finite x = true -> 6 <= val x -> erf x = fofZ 1.
Definition pow_of_one (pow : f64 -> f64 -> f64) : Prop := forall y, pow (fofZ 1) y = fofZ 1.
(** c after [k] rounds. *)
Fixpoint c_after (k : nat) : f64 := match k with O => fofZ 0 | S k => fadd (c_after k) (fdiv (fofZ 1) (fofZ 10)) end.
Lemma c_of_85 : fltb (fdiv (c_after 85) (fsqrt (fofZ 2))) (fofZ 6) = false /\ finite (fdiv (c_after 85) (fsqrt (fofZ 2))) = true.
Proof. split; vm_compute; reflexivity. Qed.
Lemma at_least_six x : fltb x (fofZ 6) = false -> finite x = true -> 6 <= val x.
Proof.
  intros A B. assert (S6 : is (fofZ 6) 6) by (apply fofZ_int; lia).
  rewrite (fltb_ok _ _ _ 6 (conj B eq_refl) S6) in A. destruct (Rlt_bool_spec (val x) 6); [discriminate|assumption].
Qed.
Fixpoint bounds_right (n : nat) (k : Z) (c : f64) : bool :=
  match n with
  | O => true
  | S n => let b := bounds_of c in
           ((fst b =? 50000 - Z.sqrt_up (4000 * k * k)) && (snd b =? 50000 + Z.sqrt (4000 * k * k)))%Z%bool && bounds_right n (k + 1) (fadd c (fdiv (fofZ 1) (fofZ 10)))
  end.
Lemma bounds_right_86 : bounds_right 86 0 (c_after 0) = true.
Proof. vm_compute. reflexivity. Qed.
Lemma bounds_right_all n : forall k, bounds_right n (Z.of_nat k) (c_after k) = true -> forall j, (j < n)%nat ->
  bounds_of (c_after (k + j)) = (50000 - Z.sqrt_up (4000 * Z.of_nat (k + j) * Z.of_nat (k + j)), 50000 + Z.sqrt (4000 * Z.of_nat (k + j) * Z.of_nat (k + j)))%Z.
Proof.
  induction n as [|n IH]; intros k H j Hj; [lia|]. cbn [bounds_right] in H. cbv zeta in H. apply andb_prop in H. destruct H as [H1 H2].
  destruct j as [|j].
  - rewrite Nat.add_0_r. rewrite Bool.andb_true_iff, !Z.eqb_eq in H1. rewrite <- (proj1 H1), <- (proj2 H1). apply surjective_pairing.
  - replace (k + S j)%nat with (S k + j)%nat by lia. apply (IH (S k)); [|lia]. replace (Z.of_nat (S k)) with (Z.of_nat k + 1)%Z by lia. exact H2.
Qed.
Lemma search_shift erf pow n fuel c : forall k, c = c_after k ->
  (exists k', (k <= k')%nat /\ fltb (pow (erf (fdiv (c_after k') (fsqrt (fofZ 2)))) (fofZ (Z.of_nat n))) (fdiv (fofZ 9999) (fofZ 10000)) = false /\ (k' - k < fuel)%nat) ->
  exists k', (k <= k')%nat /\ (k' - k < fuel)%nat /\ search_c erf pow n fuel c = Some (c_after k') /\
    fltb (pow (erf (fdiv (c_after k') (fsqrt (fofZ 2)))) (fofZ (Z.of_nat n))) (fdiv (fofZ 9999) (fofZ 10000)) = false /\
    forall j, (k <= j < k')%nat -> fltb (pow (erf (fdiv (c_after j) (fsqrt (fofZ 2)))) (fofZ (Z.of_nat n))) (fdiv (fofZ 9999) (fofZ 10000)) = true.
Proof.
  revert c. induction fuel as [|fuel IH]; intros c k -> (k0 & L & E & B); [lia|]. cbn [search_c].
  destruct (fltb (pow (erf (fdiv (c_after k) _)) _) _) eqn:F.
  - assert (k0 <> k) by (intros ->; congruence).
    destruct (IH (c_after (S k)) (S k) eq_refl) as (k' & L' & B' & S' & E' & J); [exists k0; split; [lia|]; split; [exact E|lia]|].
    exists k'. split; [lia|]. split; [lia|]. split; [exact S'|]. split; [exact E'|]. intros j Hj. destruct (Nat.eq_dec j k) as [->|]; [exact F|apply J; lia].
  - exists k. split; [lia|]. split; [lia|]. split; [reflexivity|]. split; [exact F|]. intros j Hj. lia.
Qed.
Theorem c80_bounds : forall erf pow n, erf_ends erf -> pow_of_one pow ->
  exists k, (k <= 85)%nat /\
    fltb (pow (erf (fdiv (c_after k) (fsqrt (fofZ 2)))) (fofZ (Z.of_nat (n * 64)))) (fdiv (fofZ 9999) (fofZ 10000)) = false /\
    (forall j, (j < k)%nat -> fltb (pow (erf (fdiv (c_after j) (fsqrt (fofZ 2)))) (fofZ (Z.of_nat (n * 64)))) (fdiv (fofZ 9999) (fofZ 10000)) = true) /\
    forall fuel, (k < fuel)%nat -> 
      avalanche_bounds erf pow n fuel = Some (50000 - Z.sqrt_up (4000 * Z.of_nat k * Z.of_nat k), 50000 + Z.sqrt (4000 * Z.of_nat k * Z.of_nat k))%Z.
Proof.
  intros erf pow n He Hp.
  assert (X : fltb (pow (erf (fdiv (c_after 85) (fsqrt (fofZ 2)))) (fofZ (Z.of_nat (n * 64)))) (fdiv (fofZ 9999) (fofZ 10000)) = false).
  { rewrite He; [rewrite Hp; vm_compute; reflexivity|apply c_of_85|]. destruct c_of_85 as [A B].
    exact (at_least_six _ A B). }
  destruct (search_shift erf pow (n * 64) 86 (c_after 0) 0 eq_refl) as (k & _ & L & _ & E & J); [exists 85%nat; split; [lia|]; split; [exact X|lia]|].
  rewrite Nat.sub_0_r in L.
  exists k. pose proof (bounds_right_all 86 0 bounds_right_86 k L) as B. cbn [Nat.add] in B. rewrite <- B. clear B.
  split; [lia|]. split; [exact E|]. split; [intros j Hj; apply J; lia|].
  intros fuel Hf. unfold avalanche_bounds.
  destruct (search_shift erf pow (n * 64) fuel (c_after 0) 0 eq_refl) as (k' & _ & _ & S' & E' & J'); [exists k; split; [lia|]; split; [exact E|lia]|].
  change (fofZ 0) with (c_after 0). rewrite S'. cbn [option_map].
  assert (k' = k) as ->; [|reflexivity].
  destruct (Nat.lt_trichotomy k' k) as [H|[H|H]]; [|exact H|].
  - rewrite J in E' by lia. discriminate.
  - rewrite J' in E by lia. discriminate.
Qed.
Print Assumptions c80_bounds.
(** So a hash of [b] bits has at least (64 - b) entries per bit of the key out of bounds, and
    the test, which returns false, does not say so. *)
Lemma nth_skipn {A} (l : list A) d : forall n i, nth i (skipn n l) d = nth (n + i) l d.
Proof. induction l as [|x l IH]; intros [|n] i; try reflexivity; [destruct i; reflexivity|apply IH]. Qed.
Lemma concat_out bnd (g : list (list nat)) b : (0 < fst bnd)%Z -> (forall row, In row g -> length row = 64%nat /\ forall j, (b <= j < 64)%nat -> nth j row 0%nat = 0%nat) ->
  (length g * (64 - b) <= out_of_bounds bnd g)%nat.
Proof.
  intros Hb. unfold out_of_bounds. induction g as [|row g IH]; intros H; [cbn; lia|]. cbn [concat length]. rewrite filter_app, app_length.
  specialize (IH (fun r Hr => H r (or_intror Hr))). destruct (H row (or_introl eq_refl)) as [L Z].
  assert (R : (64 - b <= length (filter (fun x => (Z.of_nat x <? fst bnd) || (snd bnd <? Z.of_nat x))%Z%bool row))%nat); [|lia].
  rewrite <- (firstn_skipn b row), filter_app, app_length.
  assert (A : forall l : list nat, (forall x, In x l -> x = 0%nat) -> filter (fun x => (Z.of_nat x <? fst bnd) || (snd bnd <? Z.of_nat x))%Z%bool l = l).
  { clear - Hb. induction l as [|x l IH]; intros H; [reflexivity|]. cbn [filter]. rewrite (H x) by now left. change (Z.of_nat 0) with 0%Z.
    replace (0 <? fst bnd)%Z with true by (symmetry; now apply Z.ltb_lt). cbn [orb]. rewrite IH; [reflexivity|]. intros y Hy. apply H. now right. }
  rewrite (A (skipn b row)); [rewrite skipn_length; lia|]. intros x Hx. apply (In_nth _ _ 0%nat) in Hx. destruct Hx as (i & Hi & <-).
  rewrite skipn_length in Hi. rewrite nth_skipn. apply Z. lia.
Qed.
Lemma set_nth_Forall {A} (P : A -> Prop) x l : P x -> Forall P l -> forall i, Forall P (set_nth i x l).
Proof. intros Hx. induction 1 as [|y l Hy H IH]; intros [|i]; cbn [set_nth]; auto. Qed.
Lemma flips_rows hf h is : forall k grid k' g, flips hf h is k grid = Some (k', g) -> Forall (fun r => length r = 64%nat) grid -> Forall (fun r => length r = 64%nat) g.
Proof.
  induction is as [|i is IH]; intros k grid k' g E H; cbn [flips] in E; [now injection E as <- <-|].
  destruct (flipBit i k) as [k1|]; [|discriminate]. destruct (flipBit i k1) as [k2|]; [|discriminate].
  apply (IH _ _ _ _ E). apply set_nth_Forall; [|exact H]. unfold record. now rewrite map_length, seq_length.
Qed.
Lemma avalanche_rows hf n ks : forall grid g, avalanche hf n ks grid = Some g -> Forall (fun r => length r = 64%nat) grid -> Forall (fun r => length r = 64%nat) g.
Proof.
  induction ks as [|k ks IH]; intros grid g E H; cbn [avalanche] in E; [now injection E as <-|].
  destruct (flips hf (key_hash hf k) (seq 0 n) k grid) as [[k' g']|] eqn:F; [|discriminate]. exact (IH _ _ E (flips_rows _ _ _ _ _ _ _ F H)).
Qed.
Theorem c80_silent : forall erf pow hf n ks b, erf_ends erf -> pow_of_one pow -> Forall (fun k => key_ok k /\ bits k = n) ks ->
  (forall k, (hf k 0 < 2 ^ N.of_nat b)%N) ->
  exists grid bnd fuel, avalanche_grid hf n ks = Some grid /\ avalanche_bounds erf pow n fuel = Some bnd /\
    (n * (64 - b) <= out_of_bounds bnd grid)%nat /\ TestSmhasherAvalanche hf = (false, 0%nat).
Proof.
  intros erf pow hf n ks b He Hp Hk Hb.
  destruct (c80_bounds erf pow n He Hp) as (k & Lk & _ & _ & Eb).
  destruct (SmhProps2.c80_grid hf n ks Hk) as (grid & Eg & Lg & Hg).
  eexists grid, _, (S k). split; [exact Eg|]. split; [apply Eb; lia|]. split; [|reflexivity].
  rewrite <- Lg. apply concat_out.
  { cbn [fst]. apply Z.lt_0_sub. apply Z.le_lt_trans with (Z.sqrt_up (4000 * 85 * 85)); [apply Z.sqrt_up_le_mono; nia|reflexivity]. }
  intros row Hr. split.
  - unfold avalanche_grid in Eg. apply avalanche_rows in Eg; [|apply Forall_forall; intros r Hi; apply repeat_spec in Hi; subst r; apply repeat_length].
    rewrite Forall_forall in Eg. now apply Eg.
  - intros j Hj. apply (In_nth _ _ []) in Hr. destruct Hr as (i & Hi & <-). rewrite Hg by lia.
    assert (Z : forall k, N.testbit (hf k 0%N) (N.of_nat j) = false).
    { intros x. apply (WordLemmas.fits_high (N.of_nat b)); [apply Hb|lia]. }
    rewrite (filter_ext _ (fun _ => false)); [clear; induction (map key_bytes ks) as [|? ? IH]; [reflexivity|exact IH]|]. intros x. unfold affects. now rewrite !Z.
Qed.
Print Assumptions c80_silent.
(** The entries out of bounds are the pairs of an input and an output bit of which the first
    changes the second for too few or too many keys. *)
Lemma grid_is (g : list (list nat)) n f : length g = n -> Forall (fun r => length r = 64%nat) g ->
  (forall i j, (i < n)%nat -> (j < 64)%nat -> nth j (nth i g []) 0%nat = f i j) -> g = map (fun i => map (f i) (seq 0 64)) (seq 0 n).
Proof.
  intros L R H. apply (nth_ext _ _ [] []); [now rewrite map_length, seq_length|]. intros i Hi. rewrite L in Hi.
  rewrite (nth_indep (map (fun i => map (f i) (seq 0 64)) (seq 0 n)) [] (map (f 0%nat) (seq 0 64))) by now rewrite map_length, seq_length.
  rewrite (map_nth (fun i => map (f i) (seq 0 64))), seq_nth by exact Hi. cbn [Nat.add].
  assert (Lr : length (nth i g []) = 64%nat) by (rewrite Forall_forall in R; apply R, nth_In; lia).
  apply (nth_ext _ _ 0%nat 0%nat); [rewrite Lr; reflexivity|]. intros j Hj. rewrite Lr in Hj.
  rewrite H by assumption. rewrite (nth_indep (map (f i) (seq 0 64)) 0%nat (f i 0%nat)) by (rewrite map_length, seq_length; exact Hj).
  rewrite (map_nth (f i)), seq_nth by exact Hj. reflexivity.
Qed.
Lemma filter_grid (P : nat -> bool) (f : nat -> nat -> nat) js : forall is,
  length (filter P (concat (map (fun i => map (f i) js) is))) = length (filter (fun x => P (f (fst x) (snd x))) (list_prod is js)).
Proof.
  induction is as [|i is IH]; [reflexivity|]. cbn [map concat list_prod]. rewrite !filter_app, !app_length, IH. f_equal.
  clear. induction js as [|j js IH]; [reflexivity|]. cbn [map filter fst snd]. destruct (P (f i j)); cbn [length]; now rewrite IH.
Qed.
Theorem c80_out_of_bounds : forall hf n ks low high, Forall (fun k => key_ok k /\ bits k = n) ks ->
  exists grid, avalanche_grid hf n ks = Some grid /\
    out_of_bounds (low, high) grid = length (filter (fun x : nat * nat =>
      let count := Z.of_nat (length (filter (affects (fun k => hf k 0%N) (fst x) (snd x)) (map key_bytes ks))) in
      negb ((low <=? count) && (count <=? high))%Z%bool) (list_prod (seq 0 n) (seq 0 64))).
Proof.
  intros hf n ks low high Hk. destruct (SmhProps2.c80_grid hf n ks Hk) as (grid & Eg & Lg & Hg). exists grid. split; [exact Eg|].
  assert (R : Forall (fun r : list nat => length r = 64%nat) grid).
  { unfold avalanche_grid in Eg. apply avalanche_rows in Eg; [exact Eg|]. apply Forall_forall. intros r Hi. apply repeat_spec in Hi. subst r. apply repeat_length. }
  unfold out_of_bounds. rewrite (grid_is grid n _ Lg R Hg), filter_grid. f_equal. apply filter_ext. intros x. cbn [fst snd]. cbv zeta.
  set (c := Z.of_nat _). destruct (Z.ltb_spec c low), (Z.ltb_spec high c), (Z.leb_spec low c), (Z.leb_spec c high); try lia; reflexivity.
Qed.
Print Assumptions c80_out_of_bounds.
Example c80_out_of_bounds_nonvacuous : option_map (out_of_bounds (1, 1)%Z) (avalanche_grid (fun k _ => N.land (nth 0 k 0) (shr (nth 0 k 0) 1))%N 8 [BytesKey [1]%N; BytesKey [3]%N]) = Some 510%nat.
Proof. vm_compute. reflexivity. Qed.
(** A function that is 1 from 6 on, and the powers of 1; a hash of one bit that counts. *)
Example c80_silent_nonvacuous : let erf x := if fltb x (fofZ 6) then x else fofZ 1 in let pow x (y : f64) := x in
  erf_ends erf /\ pow_of_one pow /\ Forall (fun k => key_ok k /\ bits k = 8%nat) [BytesKey [1]%N; BytesKey [3]%N] /\
  (forall k, (N.land (nth 0 k 0) 1 < 2 ^ N.of_nat 1)%N) /\
  avalanche_bounds erf pow 8 100 = Some (49051, 50948)%Z /\
  option_map (out_of_bounds (49051, 50948)%Z) (avalanche_grid (fun k _ => N.land (nth 0 k 0) 1)%N 8 [BytesKey [1]%N; BytesKey [3]%N]) = Some 512%nat.
Proof.
  intros erf pow. split; [|split; [intros y; reflexivity|split; [repeat constructor|split; [|split]]]].
  - intros x Hf Hx. unfold erf. rewrite (fltb_ok x (fofZ 6) (val x) 6); [|split; [exact Hf|reflexivity]|apply fofZ_int; lia].
    destruct (Rlt_bool_spec (val x) 6); [lra|reflexivity].
  - intros k. change 1%N with (N.ones 1) at 1. rewrite N.land_ones. apply N.mod_lt. discriminate.
  - vm_compute. reflexivity.
  - vm_compute. reflexivity.
Qed.
(** C87.  A random number between a and b, from a random float64 in [0, 1). *)
Theorem c87_range : forall rf a b, finite rf = true -> 0 <= val rf < 1 -> (a <= b < 2 ^ 52)%N ->
  exists r, rbetween rf a b = Some r /\ (a <= r <= b + 1)%N.
Proof.
  intros rf a b F U [H1 H2]. destruct (rbetween_ok rf a b (conj F U) H1 H2) as (r2 & r3 & _ & _ & _ & _ & E & B).
  exists (Z.to_N (Zfloor r3)). split; [exact E|]. lia.
Qed.
Print Assumptions c87_range.
(** From zero, b is the largest value. *)
Theorem c87_from_zero : forall rf b, finite rf = true -> 0 <= val rf < 1 -> (b < 2 ^ 52)%N ->
  exists r, rbetween rf 0 b = Some r /\ (r <= b)%N.
Proof. intros rf b F U. exact (from_zero rf b (conj F U)). Qed.
Print Assumptions c87_from_zero.
(** Otherwise b + 1 can come out; exactly when. *)
Theorem c87_overshoot : forall a b, (1 <= a <= b)%N -> (b < 2 ^ 52)%N ->
  (exists rf, finite rf = true /\ 0 <= val rf < 1 /\ rbetween rf a b = Some (b + 1)%N) <-> a = b \/ (N.log2 (b - a) < N.log2 b)%N.
Proof.
  intros a b H1 H2. rewrite <- (overshoot a b H1 H2). unfold unit_float. split; intros (rf & H); exists rf; tauto.
Qed.
Print Assumptions c87_overshoot.
Theorem c87_in_range_refuted : exists rf a b r, finite rf = true /\ 0 <= val rf < 1 /\ (a <= b < 2 ^ 52)%N /\ rbetween rf a b = Some r /\ ~ (a <= r <= b)%N.
Proof.
  exists top_rf, 1%N, 1%N, 2%N. destruct top_ok as [[F U] _]. split; [exact F|]. split; [exact U|]. split; [lia|]. split; [vm_compute; reflexivity|lia].
Qed.
Print Assumptions c87_in_range_refuted.
(** No value of the range is left out. *)
Theorem c87_reached : forall a b r, (a <= r <= b)%N -> (b < 2 ^ 50)%N ->
  exists rf, finite rf = true /\ 0 <= val rf < 1 /\ rbetween rf a b = Some r.
Proof. intros a b r H1 H2. destruct (reached a b r H1 H2) as (rf & [F U] & E). exists rf. tauto. Qed.
Print Assumptions c87_reached.
(** The random seed of a run: rf scaled by 2^63, below 2^63. *)
Theorem c87_seeds : forall rf, finite rf = true -> 0 <= val rf < 1 ->
  exists r, rbetween rf 0 (2 ^ 63) = Some r /\ IZR (Z.of_N r) <= val rf * 2 ^ 63 < IZR (Z.of_N r) + 1 /\ (r <= 2 ^ 63 - 1024)%N.
Proof.
  intros rf F U. destruct (seeds rf (conj F U)) as [E B]. eexists. split; [exact E|].
  assert (P : bpow radix2 63 = 2 ^ 63) by (cbn; lra). rewrite P in *. rewrite Z2N.id by apply B. split; [split; [apply Zfloor_lb|apply Zfloor_ub]|].
  change (2 ^ 63 - 1024)%N with 9223372036854774784%N. change (2 ^ 63 - 1024)%Z with 9223372036854774784%Z in B. lia.
Qed.
Print Assumptions c87_seeds.
(** math/rand's Float64 is Int63() / 2^63 (drawn again if it rounds to 1): the seed is Int63()
    with 53 significant bits. *)
Theorem c87_int63 : forall i, (0 <= i < 2 ^ 63)%Z -> rnd (IZR i) < bpow radix2 63 ->
  exists r, rbetween (fdiv (fofZ i) (fofZ (2 ^ 63))) 0 (2 ^ 63) = Some r /\ IZR (Z.of_N r) = rnd (IZR i).
Proof. intros i H1 H2. exact (proj2 (seeds_int63 i H1 H2)). Qed.
Print Assumptions c87_int63.
Example c87_nonvacuous :
  rbetween (fdiv (fofZ 1) (fofZ 2)) 10 19 = Some 15%N /\ rbetween top_rf 10 50 = Some 50%N /\ rbetween top_rf 10 19 = Some 20%N /\
  rbetween top_rf 0 (2 ^ 63) = Some (2 ^ 63 - 1024)%N /\ rbetween (fdiv (fofZ (2 ^ 62 + 1)) (fofZ (2 ^ 63))) 0 (2 ^ 63) = Some (2 ^ 62)%N.
Proof. split; [|split; [|split; [|split]]]; vm_compute; reflexivity. Qed.
