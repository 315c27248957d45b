(** Proofs about the float64 computations: check, HashQuality. *)
From Coq Require Import ZArith NArith Reals Lia Lra Psatz List.
From Flocq Require Import Core BinarySingleNaN.
From Flocq Require Mult_error.
From Verif Require Import Words WordLemmas HashTableModel HashTableSpec HashTableProofs HashTableMore SmhModel SmhSpec SmhProofs F64 FloatModel FloatProofs.
Import ListNotations.
Open Scope R_scope.

(** ** check *)
Lemma rnd_div_pow z k : (0 <= z <= 2 ^ 53)%Z -> (0 <= k <= 900)%Z -> rnd (IZR z / bp k) = IZR z / bp k.
Proof.
  intros Hz Hk. unfold Rdiv. rewrite <- bpow_opp. unfold rnd. apply round_generic; auto with typeclass_instances.
  destruct (Z.eq_dec z 0) as [->|N0]; [rewrite Rmult_0_l; apply generic_format_0|].
  apply Mult_error.mult_bpow_exact_FLT.
  - rewrite <- (rnd_int z) by lia. unfold rnd. apply generic_format_round; auto with typeclass_instances.
  - assert (1 <= IZR z) by (apply IZR_le; lia).
    assert (M : (1 <= mag radix2 (IZR z))%Z) by (apply mag_ge_bpow; rewrite Rabs_pos_eq by lra; exact H). lia.
Qed.
Lemma check_f_eq s : (0 <= hs_n s <= 2 ^ 27)%Z -> (Z.of_nat (length (hs_m s)) <= hs_n s)%Z ->
  check_f s = negb (Z.eqb (hs_n s) (Z.of_nat (length (hs_m s)))).
Proof.
  intros Hn Hm. unfold check_f. set (n := hs_n s) in *. set (c := (n - Z.of_nat (length (hs_m s)))%Z).
  change (2 ^ 27)%Z with 134217728%Z in Hn.
  assert (W : wrap_int64 (n * (n - 1)) = (n * (n - 1))%Z).
  { unfold wrap_int64. change (2 ^ 63)%Z with 9223372036854775808%Z. change (2 ^ 64)%Z with 18446744073709551616%Z. rewrite Z.mod_small; nia. }
  rewrite W. set (pairs := (n * (n - 1) ÷ 2)%Z).
  assert (P : (0 <= pairs <= 2 ^ 53)%Z).
  { unfold pairs. change (2 ^ 53)%Z with 9007199254740992%Z. rewrite Z.quot_div_nonneg by nia. split; [apply Z.div_pos; nia|]. apply Z.div_le_upper_bound; nia. }
  assert (I64 : is (fofZ (2 ^ 64)) (bp 64)).
  { rewrite <- rnd_bpow by lia. rewrite bp_Z by lia. apply fofZ_ok. split; [lia|]. apply Z.pow_le_mono_r; lia. }
  set (e := IZR pairs / bp 64). assert (B64 : 0 < bp 64) by apply bpow_gt_0.
  assert (Be : 0 <= e <= / 2048).
  { unfold e. split; [apply Rmult_le_pos; [apply IZR_le; lia|apply Rlt_le, Rinv_0_lt_compat; exact B64]|].
    apply Rle_trans with (IZR (2 ^ 53) / bp 64).
    - apply Rmult_le_compat_r; [apply Rlt_le, Rinv_0_lt_compat; exact B64|apply IZR_le; lia].
    - rewrite bp_Z by lia. change (2 ^ 53)%Z with 9007199254740992%Z. change (2 ^ 64)%Z with 18446744073709551616%Z. lra. }
  assert (big : bp 1 <= bp 1000) by (apply bpow_le; lia). change (bp 1) with 2 in big.
  assert (Ie : is (fdiv (fofZ pairs) (fofZ (2 ^ 64))) e).
  { unfold e. rewrite <- (rnd_div_pow pairs 64) by lia. apply fdiv_ok; [apply fofZ_int; lia|exact I64|lra|fold e; lra]. }
  assert (Se : 0 <= sqrt e <= / 45).
  { split; [apply sqrt_pos|]. rewrite <- (sqrt_square (/ 45)) by lra. apply sqrt_le_1_alt. lra. }
  assert (Is : is (fsqrt (fdiv (fofZ pairs) (fofZ (2 ^ 64)))) (rnd (sqrt e))) by (apply fsqrt_ok; [exact Ie|lra]).
  assert (Up : forall x y, 0 <= x <= y -> bp (-1022) <= y -> 0 <= rnd x <= (1 + u) * y).
  { intros x y Hx Hy. split; [apply rnd_pos; lra|]. apply Rle_trans with (rnd y); [apply rnd_le; lra|apply rnd_error; exact Hy]. }
  assert (tiny : bp (-1022) <= bp (-10)) by (apply bpow_le; lia). change (bp (-10)) with (/ 1024) in tiny.
  assert (uu : 0 < u < / 1024) by (unfold u; lra).
  assert (B1 : 0 <= rnd (sqrt e) <= / 44).
  { destruct (Up (sqrt e) (/ 45) Se ltac:(lra)). split; [assumption|]. nra. }
  assert (B2 : 0 <= rnd (30 * rnd (sqrt e)) <= 3 / 4).
  { destruct (Up (30 * rnd (sqrt e)) (30 / 44) ltac:(lra) ltac:(lra)). split; [assumption|]. nra. }
  assert (B3 : 0 <= rnd (e + rnd (30 * rnd (sqrt e))) <= 7 / 8).
  { destruct (Up (e + rnd (30 * rnd (sqrt e))) (/ 2048 + 3 / 4) ltac:(lra) ltac:(lra)). split; [assumption|]. nra. }
  assert (I30 : is (fofZ 30) 30) by (apply fofZ_int; lia).
  assert (Im : is (fmul (fofZ 30) (fsqrt (fdiv (fofZ pairs) (fofZ (2 ^ 64))))) (rnd (30 * rnd (sqrt e)))) by (apply fmul_ok; [exact I30|exact Is|lra]).
  assert (It : is (fadd (fdiv (fofZ pairs) (fofZ (2 ^ 64))) (fmul (fofZ 30) (fsqrt (fdiv (fofZ pairs) (fofZ (2 ^ 64)))))) (rnd (e + rnd (30 * rnd (sqrt e))))) by (apply fadd_ok; [exact Ie|exact Im|lra]).
  assert (Ic : is (fofZ c) (IZR c)) by (apply fofZ_int; unfold c; change (2 ^ 53)%Z with 9007199254740992%Z; lia).
  rewrite (fltb_ok _ _ _ _ It Ic). unfold c. destruct (Z.eqb_spec n (Z.of_nat (length (hs_m s)))) as [E|E]; cbn [negb].
  - apply Rlt_bool_false. rewrite E, Z.sub_diag. lra.
  - apply Rlt_bool_true. apply Rlt_le_trans with 1; [lra|]. apply IZR_le. lia.
Qed.
Lemma check_f_iff hs : (length hs <= 2 ^ 27)%nat -> check_f (set_of hs) = true <-> ~ NoDup hs.
Proof.
  intros L. destruct (set_of_spec hs) as [E1 E2]. pose proof (distinct_le hs).
  assert (L' : (Z.of_nat (length hs) <= 134217728)%Z) by (apply Nat2Z.inj_le in L; rewrite Nat2Z.inj_pow in L; exact L).
  rewrite check_f_eq; [rewrite E1, E2|rewrite E1; change (2 ^ 27)%Z with 134217728%Z; lia|rewrite E1, E2; lia].
  rewrite <- distinct_eq. rewrite negb_true_iff, Z.eqb_neq. lia.
Qed.

(** ** HashQuality *)
Definition sq (v : list key) : Z := (Z.of_nat (length v) * (Z.of_nat (length v) + 1))%Z.
Fixpoint cs (l : list (list key)) : Z := match l with [] => 0 | v :: l => sq v + cs l end%Z.
Definition stepq (acc : f64) (v : list key) : f64 :=
  match v with [] => acc | _ => let count := fofZ (Z.of_nat (length v)) in fadd acc (fmul count (fadd count (fofZ 1))) end.
Lemma cs_pos l : (0 <= cs l)%Z.
Proof. induction l as [|v l IH]; cbn [cs]; [lia|]. unfold sq. nia. Qed.
Lemma cs_sum l : cs l = Z.of_N (sum_N (map (fun v => N.of_nat (length v) * (N.of_nat (length v) + 1)) l)%N).
Proof. induction l as [|v l IH]; [reflexivity|]. cbn [cs map sum_N fold_right]. rewrite IH. unfold sq, sum_N. lia. Qed.
Lemma bp53 : IZR (2 ^ 53) <= bp 1000.
Proof. rewrite <- bp_Z by lia. apply bpow_le. lia. Qed.
Lemma int_small z : (0 <= z <= 2 ^ 53)%Z -> 0 <= IZR z <= bp 1000.
Proof. intros H. split; [apply IZR_le; lia|]. apply Rle_trans with (IZR (2 ^ 53)); [apply IZR_le; lia|exact bp53]. Qed.
(** A chain contributes an exact product if it is small. *)
Lemma term_exact v : (sq v <= 2 ^ 53)%Z -> (Z.of_nat (length v) + 1 <= 2 ^ 53)%Z ->
  is (fmul (fofZ (Z.of_nat (length v))) (fadd (fofZ (Z.of_nat (length v))) (fofZ 1))) (IZR (sq v)).
Proof.
  intros H H1. unfold sq in *. set (c := Z.of_nat (length v)) in *.
  assert (Ic : is (fofZ c) (IZR c)) by (apply fofZ_int; lia).
  assert (I1 : is (fadd (fofZ c) (fofZ 1)) (IZR (c + 1))).
  { rewrite <- (rnd_int (c + 1)) by lia. rewrite plus_IZR. apply fadd_ok; [exact Ic|apply fofZ_int; lia|]. rewrite <- plus_IZR. apply int_small. lia. }
  rewrite <- (rnd_int (c * (c + 1))) by nia. rewrite mult_IZR. apply fmul_ok; [exact Ic|exact I1|]. rewrite <- mult_IZR. apply int_small. nia.
Qed.
Lemma fold_exact l : forall acc a, (0 <= a)%Z -> (a + cs l <= 2 ^ 53)%Z -> is acc (IZR a) -> is (fold_left stepq l acc) (IZR (a + cs l)).
Proof.
  induction l as [|v l IH]; intros acc a Ha H I; cbn [fold_left cs] in *; [now rewrite Z.add_0_r|].
  pose proof (cs_pos l) as P. destruct v as [|k v].
  - change (sq []) with 0%Z in *. rewrite Z.add_0_l in *. now apply IH.
  - cbn [stepq]. set (w := k :: v) in *. assert (S1 : (Z.of_nat (length w) + 1 <= sq w)%Z) by (unfold sq, w; cbn [length]; nia).
    rewrite Z.add_assoc in *. apply IH; [lia|lia|]. rewrite <- (rnd_int (a + sq w)) by lia. rewrite plus_IZR.
    apply fadd_ok; [exact I|apply term_exact; lia|]. rewrite <- plus_IZR. apply int_small. lia.
Qed.
(** The denominator: the factor is exact. *)
Lemma denom i m : (1 <= i)%Z -> (1 <= m)%Z -> (i + 2 * m <= 2 ^ 53)%Z ->
  is (fmul (fofZ i) (fsub (fadd (fofZ i) (fmul (fofZ 2) (fofZ m))) (fofZ 1))) (rnd (IZR (i * (i + 2 * m - 1)))).
Proof.
  intros Hi Hm H.
  assert (I2 : is (fmul (fofZ 2) (fofZ m)) (IZR (2 * m))).
  { rewrite <- (rnd_int (2 * m)) by lia. rewrite mult_IZR. apply fmul_ok; [apply fofZ_int; lia|apply fofZ_int; lia|]. rewrite <- mult_IZR. apply int_small. lia. }
  assert (I3 : is (fadd (fofZ i) (fmul (fofZ 2) (fofZ m))) (IZR (i + 2 * m))).
  { rewrite <- (rnd_int (i + 2 * m)) by lia. rewrite plus_IZR. apply fadd_ok; [apply fofZ_int; lia|exact I2|]. rewrite <- plus_IZR. apply int_small. lia. }
  assert (I4 : is (fsub (fadd (fofZ i) (fmul (fofZ 2) (fofZ m))) (fofZ 1)) (IZR (i + 2 * m - 1))).
  { rewrite <- (rnd_int (i + 2 * m - 1)) by lia. rewrite minus_IZR. apply fsub_ok; [exact I3|apply fofZ_int; lia|]. rewrite <- minus_IZR. apply int_small. lia. }
  rewrite mult_IZR. apply fmul_ok; [apply fofZ_int; lia|exact I4|]. rewrite <- mult_IZR. split; [apply IZR_le; nia|].
  apply Rle_trans with (IZR (2 ^ 53 * 2 ^ 53)); [apply IZR_le; nia|]. rewrite mult_IZR, <- !bp_Z, <- bpow_plus by lia. apply bpow_le. lia.
Qed.
Lemma quality_unfold t i m : inserts (st t) = i -> (1 <= i)%N -> size t = m ->
  hash_quality_f t = fdiv (fmul (fold_left stepq (buckets t) (fofZ 0)) (fofZ (Z.of_N m)))
                          (fmul (fofZ (Z.of_N i)) (fsub (fadd (fofZ (Z.of_N i)) (fmul (fofZ 2) (fofZ (Z.of_N m)))) (fofZ 1))).
Proof. intros E1 H E2. unfold hash_quality_f. rewrite E1, E2. destruct (N.eqb_spec i 0); [lia|]. reflexivity. Qed.

(** Accumulated relative error. *)
Definition pw (k : nat) : R := (1 - u) ^ k.
Lemma pw_range k : 0 < pw k <= 1.
Proof. unfold pw. pose proof u_pos. induction k as [|k [I1 I2]]; cbn [pow]; [lra|]. split; [apply Rmult_lt_0_compat; lra|]. nra. Qed.
Lemma pw_S k : pw (S k) = (1 - u) * pw k. Proof. reflexivity. Qed.
Lemma pw_add j k : pw (j + k) = pw j * pw k. Proof. unfold pw. apply pow_add. Qed.
Lemma pw_le j k : (j <= k)%nat -> pw k <= pw j.
Proof. intros H. replace k with (j + (k - j))%nat by lia. rewrite pw_add. pose proof (pw_range j). pose proof (pw_range (k - j)). nra. Qed.
Lemma pw_bernoulli k : 1 - INR k * u <= pw k.
Proof.
  pose proof u_pos. induction k as [|k IH]; [cbn; lra|]. rewrite pw_S, S_INR. pose proof (pw_range k). pose proof (pos_INR k).
  assert (u * pw k <= u) by nra. lra.
Qed.
Definition near (k : nat) (x : f64) (r : R) : Prop := finite x = true /\ pw k * r <= val x /\ val x * pw k <= r.
Lemma near_is x r : is x r -> 0 <= r -> near 0 x r.
Proof. intros [F <-] H. split; [exact F|]. unfold pw. cbn [pow]. lra. Qed.
Lemma near_round k x v r : is x (rnd v) -> bp (-1022) <= v -> pw k * r <= v -> v * pw k <= r -> near (S k) x r.
Proof.
  intros [F E] B H1 H2. split; [exact F|]. rewrite E, pw_S. pose proof (rnd_error v B) as [R1 R2]. pose proof u_pos. pose proof (pw_range k). pose proof (bpow_gt_0 radix2 (-1022)) as P.
  split.
  - apply Rle_trans with ((1 - u) * v); [|exact R1]. rewrite Rmult_assoc. apply Rmult_le_compat_l; lra.
  - apply Rle_trans with (v * pw k); [|exact H2]. replace (rnd v * ((1 - u) * pw k)) with ((rnd v * (1 - u)) * pw k) by ring. apply Rmult_le_compat_r; [lra|].
    apply Rle_trans with ((1 + u) * v * (1 - u)); [apply Rmult_le_compat_r; lra|]. nra.
Qed.
Lemma near_more j k x r : (j <= k)%nat -> 0 <= r -> near j x r -> near k x r.
Proof.
  intros L Hr (F & H1 & H2). pose proof (pw_le j k L). pose proof (pw_range j). pose proof (pw_range k).
  assert (V : 0 <= val x) by (apply Rle_trans with (2 := H1); apply Rmult_le_pos; lra).
  split; [exact F|]. split; [apply Rle_trans with (2 := H1)|apply Rle_trans with (2 := H2)]; [apply Rmult_le_compat_r; lra|apply Rmult_le_compat_l; lra].
Qed.
Lemma near_val k x r : near k x r -> / 2 <= pw k -> 0 <= r -> 0 <= val x <= 2 * r.
Proof.
  intros (F & H1 & H2) H Hr. pose proof (pw_range k). assert (0 <= val x) by (apply Rle_trans with (2 := H1); apply Rmult_le_pos; lra).
  split; [assumption|]. assert (val x * / 2 <= val x * pw k) by (apply Rmult_le_compat_l; lra). lra.
Qed.
Lemma near_fin k x r : near k x r -> is x (val x). Proof. intros [F _]. now split. Qed.
Lemma tiny1 : bp (-1022) <= 1. Proof. change 1 with (bp 0). apply bpow_le. lia. Qed.
Lemma near_add k x y a b : near k x a -> near k y b -> 0 <= a -> 1 <= b -> a + b <= bp 900 -> / 2 <= pw k -> near (S k) (fadd x y) (a + b).
Proof.
  intros X Y Ha Hb M H. pose proof (near_val k x a X H Ha) as Vx. pose proof (near_val k y b Y H ltac:(lra)) as Vy.
  pose proof X as (_ & X1 & X2). pose proof Y as (_ & Y1 & Y2). pose proof tiny1 as T.
  assert (L900 : bp 901 <= bp 1000) by (apply bpow_le; lia). assert (E901 : bp 901 = 2 * bp 900) by (change 901%Z with (1 + 900)%Z; rewrite bpow_plus; reflexivity).
  assert (T1 : bp (-1022) <= / 2) by (change (/ 2) with (bp (-1)); apply bpow_le; lia).
  apply near_round with (v := val x + val y).
  - apply fadd_ok; [exact (near_fin _ _ _ X)|exact (near_fin _ _ _ Y)|]. lra.
  - assert (pw k * b >= / 2) by nra. lra.
  - lra.
  - lra.
Qed.
Lemma near_mul j k x y a b : near j x a -> near k y b -> 1 <= a -> 1 <= b -> a * b <= bp 900 -> / 2 <= pw (j + k) -> near (S (j + k)) (fmul x y) (a * b).
Proof.
  intros X Y Ha Hb M H.
  assert (Hj : / 2 <= pw j) by (apply Rle_trans with (1 := H); apply pw_le; lia). assert (Hk : / 2 <= pw k) by (apply Rle_trans with (1 := H); apply pw_le; lia).
  pose proof (near_val j x a X Hj ltac:(lra)) as Vx. pose proof (near_val k y b Y Hk ltac:(lra)) as Vy.
  pose proof X as (_ & X1 & X2). pose proof Y as (_ & Y1 & Y2). pose proof (pw_range j) as Pj. pose proof (pw_range k) as Pk.
  assert (L900 : bp 902 <= bp 1000) by (apply bpow_le; lia). assert (E902 : bp 902 = 4 * bp 900) by (change 902%Z with (2 + 900)%Z; rewrite bpow_plus; reflexivity).
  assert (T1 : bp (-1022) <= / 2) by (change (/ 2) with (bp (-1)); apply bpow_le; lia).
  assert (Lo : pw (j + k) * (a * b) <= val x * val y).
  { rewrite pw_add. replace (pw j * pw k * (a * b)) with ((pw j * a) * (pw k * b)) by ring. apply Rmult_le_compat; try assumption; apply Rmult_le_pos; lra. }
  assert (Hi : val x * val y * pw (j + k) <= a * b).
  { rewrite pw_add. replace (val x * val y * (pw j * pw k)) with ((val x * pw j) * (val y * pw k)) by ring. apply Rmult_le_compat; try assumption; apply Rmult_le_pos; lra. }
  assert (AB : 1 <= a * b) by nra.
  apply near_round with (v := val x * val y); try assumption.
  - apply fmul_ok; [exact (near_fin _ _ _ X)|exact (near_fin _ _ _ Y)|]. split; [apply Rmult_le_pos; lra|].
    apply Rle_trans with (2 * a * (2 * b)); [apply Rmult_le_compat; lra|]. replace (2 * a * (2 * b)) with (4 * (a * b)) by ring. lra.
  - assert (/ 2 * (a * b) <= pw (j + k) * (a * b)) by (apply Rmult_le_compat_r; lra). lra.
Qed.
Lemma near_div j k x y a b : near j x a -> near k y b -> 1 <= a -> 1 <= b -> a <= bp 900 -> b <= bp 900 -> / 2 <= pw (j + k) -> near (S (j + k)) (fdiv x y) (a / b).
Proof.
  intros X Y Ha Hb Ma Mb H.
  assert (Hj : / 2 <= pw j) by (apply Rle_trans with (1 := H); apply pw_le; lia). assert (Hk : / 2 <= pw k) by (apply Rle_trans with (1 := H); apply pw_le; lia).
  pose proof (near_val j x a X Hj ltac:(lra)) as Vx. pose proof (near_val k y b Y Hk ltac:(lra)) as Vy.
  pose proof X as (_ & X1 & X2). pose proof Y as (_ & Y1 & Y2). pose proof (pw_range j) as Pj. pose proof (pw_range k) as Pk.
  assert (Vy1 : / 2 <= val y) by (assert (/ 2 * b <= pw k * b) by (apply Rmult_le_compat_r; lra); lra).
  assert (Vx1 : / 2 <= val x) by (assert (/ 2 * a <= pw j * a) by (apply Rmult_le_compat_r; lra); lra).
  assert (Iy : 0 < / val y) by (apply Rinv_0_lt_compat; lra). assert (Ib : 0 < / b) by (apply Rinv_0_lt_compat; lra).
  assert (L900 : bp 902 <= bp 1000) by (apply bpow_le; lia). assert (E902 : bp 902 = 4 * bp 900) by (change 902%Z with (2 + 900)%Z; rewrite bpow_plus; reflexivity).
  (* b * pw <= val y / pw ... *)
  assert (Lo : pw (j + k) * (a / b) <= val x / val y).
  { apply Rmult_le_reg_r with (val y); [lra|]. unfold Rdiv at 2. rewrite (Rmult_assoc (val x)), Rinv_l, Rmult_1_r by lra.
    apply Rle_trans with (pw j * a); [|exact X1]. rewrite pw_add. replace (pw j * pw k * (a / b) * val y) with ((pw j * a) * ((val y * pw k) / b)) by (field; lra).
    rewrite <- (Rmult_1_r (pw j * a)) at 2. apply Rmult_le_compat_l; [apply Rmult_le_pos; lra|].
    apply Rmult_le_reg_r with b; [lra|]. unfold Rdiv. rewrite Rmult_assoc, Rinv_l by lra. lra. }
  assert (Hi : val x / val y * pw (j + k) <= a / b).
  { apply Rmult_le_reg_r with b; [lra|]. unfold Rdiv at 2. rewrite (Rmult_assoc a), Rinv_l, Rmult_1_r by lra.
    apply Rle_trans with (val x * pw j); [|exact X2]. rewrite pw_add. replace (val x / val y * (pw j * pw k) * b) with ((val x * pw j) * ((pw k * b) / val y)) by (field; lra).
    rewrite <- (Rmult_1_r (val x * pw j)) at 2. apply Rmult_le_compat_l; [apply Rmult_le_pos; lra|].
    apply Rmult_le_reg_r with (val y); [lra|]. unfold Rdiv. rewrite Rmult_assoc, Rinv_l by lra. lra. }
  apply near_round with (v := val x / val y); try assumption.
  - apply fdiv_ok; [exact (near_fin _ _ _ X)|exact (near_fin _ _ _ Y)|lra|]. split; [apply Rmult_le_pos; lra|].
    apply Rmult_le_reg_r with (val y); [lra|]. unfold Rdiv. rewrite Rmult_assoc, Rinv_l, Rmult_1_r by lra.
    apply Rle_trans with (2 * bp 900); [lra|]. rewrite <- (Rmult_1_r (2 * bp 900)). pose proof (bpow_gt_0 radix2 900). nra.
  - apply Rmult_le_reg_r with (val y); [lra|]. unfold Rdiv. rewrite Rmult_assoc, Rinv_l, Rmult_1_r by lra.
    apply Rle_trans with (bp (-1022) * (2 * bp 900)); [apply Rmult_le_compat_l; [apply bpow_ge_0|lra]|].
    replace (bp (-1022) * (2 * bp 900)) with (2 * (bp (-1022) * bp 900)) by ring. rewrite <- bpow_plus.
    assert (bp (-1022 + 900) <= bp (-2)) by (apply bpow_le; lia). change (bp (-2)) with (/ 4) in H0. lra.
Qed.

(** Each non-empty chain adds one rounding to the running sum. *)
Definition used (l : list (list key)) : nat := length (filter nonempty l).
Lemma half_pw k : (Z.of_nat k <= 2 ^ 52)%Z -> / 2 <= pw k.
Proof.
  intros H. apply Rle_trans with (2 := pw_bernoulli k). apply IZR_le in H. rewrite <- INR_IZR_INZ in H. pose proof u_pos.
  assert (INR k * u <= IZR (2 ^ 52) * u) by (apply Rmult_le_compat_r; lra). assert (IZR (2 ^ 52) * u = / 2) by (unfold u; lra). lra.
Qed.
Lemma near_term v : v <> [] -> (Z.of_nat (length v) + 1 <= 2 ^ 53)%Z ->
  near 1 (fmul (fofZ (Z.of_nat (length v))) (fadd (fofZ (Z.of_nat (length v))) (fofZ 1))) (IZR (sq v)).
Proof.
  intros Hv H1. assert (L : (1 <= Z.of_nat (length v))%Z) by (destruct v; [congruence|cbn [length]; lia]).
  unfold sq in *. set (c := Z.of_nat (length v)) in *. clearbody c.
  assert (Ic : is (fofZ c) (IZR c)) by (apply fofZ_int; lia).
  assert (I1 : is (fadd (fofZ c) (fofZ 1)) (IZR (c + 1))).
  { rewrite <- (rnd_int (c + 1)) by lia. rewrite plus_IZR. apply fadd_ok; [exact Ic|apply fofZ_int; lia|]. rewrite <- plus_IZR. apply int_small. lia. }
  rewrite mult_IZR. change 1%nat with (S (0 + 0)).
  apply near_mul; [apply near_is; [exact Ic|apply IZR_le; lia]|apply near_is; [exact I1|apply IZR_le; lia]|apply IZR_le; lia|apply IZR_le; lia| |apply half_pw; cbn; lia].
  rewrite <- mult_IZR. apply Rle_trans with (IZR (2 ^ 53 * 2 ^ 53)); [apply IZR_le; nia|]. rewrite mult_IZR, <- !bp_Z, <- bpow_plus by lia. apply bpow_le. lia.
Qed.
Lemma fold_near l : forall k acc a, (1 <= k)%nat -> (Z.of_nat (k + used l) <= 2 ^ 52)%Z -> (forall v, In v l -> Z.of_nat (length v) + 1 <= 2 ^ 53)%Z ->
  (0 <= a)%Z -> (a + cs l <= 2 ^ 200)%Z -> near k acc (IZR a) -> near (k + used l) (fold_left stepq l acc) (IZR (a + cs l)).
Proof.
  induction l as [|v l IH]; intros k acc a Hk Hu Hl Ha M N; cbn [fold_left cs] in *; [unfold used; cbn [filter length]; now rewrite Z.add_0_r, Nat.add_0_r|].
  pose proof (cs_pos l) as P. destruct v as [|x v].
  - change (sq []) with 0%Z in *. rewrite Z.add_0_l in *. apply IH; auto. intros w Hw. apply Hl. now right.
  - assert (U : used ((x :: v) :: l) = S (used l)) by reflexivity. rewrite U in *. cbn [stepq]. pose proof (near_term (x :: v) ltac:(congruence) (Hl _ (or_introl eq_refl))) as T.
    set (w := x :: v) in *. assert (S1 : (1 <= sq w)%Z) by (unfold sq, w; cbn [length]; nia).
    rewrite Z.add_assoc in *. replace (k + S (used l))%nat with (S k + used l)%nat by lia. apply IH; [lia|lia| |lia|lia|].
    + intros w' Hw. apply Hl. now right.
    + rewrite plus_IZR. apply near_add; [exact N| |apply IZR_le; lia|apply IZR_le; lia| |apply half_pw; lia].
      * apply near_more with 1%nat; [exact Hk|apply IZR_le; lia|exact T].
      * rewrite <- plus_IZR. apply Rle_trans with (IZR (2 ^ 200)); [apply IZR_le; lia|]. rewrite <- bp_Z by lia. apply bpow_le. lia.
Qed.
Lemma near_bound k x r : near k x r -> (Z.of_nat k <= 2 ^ 52)%Z -> 0 <= r -> Rabs (val x - r) <= 2 * INR k * u * r.
Proof.
  intros N H Hr. pose proof (half_pw k H) as P. pose proof (near_val k x r N P Hr) as V. destruct N as (_ & H1 & H2).
  pose proof (pw_bernoulli k) as B. pose proof u_pos. pose proof (pos_INR k). set (e := INR k * u) in *. assert (0 <= e) by (apply Rmult_le_pos; lra).
  replace (2 * INR k * u * r) with (2 * e * r) by (unfold e; ring). apply Rabs_le.
  assert ((1 - e) * r <= pw k * r) by (apply Rmult_le_compat_r; lra).
  assert (val x * (1 - e) <= val x * pw k) by (apply Rmult_le_compat_l; lra).
  assert (e * r >= 0) by (apply Rle_ge, Rmult_le_pos; lra).
  assert (val x * e <= 2 * r * e) by (apply Rmult_le_compat_r; lra). split; lra.
Qed.
Lemma filter_len {A} (f : A -> bool) l : (length (filter f l) <= length l)%nat.
Proof. induction l as [|x l IH]; cbn [filter length]; [lia|]. destruct (f x); cbn [length]; lia. Qed.
Lemma pairs_le hf ks : (equal_hash_pairs hf ks <= N.of_nat (length ks) * N.of_nat (length ks))%N.
Proof. induction ks as [|k r IH]; cbn [equal_hash_pairs length]; [lia|]. pose proof (filter_len (fun k' => hf k' =? hf k)%N r). nia. Qed.

Section Quality.
  Variables (hf : key -> N) (prime : bool) (n : N) (ks : list key) (t : table).
  Hypothesis I : InvC hf prime n ks t.
  Hypothesis H1 : (1 <= n)%N.
  Hypothesis K : ks <> [].
  Let L := Z.of_nat (length ks).
  Let P := Z.of_N (same_bucket_pairs prime n hf ks).
  Let M := Z.of_N n.
  Let Lpos : (1 <= L)%Z. Proof. unfold L. destruct ks; [congruence|cbn [length]; lia]. Qed.
  Lemma chains_sum : cs (buckets t) = (2 * (L + P))%Z.
  Proof. rewrite cs_sum, (ic_buckets _ _ _ _ _ I), (bucket_squares hf prime n H1). unfold L, P. lia. Qed.
  Lemma quality_form : hash_quality_f t = fdiv (fmul (fold_left stepq (buckets t) (fofZ 0)) (fofZ M))
     (fmul (fofZ L) (fsub (fadd (fofZ L) (fmul (fofZ 2) (fofZ M))) (fofZ 1))).
  Proof.
    rewrite (quality_unfold t (N.of_nat (length ks)) n (ic_inserts _ _ _ _ _ I)); [|unfold L in Lpos; lia|exact (ic_size _ _ _ _ _ I)].
    unfold L, M. rewrite nat_N_Z. reflexivity.
  Qed.
  Lemma quality_exact : (2 * M * (L + P) <= 2 ^ 53)%Z -> (L * (L + 2 * M - 1) < 2 ^ 53)%Z ->
    is (hash_quality_f t) (rnd (IZR (2 * M * (L + P)) / IZR (L * (L + 2 * M - 1)))).
  Proof.
    intros A B. rewrite quality_form. assert (HM : (1 <= M)%Z) by (unfold M; lia). assert (HP : (0 <= P)%Z) by (unfold P; lia).
    assert (M53 : (M <= 2 ^ 53)%Z) by nia. assert (D53 : (L + 2 * M - 1 <= L * (L + 2 * M - 1))%Z) by nia.
    pose proof (fold_exact (buckets t) (fofZ 0) 0 ltac:(lia)) as F. rewrite Z.add_0_l, chains_sum in F.
    assert (F' : is (fold_left stepq (buckets t) (fofZ 0)) (IZR (2 * (L + P)))) by (apply F; [nia|apply fofZ_int; lia]). clear F.
    assert (Num : is (fmul (fold_left stepq (buckets t) (fofZ 0)) (fofZ M)) (IZR (2 * M * (L + P)))).
    { rewrite <- (rnd_int (2 * M * (L + P))) by nia. replace (2 * M * (L + P))%Z with (2 * (L + P) * M)%Z by ring. rewrite mult_IZR.
      apply fmul_ok; [exact F'|apply fofZ_int; lia|]. rewrite <- mult_IZR. apply int_small. nia. }
    assert (Den : is (fmul (fofZ L) (fsub (fadd (fofZ L) (fmul (fofZ 2) (fofZ M))) (fofZ 1))) (IZR (L * (L + 2 * M - 1)))).
    { rewrite <- (rnd_int (L * (L + 2 * M - 1))) by nia. apply denom; lia. }
    assert (D1 : 1 <= IZR (L * (L + 2 * M - 1))) by (apply IZR_le; nia).
    assert (N1 : 0 <= IZR (2 * M * (L + P))) by (apply IZR_le; nia).
    apply fdiv_ok; [exact Num|exact Den|lra|].
    assert (0 < / IZR (L * (L + 2 * M - 1))) by (apply Rinv_0_lt_compat; lra).
    split; [apply Rmult_le_pos; lra|]. apply Rle_trans with (IZR (2 * M * (L + P))); [|apply int_small; nia].
    apply Rmult_le_reg_r with (IZR (L * (L + 2 * M - 1))); [lra|]. unfold Rdiv. rewrite Rmult_assoc, Rinv_l by lra. apply Rmult_le_compat_l; lra.
  Qed.
  Lemma quality_error : (L + 2 * M <= 2 ^ 52)%Z ->
    finite (hash_quality_f t) = true /\
    let q := IZR (2 * M * (L + P)) / IZR (L * (L + 2 * M - 1)) in
    Rabs (val (hash_quality_f t) - q) <= 2 * (INR (N.to_nat (used_buckets t)) + 4) * u * q.
  Proof.
    intros A. assert (HM : (1 <= M)%Z) by (unfold M; lia). assert (HP : (0 <= P)%Z) by (unfold P; lia).
    assert (HP2 : (P <= L * L)%Z) by (unfold P, L, same_bucket_pairs; pose proof (pairs_le (fun k => home prime n (hf k)) ks); lia).
    assert (U : used (buckets t) = N.to_nat (used_buckets t)) by (unfold used_buckets, used; lia).
    assert (UL : (Z.of_nat (used (buckets t)) <= M)%Z).
    { unfold used. pose proof (filter_len nonempty (buckets t)) as Fl. rewrite (ic_buckets _ _ _ _ _ I) in Fl at 2. rewrite map_length, seq_length in Fl. unfold M. lia. }
    assert (Len : forall v, In v (buckets t) -> (Z.of_nat (length v) + 1 <= 2 ^ 53)%Z).
    { intros v Hv. rewrite (ic_buckets _ _ _ _ _ I) in Hv. apply in_map_iff in Hv as (i & <- & _). unfold bucket_of.
      match goal with |- context [filter ?f ?l] => pose proof (filter_len f l) end. unfold L in A. lia. }
    pose proof (fold_near (buckets t) 1 (fofZ 0) 0 ltac:(lia) ltac:(lia) Len ltac:(lia)) as F. rewrite Z.add_0_l, chains_sum in F.
    assert (F' : near (1 + used (buckets t)) (fold_left stepq (buckets t) (fofZ 0)) (IZR (2 * (L + P)))).
    { apply F; [|apply near_more with 0%nat; [lia|lra|apply near_is; [apply fofZ_int; lia|lra]]]. apply Z.le_trans with (2 * (2 ^ 52 + 2 ^ 52 * 2 ^ 52))%Z; [nia|]. vm_compute; discriminate. }
    clear F.
    assert (Big : (2 * (L + P) * M <= 2 ^ 200)%Z).
    { apply Z.le_trans with (2 * (2 ^ 52 + 2 ^ 52 * 2 ^ 52) * 2 ^ 52)%Z; [|vm_compute; discriminate]. apply Z.mul_le_mono_nonneg; nia. }
    assert (B200 : IZR (2 ^ 200) <= bp 900) by (rewrite <- bp_Z by lia; apply bpow_le; lia).
    assert (Num : near (S (1 + used (buckets t) + 0)) (fmul (fold_left stepq (buckets t) (fofZ 0)) (fofZ M)) (IZR (2 * M * (L + P)))).
    { replace (2 * M * (L + P))%Z with (2 * (L + P) * M)%Z by ring. rewrite mult_IZR.
      apply near_mul; [exact F'|apply near_is; [apply fofZ_int; lia|apply IZR_le; lia]|apply IZR_le; lia|apply IZR_le; lia| |apply half_pw; lia].
      rewrite <- mult_IZR. apply Rle_trans with (2 := B200). apply IZR_le. exact Big. }
    assert (D1 : 1 <= IZR (L * (L + 2 * M - 1))) by (apply IZR_le; nia).
    assert (Dbig : IZR (L * (L + 2 * M - 1)) <= bp 900).
    { apply Rle_trans with (2 := B200). apply IZR_le. apply Z.le_trans with (2 ^ 52 * 2 ^ 52)%Z; [apply Z.mul_le_mono_nonneg; lia|vm_compute; discriminate]. }
    assert (Den : near 1 (fmul (fofZ L) (fsub (fadd (fofZ L) (fmul (fofZ 2) (fofZ M))) (fofZ 1))) (IZR (L * (L + 2 * M - 1)))).
    { apply near_round with (v := IZR (L * (L + 2 * M - 1))); [apply denom; lia|pose proof tiny1; lra| |]; unfold pw; cbn [pow]; lra. }
    assert (Q : near (S (S (1 + used (buckets t) + 0) + 1)) (hash_quality_f t) (IZR (2 * M * (L + P)) / IZR (L * (L + 2 * M - 1)))).
    { rewrite quality_form. apply near_div; [exact Num|exact Den|apply IZR_le; nia|exact D1| |exact Dbig|apply half_pw; lia].
      apply Rle_trans with (2 := B200). apply IZR_le. replace (2 * M * (L + P))%Z with (2 * (L + P) * M)%Z by ring. exact Big. }
    split; [exact (proj1 Q)|]. cbn zeta. apply near_bound in Q.
    - replace (INR (S (S (1 + used (buckets t) + 0) + 1))) with (INR (N.to_nat (used_buckets t)) + 4) in Q; [exact Q|].
      rewrite <- U. replace (S (S (1 + used (buckets t) + 0) + 1)) with (used (buckets t) + 4)%nat by lia. rewrite plus_INR. cbn. ring.
    - lia.
    - apply Rmult_le_pos; [apply IZR_le; nia|]. left. apply Rinv_0_lt_compat. lra.
  Qed.
End Quality.
