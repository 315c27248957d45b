(** Proofs about the verdict of [check] on a machine with 32-bit words. *)
From Coq Require Import ZArith NArith Reals Lia Lra Psatz List.
From Flocq Require Import Core BinarySingleNaN.
From Verif Require Import Words WordLemmas HashTableModel HtModel HtSpec SmhModel SmhSpec SmhProofs F64 FloatModel FloatProofs FloatProofs2 SmhWordModel SmhWordSpec.
Import ListNotations.
Open Scope R_scope.

Lemma rnd_near x B : 0 <= x <= B -> x = 0 \/ bp (-1022) <= x -> Rabs (rnd x - x) <= u * B.
Proof.
  intros Hx [->|H].
  - rewrite rnd_0. rewrite Rminus_0_r, Rabs_R0. apply Rmult_le_pos; [pose proof u_pos; lra|lra].
  - pose proof (rnd_error x H) as E. pose proof u_pos. apply Rabs_le. nra.
Qed.
Lemma expected_Z n : expected n = IZR (Z.of_nat n * (Z.of_nat n - 1) / 2) / bp 32.
Proof.
  unfold expected. rewrite bp_Z by lia. change (2 ^ 32)%Z with 4294967296%Z. replace (2 ^ 32) with 4294967296 by (cbn; lra).
  f_equal. rewrite INR_IZR_INZ. set (z := Z.of_nat n). assert (E : (2 * (z * (z - 1) / 2) = z * (z - 1))%Z).
  { destruct (Z.Even_or_Odd z) as [[q ->]|[q ->]].
    - replace (2 * q * (2 * q - 1))%Z with (q * (2 * q - 1) * 2)%Z by ring. rewrite Z.div_mul by lia. lia.
    - replace ((2 * q + 1) * (2 * q + 1 - 1))%Z with (q * (2 * q + 1) * 2)%Z by ring. rewrite Z.div_mul by lia. lia. }
  rewrite <- (minus_IZR z 1), <- mult_IZR. set (p := (z * (z - 1) / 2)%Z) in *. rewrite <- E, mult_IZR. unfold Rdiv. lra.
Qed.
Lemma expected_range n : (Z.of_nat n <= 67108864)%Z -> 0 <= expected n <= 524288 /\ (expected n = 0 \/ / 2 ^ 32 <= expected n).
Proof.
  intros L. rewrite expected_Z. set (p := (Z.of_nat n * (Z.of_nat n - 1) / 2)%Z). assert (P : (0 <= p <= 2251799813685248)%Z).
  { unfold p. split; [apply Z.div_pos; [destruct n; [reflexivity|nia]|lia]|apply Z.div_le_upper_bound; nia]. }
  rewrite bp_Z by lia. change (2 ^ 32)%Z with 4294967296%Z. replace (2 ^ 32) with 4294967296 by (cbn; lra).
  assert (0 <= IZR p <= 2251799813685248) by (split; apply IZR_le; lia). split; [lra|].
  destruct (Z.eq_dec p 0) as [->|]; [left; lra|right]. assert (1 <= IZR p) by (apply IZR_le; lia). lra.
Qed.
Lemma hashSize_32 : hashSize 32 = 32%N. Proof. reflexivity. Qed.
(** What [check] compares the collisions with is close to the bound. *)
Lemma check_32_near s n : hs_n s = Z.of_nat n -> (Z.of_nat n <= 67108864)%Z -> (Z.of_nat (length (hs_m s)) <= hs_n s)%Z ->
  exists x, check_on 32 s = Rlt_bool x (IZR (hs_n s - Z.of_nat (length (hs_m s)))) /\ 0 <= x /\ Rabs (x - bound n) <= / 2 ^ 32.
Proof.
  intros En L Hm. unfold check_on. rewrite hashSize_32. change (Z.of_N 32) with 32%Z. rewrite En in *.
  set (c := (Z.of_nat n - Z.of_nat (length (hs_m s)))%Z). set (z := Z.of_nat n) in *. assert (Z0 : (0 <= z)%Z) by (unfold z; lia).
  assert (W : wrap_int64 (z * (z - 1)) = (z * (z - 1))%Z).
  { unfold wrap_int64. change (2 ^ 63)%Z with 9223372036854775808%Z. change (2 ^ 64)%Z with 18446744073709551616%Z. rewrite Z.mod_small; nia. }
  assert (NN : (0 <= z * (z - 1))%Z) by (destruct (Z.eq_dec z 0) as [->|]; [reflexivity|nia]).
  rewrite W, Z.quot_div_nonneg by lia. set (pairs := (z * (z - 1) / 2)%Z).
  assert (P : (0 <= pairs <= 2 ^ 53)%Z).
  { unfold pairs. change (2 ^ 53)%Z with 9007199254740992%Z. split; [apply Z.div_pos; lia|]. apply Z.div_le_upper_bound; nia. }
  destruct (expected_range n L) as [Be Ze]. pose proof (expected_Z n) as Ee. fold z pairs in Ee. unfold bound. set (e := expected n) in *. clearbody e.
  assert (I32 : is (fofZ (2 ^ 32)) (bp 32)).
  { rewrite bp_Z by lia. apply fofZ_int. lia. }
  assert (B32 : 0 < bp 32) by apply bpow_gt_0.
  assert (big : bp 30 <= bp 1000) by (apply bpow_le; lia). rewrite (bp_Z 30) in big by lia. change (2 ^ 30)%Z with 1073741824%Z in big.
  assert (Ie : is (fdiv (fofZ pairs) (fofZ (2 ^ 32))) e).
  { rewrite Ee. rewrite <- (rnd_div_pow pairs 32) by lia. apply fdiv_ok; [apply fofZ_int; lia|exact I32|lra|rewrite <- Ee; lra]. }
  assert (Se : 0 <= sqrt e <= 725).
  { split; [apply sqrt_pos|]. rewrite <- (sqrt_square 725) by lra. apply sqrt_le_1_alt. lra. }
  assert (tiny : bp (-1022) <= bp (-100)) by (apply bpow_le; lia).
  assert (t16 : bp (-100) <= bp (-17)) by (apply bpow_le; lia). change (bp (-17)) with (/ 131072) in t16.
  assert (Sz : sqrt e = 0 \/ / 65536 <= sqrt e).
  { destruct Ze as [->|Ze]; [left; apply sqrt_0|right]. rewrite <- (sqrt_square (/ 65536)) by lra. apply sqrt_le_1_alt.
    replace (2 ^ 32) with 4294967296 in Ze by (cbn; lra). lra. }
  assert (Is : is (fsqrt (fdiv (fofZ pairs) (fofZ (2 ^ 32)))) (rnd (sqrt e))) by (apply fsqrt_ok; [exact Ie|lra]).
  assert (uu : 0 < u < / 1099511627776) by (unfold u; lra).
  assert (N1 : Rabs (rnd (sqrt e) - sqrt e) <= u * 725) by (apply rnd_near; [exact Se|destruct Sz as [->|]; [now left|right; lra]]).
  apply Rabs_le_inv in N1. set (s1 := rnd (sqrt e)) in *.
  assert (S1 : 0 <= s1 <= 726 /\ (s1 = 0 \/ / 131072 <= s1)).
  { split; [split; [unfold s1; apply rnd_pos; lra|lra]|]. destruct Sz as [Sz|Sz]; [left; unfold s1; rewrite Sz; apply rnd_0|right; lra]. }
  assert (I30 : is (fofZ 30) 30) by (apply fofZ_int; lia).
  assert (Im : is (fmul (fofZ 30) (fsqrt (fdiv (fofZ pairs) (fofZ (2 ^ 32))))) (rnd (30 * s1))) by (apply fmul_ok; [exact I30|exact Is|lra]).
  assert (N2 : Rabs (rnd (30 * s1) - 30 * s1) <= u * 21780) by (apply rnd_near; [lra|destruct (proj2 S1) as [->|]; [left; lra|right; lra]]).
  apply Rabs_le_inv in N2.
  assert (P2 : 0 <= rnd (30 * s1) <= 21781) by (split; [apply rnd_pos; lra|lra]).
  assert (Z2 : rnd (30 * s1) = 0 \/ / 131072 <= rnd (30 * s1)).
  { destruct (proj2 S1) as [E1|E1]; [left; rewrite E1, Rmult_0_r; apply rnd_0|right; lra]. }
  set (m := rnd (30 * s1)) in *.
  assert (It : is (fadd (fdiv (fofZ pairs) (fofZ (2 ^ 32))) (fmul (fofZ 30) (fsqrt (fdiv (fofZ pairs) (fofZ (2 ^ 32)))))) (rnd (e + m))) by (apply fadd_ok; [exact Ie|exact Im|lra]).
  assert (N3 : Rabs (rnd (e + m) - (e + m)) <= u * 546069).
  { apply rnd_near; [lra|]. destruct Z2 as [Z2|Z2]; [|right; lra]. rewrite Z2, Rplus_0_r. destruct Ze as [->|Ze]; [now left|right].
    assert (t32 : bp (-100) <= bp (-32)) by (apply bpow_le; lia). change (bp (-32)) with (/ 4294967296) in t32. replace (2 ^ 32) with 4294967296 in Ze by (cbn; lra). lra. }
  apply Rabs_le_inv in N3.
  assert (Ic : is (fofZ c) (IZR c)) by (apply fofZ_int; unfold c; change (2 ^ 53)%Z with 9007199254740992%Z; lia).
  exists (rnd (e + m)). rewrite (fltb_ok _ _ _ _ It Ic). split; [reflexivity|]. split; [apply rnd_pos; lra|].
  replace (/ 2 ^ 32) with (u * 2097152) by (unfold u; cbn; lra). apply Rabs_le. lra.
Qed.
Lemma check_32 hs : (length hs <= 2 ^ 26)%nat ->
  exists x, check_on 32 (set_of hs) = Rlt_bool x (INR (length hs - distinct hs)) /\ 0 <= x /\ Rabs (x - bound (length hs)) <= / 2 ^ 32.
Proof.
  intros L. destruct (set_of_spec hs) as [E1 E2]. pose proof (distinct_le hs) as D.
  assert (L' : (Z.of_nat (length hs) <= 67108864)%Z) by (apply Nat2Z.inj_le in L; rewrite Nat2Z.inj_pow in L; exact L).
  destruct (check_32_near (set_of hs) (length hs) E1 L') as (x & A & B); [rewrite E1, E2; lia|]. exists x. rewrite A, E1, E2.
  rewrite INR_IZR_INZ, Nat2Z.inj_sub by exact D. split; [reflexivity|exact B].
Qed.

(** The bound rounded down, in integers. *)
Definition scaled (n : Z) : Z := (n * (n - 1) / 2 + Z.sqrt (900 * (n * (n - 1) / 2) * 4294967296))%Z.
Definition margin (n t : Z) : Prop := (t * 4294967296 + 2 <= scaled n <= t * 4294967296 + 4294967293)%Z.
Lemma bound_scaled n : IZR (scaled (Z.of_nat n)) <= bound n * 4294967296 < IZR (scaled (Z.of_nat n)) + 1.
Proof.
  unfold bound. rewrite expected_Z. rewrite bp_Z by lia. change (2 ^ 32)%Z with 4294967296%Z. unfold scaled. set (p := (Z.of_nat n * (Z.of_nat n - 1) / 2)%Z).
  assert (P : (0 <= p)%Z) by (unfold p; apply Z.div_pos; [destruct n; [reflexivity|nia]|lia]).
  assert (P' : 0 <= IZR p) by (apply IZR_le; lia).
  assert (S : 30 * sqrt (IZR p / 4294967296) * 4294967296 = sqrt (IZR (900 * p * 4294967296))).
  { rewrite !mult_IZR. replace (900 * IZR p * 4294967296) with ((30 * 4294967296) * (30 * 4294967296) * (IZR p / 4294967296)) by lra.
    rewrite sqrt_mult by lra. rewrite sqrt_square by lra. lra. }
  rewrite Rmult_plus_distr_r, S. replace (IZR p / 4294967296 * 4294967296) with (IZR p) by lra.
  set (X := (900 * p * 4294967296)%Z). assert (X0 : (0 <= X)%Z) by (unfold X; lia). pose proof (Z.sqrt_spec X X0) as [A B]. pose proof (Z.sqrt_nonneg X) as R0.
  rewrite plus_IZR. set (r := Z.sqrt X) in *. assert (0 <= IZR r) by (apply IZR_le; exact R0).
  assert (IZR r <= sqrt (IZR X)) by (rewrite <- (sqrt_square (IZR r)) by assumption; apply sqrt_le_1_alt; rewrite <- mult_IZR; apply IZR_le; exact A).
  assert (sqrt (IZR X) < IZR r + 1).
  { rewrite <- (sqrt_square (IZR r + 1)) by lra. apply sqrt_lt_1_alt. split; [apply IZR_le; exact X0|]. rewrite <- (plus_IZR r 1), <- mult_IZR. apply IZR_lt. unfold Z.succ in B. exact B. }
  lra.
Qed.
(** Where the bound is not too close to an integer, [check] is exact. *)
Lemma check_32_exact hs (t : nat) : (length hs <= 2 ^ 26)%nat -> margin (Z.of_nat (length hs)) (Z.of_nat t) ->
  check_on 32 (set_of hs) = true <-> (t < length hs - distinct hs)%nat.
Proof.
  intros L [M1 M2]. destruct (check_32 hs L) as (x & -> & _ & N). pose proof (bound_scaled (length hs)) as [B1 B2]. apply Rabs_le_inv in N.
  replace (/ 2 ^ 32) with (/ 4294967296) in N by (cbn; lra). apply IZR_le in M1, M2. rewrite plus_IZR, mult_IZR in M1, M2.
  set (c := (length hs - distinct hs)%nat) in *. rewrite INR_IZR_INZ.
  assert (X : IZR (Z.of_nat t) < x < IZR (Z.of_nat t) + 1) by lra.
  split; intros H.
  - destruct (Rlt_bool_spec x (IZR (Z.of_nat c))) as [Q|]; [|discriminate]. apply Nat2Z.inj_lt. apply lt_IZR. lra.
  - apply Rlt_bool_true. apply Nat2Z.inj_lt in H. assert (T : (Z.of_nat t + 1 <= Z.of_nat c)%Z) by lia. apply IZR_le in T. rewrite plus_IZR in T. lra.
Qed.
