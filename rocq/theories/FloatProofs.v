(** Proofs about the float64 computations: rbetween. *)
From Coq Require Import ZArith NArith Reals Lia Lra Psatz List.
From Flocq Require Import Core BinarySingleNaN.
From Flocq Require Mult_error.
From Verif Require Import Words WordLemmas F64 FloatModel.
Import ListNotations.
Open Scope R_scope.

Notation bp := (bpow radix2).
Lemma bp_Z n : (0 <= n)%Z -> bp n = IZR (2 ^ n).
Proof. intros H. now rewrite <- (IZR_Zpower radix2). Qed.
(** Rounding inside a binade. *)
Lemma rnd_binade e x : (-1022 <= e)%Z -> bp e <= x < bp (e + 1) -> rnd x = IZR (ZnearestE (x * bp (52 - e))) * bp (e - 52).
Proof.
  intros He Hx. unfold rnd, round, F2R, scaled_mantissa, cexp. cbn [Fnum Fexp].
  assert (M : mag radix2 x = (e + 1)%Z :> Z).
  { apply mag_unique. replace (e + 1 - 1)%Z with e by lia. pose proof (bpow_gt_0 radix2 e). rewrite Rabs_pos_eq by lra. exact Hx. }
  rewrite M. replace (FLT_exp (-1074) 53 (e + 1)) with (e - 52)%Z by (unfold FLT_exp; lia). now replace (- (e - 52))%Z with (52 - e)%Z by lia.
Qed.
Lemma rnd_lt1 x : val x < 1 -> 0 <= val x -> val x <= 1 - u.
Proof.
  intros H H0. destruct (Rlt_le_dec (val x) (/ 2)) as [L|L].
  - assert (u <= / 2) by (unfold u; lra). lra.
  - pose proof (rnd_binade (-1) (val x) ltac:(lia)) as E. rewrite rnd_val in E.
    assert (B : bp (-1) <= val x < bp (-1 + 1)) by (cbn; lra). specialize (E B).
    set (k := ZnearestE _) in E. change (-1 - 52)%Z with (-53)%Z in E. assert (U : bp (-53) = u) by (unfold u; cbn; lra). rewrite U in E.
    assert (u1 : u * IZR (2 ^ 53) = 1) by (unfold u; change (2 ^ 53)%Z with 9007199254740992%Z; lra).
    assert (up : 0 < u) by (unfold u; lra).
    assert (K : (k < 2 ^ 53)%Z). { apply lt_IZR. apply Rmult_lt_reg_r with u; [exact up|]. rewrite <- E. rewrite Rmult_comm, u1. exact H. }
    assert (K' : IZR k <= IZR (2 ^ 53) - 1). { rewrite <- minus_IZR. apply IZR_le. lia. }
    rewrite E. apply Rmult_le_compat_r with (r := u) in K'; lra.
Qed.
(** The largest product. *)
Lemma rnd_pred (d e : Z) : (-1 <= e <= 51)%Z -> bp e + / 2 <= IZR d <= bp (e + 1) -> rnd ((1 - u) * IZR d) = IZR d - bp (e - 52).
Proof.
  intros He Hd. pose proof (bpow_gt_0 radix2 e) as P. assert (up : 0 < u) by (unfold u; lra).
  assert (L : bp (e + 1) <= bp 52) by (apply bpow_le; lia). assert (u1 : u * bp 52 = / 2) by (unfold u; cbn; lra).
  assert (Ud : u * IZR d <= / 2).
  { rewrite <- u1. apply Rmult_le_compat_l; lra. }
  rewrite (rnd_binade e) by (try lia; nra).
  assert (Q : bp (52 - e) * bp (e - 52) = 1) by (rewrite <- bpow_plus; replace (52 - e + (e - 52))%Z with 0%Z by lia; reflexivity).
  assert (Q0 : u * bp (52 - e) = bp (-1 - e)).
  { assert (E : u = bp (-53)) by (unfold u; cbn; lra). rewrite E, <- bpow_plus. f_equal. lia. }
  assert (Q1 : bp e * bp (-1 - e) = / 2) by (rewrite <- bpow_plus; replace (e + (-1 - e))%Z with (-1)%Z by lia; cbn; lra).
  assert (Q2 : bp (e + 1) * bp (-1 - e) = 1) by (rewrite <- bpow_plus; replace (e + 1 + (-1 - e))%Z with 0%Z by lia; reflexivity).
  assert (B52 : bp (52 - e) = IZR (2 ^ (52 - e))) by (apply bp_Z; lia).
  pose proof (bpow_gt_0 radix2 (-1 - e)) as P1. pose proof (bpow_gt_0 radix2 (e - 52)) as P2.
  assert (Z : ZnearestE ((1 - u) * IZR d * bp (52 - e)) = (d * 2 ^ (52 - e) - 1)%Z).
  { apply Znearest_imp. rewrite minus_IZR, mult_IZR, <- B52.
    replace ((1 - u) * IZR d * bp (52 - e) - (IZR d * bp (52 - e) - 1)) with (1 - IZR d * (u * bp (52 - e))) by ring. rewrite Q0.
    assert (T1 : bp e * bp (-1 - e) < IZR d * bp (-1 - e)) by (apply Rmult_lt_compat_r; lra).
    assert (T2 : IZR d * bp (-1 - e) <= bp (e + 1) * bp (-1 - e)) by (apply Rmult_le_compat_r; lra).
    rewrite Rabs_pos_eq; lra. }
  rewrite Z, minus_IZR, mult_IZR, <- B52. rewrite Rmult_minus_distr_r, Rmult_assoc, Q. ring.
Qed.
(** A tie goes up to an integer below 2^52. *)
Lemma rnd_tie (b e : Z) : (0 <= e <= 51)%Z -> bp e <= IZR b -> IZR b + 1 <= bp (e + 1) -> rnd (IZR b + 1 - bp (e - 53)) = IZR b + 1.
Proof.
  intros He H1 H2. pose proof (bpow_gt_0 radix2 (e - 53)) as P.
  assert (L : bp (e - 53) <= 1) by (change 1 with (bp 0); apply bpow_le; lia).
  rewrite (rnd_binade e) by (try lia; lra).
  assert (Q : bp (52 - e) * bp (e - 52) = 1) by (rewrite <- bpow_plus; replace (52 - e + (e - 52))%Z with 0%Z by lia; reflexivity).
  assert (B52 : bp (52 - e) = IZR (2 ^ (52 - e))) by (apply bp_Z; lia).
  assert (B51 : (2 ^ (52 - e) = 2 * 2 ^ (51 - e))%Z) by (replace (52 - e)%Z with (Z.succ (51 - e)) by lia; apply Z.pow_succ_r; lia).
  set (M := ((b + 1) * 2 ^ (51 - e))%Z).
  assert (X : (IZR b + 1 - bp (e - 53)) * bp (52 - e) = IZR (2 * M - 1) + / 2).
  { rewrite Rmult_minus_distr_r. rewrite <- bpow_plus. replace (e - 53 + (52 - e))%Z with (-1)%Z by lia. rewrite B52, B51. unfold M.
    rewrite minus_IZR, !mult_IZR, plus_IZR. change (bp (-1)) with (/ 2). lra. }
  assert (Z : ZnearestE ((IZR b + 1 - bp (e - 53)) * bp (52 - e)) = (2 * M)%Z).
  { rewrite X. unfold Znearest.
    assert (F : Zfloor (IZR (2 * M - 1) + / 2) = (2 * M - 1)%Z) by (apply Zfloor_imp; rewrite plus_IZR; lra).
    rewrite F. replace (IZR (2 * M - 1) + / 2 - IZR (2 * M - 1)) with (/ 2) by lra. rewrite Rcompare_Eq by reflexivity.
    assert (Ev : Z.even (2 * M - 1) = false) by (rewrite Z.even_sub, Z.even_mul; reflexivity). rewrite Ev. cbn [negb].
    apply Zceil_imp. rewrite !minus_IZR. lra. }
  rewrite Z. assert (E : (2 * M = (b + 1) * 2 ^ (52 - e))%Z) by (unfold M; lia). rewrite E, mult_IZR, <- B52, plus_IZR, Rmult_assoc, Q. ring.
Qed.

(** ** rbetween *)
(** What r.Float64() can return: a float64 from 0 (included) to 1 (not included). *)
Definition unit_float (rf : f64) : Prop := finite rf = true /\ 0 <= val rf < 1.
Definition lg (d : Z) : Z := if (d =? 1)%Z then (-1)%Z else Z.log2 (d - 1).
Lemma lg_ok d : (1 <= d <= 2 ^ 52)%Z -> (-1 <= lg d <= 51)%Z /\ bp (lg d) + / 2 <= IZR d <= bp (lg d + 1).
Proof.
  intros H. unfold lg. destruct (Z.eqb_spec d 1) as [->|N]; [split; [lia|cbn; lra]|].
  pose proof (Z.log2_spec (d - 1) ltac:(lia)) as [L1 L2]. pose proof (Z.log2_nonneg (d - 1)) as L0.
  assert (L3 : (Z.log2 (d - 1) < 52)%Z) by (apply Z.log2_lt_pow2; lia).
  split; [lia|]. rewrite !bp_Z by lia. split.
  - apply Rle_trans with (IZR (2 ^ Z.log2 (d - 1)) + 1); [lra|]. rewrite <- plus_IZR. apply IZR_le. lia.
  - apply IZR_le. rewrite <- Z.add_1_r in L2. lia.
Qed.
Lemma u_pos : 0 < u < / 2. Proof. unfold u. lra. Qed.
Lemma diff_eq a b : (a <= b)%N -> (b < 2 ^ 52)%N -> add64 (sub64 b a) 1 = (b - a + 1)%N.
Proof.
  intros H1 H2. change (2 ^ 52)%N with 4503599627370496%N in H2. unfold add64, addw, sub64. rewrite subw_mod. change (2 ^ 64)%N with 18446744073709551616%N.
  rewrite (N.mod_small a) by lia.
  replace (b + (18446744073709551616 - a))%N with (b - a + 1 * 18446744073709551616)%N by lia. rewrite N.mod_add, N.mod_small by lia.
  unfold wrap. rewrite N.land_ones. apply N.mod_small. change (2 ^ 64)%N with 18446744073709551616%N. lia.
Qed.
Lemma r2_ok rf d : unit_float rf -> (1 <= d <= 2 ^ 52)%Z -> exists r2, is (fmul rf (fofZ d)) r2 /\ 0 <= r2 <= IZR d - bp (lg d - 52) /\ r2 = rnd (val rf * IZR d).
Proof.
  intros [F [H0 H1]] Hd. exists (rnd (val rf * IZR d)). pose proof (lg_ok d Hd) as [L1 L2].
  assert (D1 : 1 <= IZR d) by (apply IZR_le; lia). pose proof (rnd_lt1 rf H1 H0) as H2. pose proof u_pos as U.
  split; [|split; [split|reflexivity]].
  - apply fmul_ok; [now split|apply fofZ_int; lia|]. split; [nra|].
    apply Rle_trans with (IZR d); [nra|]. apply Rle_trans with (bp 52); [rewrite bp_Z by lia; apply IZR_le; lia|apply bpow_le; lia].
  - apply rnd_pos. nra.
  - rewrite <- (rnd_pred d (lg d)) by assumption. apply rnd_le. nra.
Qed.
Lemma rbetween_ok rf a b : unit_float rf -> (a <= b)%N -> (b < 2 ^ 52)%N ->
  let d := (Z.of_N b - Z.of_N a + 1)%Z in let A := IZR (Z.of_N a) in
  exists r2 r3, r2 = rnd (val rf * IZR d) /\ 0 <= r2 <= IZR d - bp (lg d - 52) /\ r3 = rnd (r2 + A) /\ A <= r3 <= IZR (Z.of_N b + 1) /\
    rbetween rf a b = Some (Z.to_N (Zfloor r3)) /\ (Z.of_N a <= Zfloor r3 <= Z.of_N b + 1)%Z.
Proof.
  intros U Hab Hb d A. change (2 ^ 52)%N with 4503599627370496%N in Hb.
  assert (Hd : (1 <= d <= 2 ^ 52)%Z) by (unfold d; change (2 ^ 52)%Z with 4503599627370496%Z; lia).
  destruct (r2_ok rf d U Hd) as (r2 & I2 & B2 & E2). pose proof (bpow_gt_0 radix2 (lg d - 52)) as P.
  assert (A0 : 0 <= A) by (apply IZR_le; lia).
  assert (EA : rnd A = A) by (apply rnd_int; change (2 ^ 53)%Z with 9007199254740992%Z; lia).
  assert (EB : rnd (IZR (Z.of_N b + 1)) = IZR (Z.of_N b + 1)) by (apply rnd_int; change (2 ^ 53)%Z with 9007199254740992%Z; lia).
  assert (DA : IZR d + A = IZR (Z.of_N b + 1)) by (unfold A; rewrite <- plus_IZR; f_equal; unfold d; lia).
  assert (B3 : A <= rnd (r2 + A) <= IZR (Z.of_N b + 1)).
  { split; [rewrite <- EA at 1; apply rnd_le; lra|]. rewrite <- EB. apply rnd_le. lra. }
  assert (FB : (Z.of_N a <= Zfloor (rnd (r2 + A)) <= Z.of_N b + 1)%Z).
  { split; [apply Zfloor_lub; exact (proj1 B3)|]. apply le_IZR. apply Rle_trans with (2 := proj2 B3). apply Zfloor_lb. }
  exists r2, (rnd (r2 + A)). repeat (split; [assumption || reflexivity|]). split; [|exact FB].
  assert (I3 : is (fadd (fmul rf (fofZ d)) (fofZ (Z.of_N a))) (rnd (r2 + A))).
  { apply fadd_ok; [exact I2|apply fofZ_int; change (2 ^ 53)%Z with 9007199254740992%Z; lia|]. split; [lra|].
    apply Rle_trans with (IZR (Z.of_N b + 1)); [lra|]. apply Rle_trans with (bp 53); [rewrite bp_Z by lia; apply IZR_le; change (2 ^ 53)%Z with 9007199254740992%Z; lia|apply bpow_le; lia]. }
  unfold rbetween. rewrite diff_eq by assumption. replace (Z.of_N (b - a + 1)) with d by (unfold d; lia).
  rewrite (ftrunc_ok _ _ I3) by lra. change (2 ^ 64)%Z with 18446744073709551616%Z.
  destruct (Z.leb_spec 0 (Zfloor (rnd (r2 + A)))); [|lia]. destruct (Z.ltb_spec (Zfloor (rnd (r2 + A))) 18446744073709551616); [|lia]. reflexivity.
Qed.
Lemma floor_lt x (n : Z) : x < IZR n + 1 -> (Zfloor x <= n)%Z.
Proof. intros H. apply Zlt_succ_le. apply lt_IZR. unfold Z.succ. rewrite plus_IZR. apply Rle_lt_trans with (2 := H). apply Zfloor_lb. Qed.
Lemma rnd_rnd x : rnd (rnd x) = rnd x.
Proof. unfold rnd at 1. apply round_generic; auto with typeclass_instances. unfold rnd. apply generic_format_round; auto with typeclass_instances. Qed.

Lemma from_zero rf b : unit_float rf -> (b < 2 ^ 52)%N -> exists r, rbetween rf 0 b = Some r /\ (r <= b)%N.
Proof.
  intros U Hb. destruct (rbetween_ok rf 0 b U ltac:(lia) Hb) as (r2 & r3 & E2 & B2 & E3 & B3 & E & FB). cbn zeta in *.
  change (IZR (Z.of_N 0)) with 0 in *. rewrite Rplus_0_r in E3. rewrite E2, rnd_rnd, <- E2 in E3. subst r3.
  exists (Z.to_N (Zfloor r2)). split; [exact E|].
  assert (K : (Zfloor r2 <= Z.of_N b)%Z).
  { apply floor_lt. pose proof (bpow_gt_0 radix2 (lg (Z.of_N b - Z.of_N 0 + 1) - 52)). replace (Z.of_N b - Z.of_N 0 + 1)%Z with (Z.of_N b + 1)%Z in B2 by lia.
    rewrite <- plus_IZR. replace (Z.of_N b - Z.of_N 0 + 1)%Z with (Z.of_N b + 1)%Z in H by lia. lra. }
  lia.
Qed.
(** The largest value of r.Float64(). *)
Definition top_rf : f64 := fdiv (fofZ (2 ^ 53 - 1)) (fofZ (2 ^ 53)).
Lemma top_ok : unit_float top_rf /\ val top_rf = 1 - u.
Proof.
  assert (E : IZR (2 ^ 53 - 1) / IZR (2 ^ 53) = 1 - u) by (unfold u; change (2 ^ 53 - 1)%Z with 9007199254740991%Z; change (2 ^ 53)%Z with 9007199254740992%Z; lra).
  assert (V : is top_rf (1 - u)).
  { assert (R : rnd (1 - u) = 1 - u). { pose proof (rnd_pred 1 (-1) ltac:(lia) ltac:(cbn; lra)) as P. rewrite Rmult_1_r in P. rewrite P. unfold u. cbn. lra. }
    rewrite <- R, <- E. apply fdiv_ok; [apply fofZ_int; lia|apply fofZ_int; lia|apply IZR_neq; lia|]. rewrite E. pose proof u_pos. split; [lra|].
    apply Rle_trans with (bp 0); [cbn; lra|apply bpow_le; lia]. }
  destruct V as [V1 V2]. pose proof u_pos. split; [split; [exact V1|lra]|exact V2].
Qed.
Lemma overshoot a b : (1 <= a <= b)%N -> (b < 2 ^ 52)%N ->
  (exists rf, unit_float rf /\ rbetween rf a b = Some (b + 1)%N) <-> (a = b \/ (N.log2 (b - a) < N.log2 b)%N).
Proof.
  intros Hab Hb. set (d := (Z.of_N b - Z.of_N a + 1)%Z). set (E := Z.log2 (Z.of_N b)).
  assert (Hb' : (Z.of_N b < 2 ^ 52)%Z) by (change (2 ^ 52)%N with 4503599627370496%N in Hb; change (2 ^ 52)%Z with 4503599627370496%Z; lia).
  assert (ZL : forall n, Z.log2 (Z.of_N n) = Z.of_N (N.log2 n)) by (intros [|p]; [reflexivity|destruct p; reflexivity]).
  assert (LE : (0 <= E <= 51)%Z) by (split; [apply Z.log2_nonneg|]; assert (E < 52)%Z by (apply Z.log2_lt_pow2; lia); lia).
  pose proof (Z.log2_spec (Z.of_N b) ltac:(lia)) as [S1 S2]. fold E in S1, S2.
  assert (B1 : bp E <= IZR (Z.of_N b)) by (rewrite bp_Z by lia; apply IZR_le; lia).
  assert (B2 : IZR (Z.of_N b) + 1 <= bp (E + 1)) by (rewrite bp_Z, <- plus_IZR by lia; apply IZR_le; unfold Z.succ in S2; lia).
  assert (Q : (a = b \/ (N.log2 (b - a) < N.log2 b)%N) <-> (lg d < E)%Z).
  { unfold lg. destruct (Z.eqb_spec d 1) as [K|K].
    - split; [intros _; lia|]. intros _. left. unfold d in K. lia.
    - replace (d - 1)%Z with (Z.of_N (b - a)) by (unfold d; lia). unfold E. rewrite !ZL.
      split; [intros [->|K']; [exfalso; apply K; unfold d; lia|lia]|right; lia]. }
  rewrite Q. split.
  - intros (rf & U & Er). destruct (Z.lt_ge_cases (lg d) E) as [|G]; [assumption|exfalso].
    assert (EL : lg d = E).
    { unfold lg in *. destruct (Z.eqb_spec d 1); [lia|]. assert (Z.log2 (d - 1) <= E)%Z by (apply Z.log2_le_mono; unfold d; lia). lia. }
    destruct (rbetween_ok rf a b U ltac:(lia) Hb) as (r2 & r3 & E2 & B2' & E3 & B3 & Ev & FB). cbn zeta in *. fold d in B2', E2. rewrite EL in B2'.
    pose proof (rnd_pred (Z.of_N b + 1) E ltac:(lia) ltac:(rewrite plus_IZR; lra)) as P.
    assert (L : r3 <= IZR (Z.of_N b + 1) - bp (E - 52)).
    { rewrite <- P, <- rnd_rnd, P, E3. apply rnd_le. assert (IZR d + IZR (Z.of_N a) = IZR (Z.of_N b + 1)) by (rewrite <- plus_IZR; f_equal; unfold d; lia). lra. }
    rewrite Ev in Er. injection Er as Er. pose proof (bpow_gt_0 radix2 (E - 52)). rewrite plus_IZR in L.
    pose proof (floor_lt r3 (Z.of_N b) ltac:(lra)). lia.
  - intros G. exists top_rf. destruct top_ok as [U V]. split; [exact U|].
    destruct (rbetween_ok top_rf a b U ltac:(lia) Hb) as (r2 & r3 & E2 & B2' & E3 & B3 & Ev & FB). cbn zeta in *. fold d in B2', E2.
    assert (Hd : (1 <= d <= 2 ^ 52)%Z) by (unfold d; lia). pose proof (lg_ok d Hd) as [L1 L2].
    rewrite V, (rnd_pred d (lg d)) in E2 by assumption.
    assert (R3 : r3 = IZR (Z.of_N b) + 1).
    { apply Rle_antisym; [rewrite plus_IZR in B3; lra|]. rewrite <- (rnd_tie (Z.of_N b) E) by (lia || assumption). rewrite E3, E2. apply rnd_le.
      assert (IZR d + IZR (Z.of_N a) = IZR (Z.of_N b + 1)) by (rewrite <- plus_IZR; f_equal; unfold d; lia). rewrite plus_IZR in H.
      assert (bp (lg d - 52) <= bp (E - 53)) by (apply bpow_le; lia). lra. }
    rewrite Ev, R3, <- plus_IZR, Zfloor_IZR. f_equal. lia.
Qed.

(** ** Seeds: between 0 and 2^63 *)
Lemma fofZ_63 : is (fofZ (2 ^ 63 + 1)) (bp 63).
Proof.
  assert (R : rnd (IZR (2 ^ 63 + 1)) = bp 63).
  { rewrite (rnd_binade 63).
    - assert (Z : ZnearestE (IZR (2 ^ 63 + 1) * bp (52 - 63)) = (2 ^ 52)%Z).
      { apply Znearest_imp. change (2 ^ 63 + 1)%Z with 9223372036854775809%Z. change (2 ^ 52)%Z with 4503599627370496%Z. change (bp (52 - 63)) with (/ 2048).
        apply Rabs_def1; lra. }
      rewrite Z, <- bp_Z, <- bpow_plus by lia. reflexivity.
    - lia.
    - rewrite !bp_Z by lia. split; [apply IZR_le; lia|apply IZR_lt; reflexivity]. }
  rewrite <- R. apply fofZ_ok. split; [lia|]. apply Z.le_trans with (2 ^ 64)%Z; [discriminate|apply Z.pow_le_mono_r; lia].
Qed.
Lemma rnd_scale x k : rnd x = x -> (0 <= k)%Z -> rnd (x * bp k) = x * bp k.
Proof.
  intros H Hk. unfold rnd. apply round_generic; auto with typeclass_instances.
  apply Mult_error.mult_bpow_pos_exact_FLT; [|assumption]. rewrite <- H. apply generic_format_round; auto with typeclass_instances.
Qed.
Lemma seeds rf : unit_float rf -> rbetween rf 0 (2 ^ 63) = Some (Z.to_N (Zfloor (val rf * bp 63))) /\ (0 <= Zfloor (val rf * bp 63) <= 2 ^ 63 - 1024)%Z.
Proof.
  intros [F [H0 H1]]. pose proof (bpow_gt_0 radix2 63) as P. pose proof (rnd_lt1 rf H1 H0) as L.
  assert (S : rnd (val rf * bp 63) = val rf * bp 63) by (apply rnd_scale; [apply rnd_val|lia]).
  assert (B : 0 <= val rf * bp 63 <= IZR (2 ^ 63 - 1024)).
  { split; [nra|]. apply Rle_trans with ((1 - u) * bp 63); [apply Rmult_le_compat_r; lra|]. unfold u. rewrite bp_Z by lia.
    change (2 ^ 63 - 1024)%Z with 9223372036854774784%Z. change (2 ^ 63)%Z with 9223372036854775808%Z. lra. }
  assert (FB : (0 <= Zfloor (val rf * bp 63) <= 2 ^ 63 - 1024)%Z).
  { split; [apply Zfloor_lub; exact (proj1 B)|]. apply le_IZR. apply Rle_trans with (2 := proj2 B). apply Zfloor_lb. }
  split; [|exact FB].
  assert (M : val rf * bp 63 <= bp 1000). { apply Rle_trans with (bp 63); [nra|apply bpow_le; lia]. }
  assert (I2 : is (fmul rf (fofZ (2 ^ 63 + 1))) (val rf * bp 63)).
  { rewrite <- S. apply fmul_ok; [now split|exact fofZ_63|lra]. }
  assert (I3 : is (fadd (fmul rf (fofZ (2 ^ 63 + 1))) (fofZ 0)) (val rf * bp 63)).
  { rewrite <- S. rewrite <- (Rplus_0_r (val rf * bp 63)). apply fadd_ok; [exact I2|apply fofZ_int; lia|lra]. }
  unfold rbetween. change (Z.of_N (add64 (sub64 (2 ^ 63) 0) 1)) with (2 ^ 63 + 1)%Z. change (Z.of_N 0) with 0%Z.
  rewrite (ftrunc_ok _ _ I3) by lra. set (z := Zfloor _) in *. change (2 ^ 63 - 1024)%Z with 9223372036854774784%Z in FB. change (2 ^ 64)%Z with 18446744073709551616%Z.
  destruct (Z.leb_spec 0 z); [|lia]. destruct (Z.ltb_spec z 18446744073709551616); [|lia]. reflexivity.
Qed.
(** r.Float64() is float64(r.Int63()) / (1 << 63), unless that is 1: the seed is the random integer
    rounded to 53 significant bits. *)
Lemma seeds_int63 i : (0 <= i < 2 ^ 63)%Z -> rnd (IZR i) < bp 63 ->
  let rf := fdiv (fofZ i) (fofZ (2 ^ 63)) in
  unit_float rf /\ exists r, rbetween rf 0 (2 ^ 63) = Some r /\ IZR (Z.of_N r) = rnd (IZR i).
Proof.
  intros Hi Hr rf. assert (P63 : (2 ^ 63 <= 2 ^ 1000)%Z) by (apply Z.pow_le_mono_r; lia).
  pose proof (bpow_gt_0 radix2 63) as P. assert (R0 : 0 <= rnd (IZR i)) by (apply rnd_pos; apply IZR_le; lia).
  assert (I63 : is (fofZ (2 ^ 63)) (bp 63)).
  { rewrite <- rnd_bpow by lia. rewrite bp_Z by lia. apply fofZ_ok. lia. }
  assert (S : rnd (rnd (IZR i) / bp 63) = rnd (IZR i) / bp 63).
  { unfold Rdiv. rewrite <- bpow_opp. unfold rnd at 1. apply round_generic; auto with typeclass_instances.
    destruct (Z.eq_dec i 0) as [->|N0]; [rewrite rnd_0, Rmult_0_l; apply generic_format_0|].
    apply Mult_error.mult_bpow_exact_FLT; [unfold rnd; apply generic_format_round; auto with typeclass_instances|].
    assert (1 <= rnd (IZR i)) by (rewrite <- (rnd_int 1) by lia; apply rnd_le; apply IZR_le; lia).
    assert (M : (1 <= mag radix2 (rnd (IZR i)))%Z) by (apply mag_ge_bpow; rewrite Rabs_pos_eq by lra; exact H). lia. }
  assert (D : rnd (IZR i) / bp 63 < 1) by (apply Rmult_lt_reg_r with (bp 63); [exact P|]; unfold Rdiv; rewrite Rmult_assoc, Rinv_l by lra; lra).
  assert (D0 : 0 <= rnd (IZR i) / bp 63) by (apply Rmult_le_pos; [exact R0|]; apply Rlt_le, Rinv_0_lt_compat; exact P).
  assert (I : is rf (rnd (IZR i) / bp 63)).
  { rewrite <- S. apply fdiv_ok; [apply fofZ_ok; lia|exact I63|lra|]. split; [exact D0|]. apply Rle_trans with (bp 0); [change (bp 0) with 1; lra|apply bpow_le; lia]. }
  assert (U : unit_float rf) by (destruct I as [I1 I2]; split; [exact I1|rewrite I2; lra]).
  split; [exact U|]. destruct (seeds rf U) as [E B]. destruct I as [_ I]. rewrite I in *.
  replace (rnd (IZR i) / bp 63 * bp 63) with (rnd (IZR i)) in * by (field; lra). exists (Z.to_N (Zfloor (rnd (IZR i)))). split; [exact E|].
  rewrite Z2N.id by apply B.
  (* rnd of an integer is an integer *)
  assert (In : exists z, rnd (IZR i) = IZR z).
  { destruct (Z.le_gt_cases i (2 ^ 53)) as [L|L]; [exists i; apply rnd_int; lia|].
    pose proof (Z.log2_spec i ltac:(lia)) as [L1 L2]. set (e := Z.log2 i) in *. assert (e52 : (52 <= e)%Z) by (apply Z.log2_le_pow2; lia).
    rewrite (rnd_binade e); [|lia|].
    - exists (ZnearestE (IZR i * bp (52 - e)) * 2 ^ (e - 52))%Z. rewrite mult_IZR, <- bp_Z by lia. reflexivity.
    - rewrite !bp_Z by lia. split; [apply IZR_le; lia|apply IZR_lt; exact L2]. }
  destruct In as [z Ez]. rewrite Ez, Zfloor_IZR. reflexivity.
Qed.

(** Every value of the range comes out for some float. *)
Lemma reached a b r : (a <= r <= b)%N -> (b < 2 ^ 50)%N -> exists rf, unit_float rf /\ rbetween rf a b = Some r.
Proof.
  intros Hr Hb. change (2 ^ 50)%N with 1125899906842624%N in Hb. set (d := (Z.of_N b - Z.of_N a + 1)%Z).
  set (c := IZR (Z.of_N r - Z.of_N a) + / 2). set (x := c / IZR d).
  assert (Hd : 1 <= IZR d <= 1125899906842624) by (split; apply IZR_le; unfold d; lia).
  assert (Hc : / 2 <= c <= IZR d - / 2).
  { unfold c. assert (0 <= IZR (Z.of_N r - Z.of_N a) <= IZR (d - 1)) as [C1 C2] by (split; apply IZR_le; unfold d; lia). rewrite (minus_IZR d 1) in C2. lra. }
  assert (Id : 0 < / IZR d) by (apply Rinv_0_lt_compat; lra).
  assert (Xd : x * IZR d = c) by (unfold x; field; lra).
  pose proof u_pos as U0. assert (U1 : u = / 9007199254740992) by (unfold u; lra).
  assert (Lo : / 4503599627370496 <= x).
  { apply Rmult_le_reg_r with (IZR d); [lra|]. rewrite Xd. apply Rle_trans with (/ 4503599627370496 * 1125899906842624); [apply Rmult_le_compat_l; lra|lra]. }
  assert (Hi : x <= 1 - / 4503599627370496).
  { apply Rmult_le_reg_r with (IZR d); [lra|]. rewrite Xd. assert (/ 4503599627370496 * IZR d <= / 4) by (apply Rle_trans with (/ 4503599627370496 * 1125899906842624); [apply Rmult_le_compat_l; lra|lra]). lra. }
  set (rf := fdiv (fofZ (2 * (Z.of_N r - Z.of_N a) + 1)) (fofZ (2 * d))).
  assert (V : is rf (rnd x)).
  { assert (E : x = IZR (2 * (Z.of_N r - Z.of_N a) + 1) / IZR (2 * d)) by (unfold x, c; rewrite plus_IZR, !mult_IZR; generalize (IZR (Z.of_N r - Z.of_N a)); intros q; field; repeat split; lra).
    unfold rf. rewrite E. apply fdiv_ok; [apply fofZ_int; lia|apply fofZ_int; unfold d; lia|apply IZR_neq; unfold d; lia|]. rewrite <- E. split; [lra|].
    apply Rle_trans with (bp 0); [change (bp 0) with 1; lra|apply bpow_le; lia]. }
  destruct V as [F V].
  assert (T : bp (-1022) <= / 4503599627370496) by (change (/ 4503599627370496) with (bp (-52)); apply bpow_le; lia).
  pose proof (rnd_error x ltac:(lra)) as [R1 R2].
  assert (UX : 0 <= u * x <= u) by nra.
  assert (UF : unit_float rf) by (split; [exact F|rewrite V; lra]).
  exists rf. split; [exact UF|].
  destruct (rbetween_ok rf a b UF ltac:(lia) ltac:(change (2 ^ 52)%N with 4503599627370496%N; lia)) as (r2 & r3 & E2 & B2 & E3 & B3 & E & FB). cbn zeta in *. fold d in E2, B2.
  rewrite E. f_equal. rewrite V in E2. set (A := IZR (Z.of_N a)) in *. assert (HA : 0 <= A) by (apply IZR_le; lia).
  assert (AC : A + c = IZR (Z.of_N r) + / 2) by (unfold A, c; rewrite minus_IZR; lra).
  assert (HR : IZR (Z.of_N r) <= 1125899906842624) by (apply IZR_le; lia).
  (* the product *)
  set (y := rnd x * IZR d) in *.
  assert (Y : (1 - u) * c <= y <= (1 + u) * c).
  { unfold y. rewrite <- Xd. split; [rewrite <- Rmult_assoc|rewrite <- Rmult_assoc]; apply Rmult_le_compat_r; lra. }
  assert (UC : 0 <= u * c <= / 8) by (split; [apply Rmult_le_pos; lra|apply Rle_trans with (u * 1125899906842624); [apply Rmult_le_compat_l; lra|lra]]).
  assert (T1 : bp (-1022) <= / 4) by lra.
  pose proof (rnd_error y ltac:(lra)) as [S1 S2]. rewrite <- E2 in S1, S2.
  assert (UY : 0 <= u * y <= / 8 + / 1000).
  { split; [apply Rmult_le_pos; lra|]. apply Rle_trans with (u * (c + / 8)); [apply Rmult_le_compat_l; lra|]. lra. }
  pose proof (rnd_error (r2 + A) ltac:(lra)) as [W1 W2]. rewrite <- E3 in W1, W2.
  assert (UW : 0 <= u * (r2 + A) <= / 8 + / 1000).
  { split; [apply Rmult_le_pos; lra|]. apply Rle_trans with (u * (1125899906842624 + 2)); [apply Rmult_le_compat_l; lra|lra]. }
  assert (K : Zfloor r3 = Z.of_N r) by (apply Zfloor_imp; rewrite plus_IZR; lra). rewrite K. apply N2Z.id.
Qed.
