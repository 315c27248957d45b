(** Go's float64: IEEE 754 double precision, round to nearest even (Flocq). *)
From Coq Require Import ZArith Reals Lia Lra Psatz.
From Flocq Require Import Core Relative BinarySingleNaN.
Open Scope R_scope.

Definition f64 : Type := binary_float 53 1024.
Definition p53 : Prec_gt_0 53 := eq_refl.
Definition p1024 : Prec_lt_emax 53 1024 := eq_refl.
(** Conversion of an integer, + * / and math.Sqrt, < ; conversion to an integer (towards zero). *)
Definition fofZ (z : Z) : f64 := @binary_normalize 53 1024 p53 p1024 mode_NE z 0 false.
Definition fadd : f64 -> f64 -> f64 := @Bplus 53 1024 p53 p1024 mode_NE.
Definition fsub : f64 -> f64 -> f64 := @Bminus 53 1024 p53 p1024 mode_NE.
Definition fmul : f64 -> f64 -> f64 := @Bmult 53 1024 p53 p1024 mode_NE.
Definition fdiv : f64 -> f64 -> f64 := @Bdiv 53 1024 p53 p1024 mode_NE.
Definition fsqrt : f64 -> f64 := @Bsqrt 53 1024 p53 p1024 mode_NE.
Definition fltb : f64 -> f64 -> bool := @Bltb 53 1024.
Definition ftrunc : f64 -> Z := @Btrunc 53 1024.
(** The real number a float64 stands for. *)
Definition val (x : f64) : R := B2R x.
Definition finite (x : f64) : bool := is_finite x.

(** Rounding to the nearest float64. *)
Definition rnd (x : R) : R := round radix2 (FLT_exp (-1074) 53) ZnearestE x.
Definition is (x : f64) (r : R) : Prop := finite x = true /\ val x = r.
Definition u : R := / 2 ^ 53.

Global Instance valid64 : Valid_exp (FLT_exp (-1074) 53).
Proof. apply FLT_exp_valid. exact eq_refl. Qed.
Lemma rnd_le x y : x <= y -> rnd x <= rnd y.
Proof. intros H. unfold rnd. apply round_le; auto with typeclass_instances. Qed.
Lemma rnd_0 : rnd 0 = 0.
Proof. unfold rnd. apply round_0. auto with typeclass_instances. Qed.
Lemma rnd_val (x : f64) : rnd (val x) = val x.
Proof. unfold rnd. apply round_generic; auto with typeclass_instances. apply (generic_format_B2R 53 1024). Qed.
Lemma rnd_bpow e : (-1074 <= e)%Z -> rnd (bpow radix2 e) = bpow radix2 e.
Proof. intros H. unfold rnd. apply round_generic; auto with typeclass_instances. apply generic_format_bpow. unfold FLT_exp. lia. Qed.
Lemma rnd_int z : (Z.abs z <= 2 ^ 53)%Z -> rnd (IZR z) = IZR z.
Proof.
  intros H. unfold rnd. apply round_generic; auto with typeclass_instances.
  apply generic_format_FLT. destruct (Z.eq_dec (Z.abs z) (2 ^ 53)) as [E|E].
  - exists (Float radix2 (z / 2) 1).
    + unfold F2R. cbn [Fnum Fexp]. rewrite <- (IZR_Zpower radix2) by lia. rewrite <- mult_IZR. f_equal. change (Zpower radix2 1) with 2%Z.
      assert (z = 2 ^ 53 \/ z = - 2 ^ 53)%Z as [-> | ->] by lia; reflexivity.
    + cbn [Fnum]. assert (z = 2 ^ 53 \/ z = - 2 ^ 53)%Z as [-> | ->] by lia; reflexivity.
    + cbn [Fexp]. lia.
  - exists (Float radix2 z 0).
    + unfold F2R. cbn [Fnum Fexp bpow]. lra.
    + cbn [Fnum]. change (Zpower radix2 53) with (2 ^ 53)%Z. lia.
    + cbn [Fexp]. lia.
Qed.
Lemma u_eq : / 2 * bpow radix2 (-53 + 1) = u.
Proof. unfold u. cbn. lra. Qed.
Lemma rnd_error x : bpow radix2 (-1022) <= x -> (1 - u) * x <= rnd x <= (1 + u) * x.
Proof.
  intros H. pose proof (bpow_gt_0 radix2 (-1022)) as P.
  pose proof (relative_error_N_FLT radix2 (-1074) 53 eq_refl (fun z => negb (Z.even z)) x) as E. fold (rnd x) in E. change (/ 2 * bpow radix2 (- (53) + 1)) with (/ 2 * bpow radix2 (-53 + 1)) in E. rewrite u_eq in E.
  rewrite (Rabs_pos_eq x) in E by lra. specialize (E H). apply Rabs_le_inv in E. lra.
Qed.
Lemma rnd_pos x : 0 <= x -> 0 <= rnd x.
Proof. intros H. rewrite <- rnd_0. now apply rnd_le. Qed.
Lemma rnd_small x : 0 <= x <= bpow radix2 1000 -> Rlt_bool (Rabs (rnd x)) (bpow radix2 1024) = true.
Proof.
  intros [H0 H1]. apply Rlt_bool_true. rewrite Rabs_pos_eq by now apply rnd_pos.
  apply Rle_lt_trans with (bpow radix2 1000); [|apply bpow_lt; lia]. rewrite <- (rnd_bpow 1000) by lia. now apply rnd_le.
Qed.

Lemma fofZ_ok z : (0 <= z <= 2 ^ 1000)%Z -> is (fofZ z) (rnd (IZR z)).
Proof.
  intros H. pose proof (@binary_normalize_correct 53 1024 p53 p1024 mode_NE z 0 false) as C. cbn zeta in C.
  replace (F2R (Float radix2 z 0)) with (IZR z) in C by (unfold F2R; cbn; lra).
  change (round radix2 (SpecFloat.fexp 53 1024) (round_mode mode_NE) (IZR z)) with (rnd (IZR z)) in C.
  rewrite rnd_small in C.
  - split; apply C.
  - split; [apply IZR_le; lia|]. rewrite <- (IZR_Zpower radix2) by lia. apply IZR_le. exact (proj2 H).
Qed.
Lemma fofZ_int z : (0 <= z <= 2 ^ 53)%Z -> is (fofZ z) (IZR z).
Proof.
  intros H. rewrite <- (rnd_int z) by lia. apply fofZ_ok. split; [lia|]. apply Z.le_trans with (2 ^ 53)%Z; [lia|]. apply Z.pow_le_mono_r; lia.
Qed.
Lemma fadd_ok x y a b : is x a -> is y b -> 0 <= a + b <= bpow radix2 1000 -> is (fadd x y) (rnd (a + b)).
Proof.
  intros [Fx <-] [Fy <-] H. pose proof (@Bplus_correct 53 1024 p53 p1024 mode_NE x y Fx Fy) as C.
  change (round radix2 (SpecFloat.fexp 53 1024) (round_mode mode_NE) (B2R x + B2R y)) with (rnd (val x + val y)) in C.
  rewrite rnd_small in C by exact H. split; apply C.
Qed.
Lemma fsub_ok x y a b : is x a -> is y b -> 0 <= a - b <= bpow radix2 1000 -> is (fsub x y) (rnd (a - b)).
Proof.
  intros [Fx <-] [Fy <-] H. pose proof (@Bminus_correct 53 1024 p53 p1024 mode_NE x y Fx Fy) as C.
  change (round radix2 (SpecFloat.fexp 53 1024) (round_mode mode_NE) (B2R x - B2R y)) with (rnd (val x - val y)) in C.
  rewrite rnd_small in C by exact H. split; apply C.
Qed.
Lemma fmul_ok x y a b : is x a -> is y b -> 0 <= a * b <= bpow radix2 1000 -> is (fmul x y) (rnd (a * b)).
Proof.
  intros [Fx <-] [Fy <-] H. pose proof (@Bmult_correct 53 1024 p53 p1024 mode_NE x y) as C.
  change (round radix2 (SpecFloat.fexp 53 1024) (round_mode mode_NE) (B2R x * B2R y)) with (rnd (val x * val y)) in C.
  rewrite rnd_small in C by exact H. destruct C as (C1 & C2 & _). split; [|exact C1]. unfold finite in *. unfold fmul. now rewrite C2, Fx, Fy.
Qed.
Lemma fdiv_ok x y a b : is x a -> is y b -> b <> 0 -> 0 <= a / b <= bpow radix2 1000 -> is (fdiv x y) (rnd (a / b)).
Proof.
  intros [Fx <-] [Fy <-] B0 H. pose proof (@Bdiv_correct 53 1024 p53 p1024 mode_NE x y B0) as C.
  change (round radix2 (SpecFloat.fexp 53 1024) (round_mode mode_NE) (B2R x / B2R y)) with (rnd (val x / val y)) in C.
  rewrite rnd_small in C by exact H. destruct C as (C1 & C2 & _). split; [|exact C1]. unfold finite in *. unfold fdiv. now rewrite C2, Fx.
Qed.
Lemma fsqrt_ok x a : is x a -> 0 <= a -> is (fsqrt x) (rnd (sqrt a)).
Proof.
  intros [Fx <-] H. destruct (@Bsqrt_correct 53 1024 p53 p1024 mode_NE x) as (C1 & C2 & _). split; [|exact C1].
  unfold finite in *. unfold fsqrt. rewrite C2. destruct x as [s|s| |s m e B]; try discriminate; [reflexivity|]. destruct s; [|reflexivity].
  exfalso. unfold val, B2R, F2R in H. cbn [Fnum Fexp cond_Zopp] in H. pose proof (Rmult_lt_compat_r _ _ _ (bpow_gt_0 radix2 e) (IZR_lt (Z.neg m) 0 eq_refl)) as L. change (- Z.pos m)%Z with (Z.neg m) in H. lra.
Qed.
Lemma fltb_ok x y a b : is x a -> is y b -> fltb x y = Rlt_bool a b.
Proof. intros [Fx <-] [Fy <-]. now apply Bltb_correct. Qed.
Lemma ftrunc_ok x a : is x a -> 0 <= a -> ftrunc x = Zfloor a.
Proof.
  intros [Fx <-] H. apply eq_IZR. unfold ftrunc. rewrite Btrunc_correct by exact p1024.
  unfold round, scaled_mantissa, cexp, FIX_exp, F2R. cbn [Fnum Fexp]. cbn [Z.opp bpow]. rewrite !Rmult_1_r. f_equal. now apply Ztrunc_floor.
Qed.
