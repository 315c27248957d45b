(** Proofs about the numbers of the summary line. *)
From Coq Require Import ZArith NArith Reals Lia Lra Psatz List String.
From Flocq Require Import Core Relative BinarySingleNaN.
From Verif Require Import Words F64 FloatProofs PrintModel.
Import ListNotations.
Open Scope R_scope.

(** ** Signed versions of the lemmas in F64 *)
Lemma rnd_small_s x : Rabs x <= bp 1000 -> Rlt_bool (Rabs (rnd x)) (bp 1024) = true.
Proof.
  intros H. apply Rlt_bool_true. apply Rle_lt_trans with (bp 1000); [|apply bpow_lt; lia].
  unfold rnd. apply abs_round_le_generic; auto with typeclass_instances. apply generic_format_bpow. unfold FLT_exp. lia.
Qed.
Lemma fofZ_s z : (Z.abs z <= 2 ^ 53)%Z -> is (fofZ z) (IZR z).
Proof.
  intros H. pose proof (@binary_normalize_correct 53 1024 p53 p1024 mode_NE z 0 false) as C. cbn zeta in C.
  replace (F2R (Float radix2 z 0)) with (IZR z) in C by (unfold F2R; cbn; lra).
  change (round radix2 (SpecFloat.fexp 53 1024) (round_mode mode_NE) (IZR z)) with (rnd (IZR z)) in C.
  rewrite rnd_small_s in C; [rewrite <- (rnd_int z H); split; apply C|].
  rewrite <- abs_IZR. apply Rle_trans with (IZR (2 ^ 53)); [now apply IZR_le|]. rewrite <- bp_Z by lia. apply bpow_le. lia.
Qed.
Lemma fadd_s x y a b : is x a -> is y b -> Rabs (a + b) <= bp 1000 -> is (fadd x y) (rnd (a + b)).
Proof.
  intros [Fx <-] [Fy <-] H. pose proof (@Bplus_correct 53 1024 p53 p1024 mode_NE x y Fx Fy) as C.
  change (round radix2 (SpecFloat.fexp 53 1024) (round_mode mode_NE) (B2R x + B2R y)) with (rnd (val x + val y)) in C.
  rewrite rnd_small_s in C by exact H. split; apply C.
Qed.
Lemma fmul_s x y a b : is x a -> is y b -> Rabs (a * b) <= bp 1000 -> is (fmul x y) (rnd (a * b)).
Proof.
  intros [Fx <-] [Fy <-] H. pose proof (@Bmult_correct 53 1024 p53 p1024 mode_NE x y) as C.
  change (round radix2 (SpecFloat.fexp 53 1024) (round_mode mode_NE) (B2R x * B2R y)) with (rnd (val x * val y)) in C.
  rewrite rnd_small_s in C by exact H. destruct C as (C1 & C2 & _). split; [|exact C1]. unfold finite in *. unfold fmul. now rewrite C2, Fx, Fy.
Qed.
Lemma fdiv_s x y a b : is x a -> is y b -> b <> 0 -> Rabs (a / b) <= bp 1000 -> is (fdiv x y) (rnd (a / b)).
Proof.
  intros [Fx <-] [Fy <-] B0 H. pose proof (@Bdiv_correct 53 1024 p53 p1024 mode_NE x y B0) as C.
  change (round radix2 (SpecFloat.fexp 53 1024) (round_mode mode_NE) (B2R x / B2R y)) with (rnd (val x / val y)) in C.
  rewrite rnd_small_s in C by exact H. destruct C as (C1 & C2 & _). split; [|exact C1]. unfold finite in *. unfold fdiv. now rewrite C2, Fx.
Qed.

(** ** Relative errors *)
Definition ap (k x y : R) : Prop := Rabs (x - y) <= k * u * Rabs y.
Lemma u_small : 0 < u < / 1000000000000.
Proof. unfold u. lra. Qed.
Lemma ap_bounds k x y : ap k x y -> 0 <= y -> y - k * u * y <= x <= y + k * u * y.
Proof. intros H P. unfold ap in H. rewrite (Rabs_pos_eq y) in H by exact P. apply Rabs_le_inv in H. lra. Qed.
Lemma rnd_ap k x y : ap k x y -> 0 <= k <= 100 -> y = 0 \/ bp (-1000) <= Rabs y -> ap (k + 2) (rnd x) y.
Proof.
  intros H K [->|Y].
  - unfold ap in *. rewrite Rabs_R0, Rmult_0_r in *. replace x with 0.
    + rewrite rnd_0, Rminus_0_r, Rabs_R0. lra.
    + rewrite Rminus_0_r in H. destruct (Req_dec x 0) as [E|E]; [now rewrite E|]. apply Rabs_pos_lt in E. lra.
  - pose proof u_small as U. unfold ap in *. assert (P : 0 < Rabs y) by (pose proof (bpow_gt_0 radix2 (-1000)); lra).
    assert (KU : 0 <= k * u <= / 1000000000) by (split; [apply Rmult_le_pos; lra|apply Rle_trans with (100 * u); [apply Rmult_le_compat_r; lra|lra]]).
    assert (X1 : Rabs x <= Rabs y + Rabs (x - y)) by (replace x with (y + (x - y)) at 1 by ring; apply Rabs_triang).
    assert (X2 : Rabs y <= Rabs x + Rabs (x - y)) by (rewrite (Rabs_minus_sym x y); replace y with (x + (y - x)) at 1 by ring; apply Rabs_triang).
    assert (X3 : k * u * Rabs y <= / 1000000000 * Rabs y) by (apply Rmult_le_compat_r; lra).
    assert (B : bp (-1022) <= Rabs x).
    { apply Rle_trans with (bp (-1001)); [apply bpow_le; lia|]. replace (bp (-1000)) with (2 * bp (-1001)) in Y; [lra|].
      change 2 with (bp 1). rewrite <- bpow_plus. reflexivity. }
    pose proof (relative_error_N_FLT radix2 (-1074) 53 eq_refl (fun z => negb (Z.even z)) x B) as E. fold (rnd x) in E.
    change (/ 2 * bpow radix2 (- (53) + 1)) with (/ 2 * bpow radix2 (-53 + 1)) in E. rewrite u_eq in E.
    replace (rnd x - y) with ((rnd x - x) + (x - y)) by ring. refine (Rle_trans _ _ _ (Rabs_triang _ _) _).
    assert (X4 : u * Rabs x <= u * (2 * Rabs y)) by (apply Rmult_le_compat_l; lra). nra.
Qed.
Lemma ap_mul k x y c : ap k x y -> 0 <= c -> ap k (x * c) (y * c).
Proof.
  intros H C. unfold ap in *. rewrite <- Rmult_minus_distr_r, !Rabs_mult, (Rabs_pos_eq c) by exact C. rewrite <- Rmult_assoc. now apply Rmult_le_compat_r.
Qed.
Lemma ap_add k q x y : ap k x y -> 0 <= k -> Rabs (q + y) = Rabs q + Rabs y -> ap k (q + x) (q + y).
Proof.
  intros H K S. pose proof u_small. unfold ap in *. replace (q + x - (q + y)) with (x - y) by ring. rewrite S. refine (Rle_trans _ _ _ H _).
  apply Rmult_le_compat_l; [apply Rmult_le_pos; lra|]. pose proof (Rabs_pos q). lra.
Qed.
Lemma ap_big k x y : ap k x y -> 0 <= k <= 100 -> Rabs y <= 1000000000000000000000000 -> Rabs x <= bp 990.
Proof.
  intros H K Y. pose proof u_small as U. unfold ap in H. assert (X1 : Rabs x <= Rabs y + Rabs (x - y)) by (replace x with (y + (x - y)) at 1 by ring; apply Rabs_triang).
  assert (KU : 0 <= k * u <= 1) by (split; [apply Rmult_le_pos; lra|apply Rle_trans with (100 * u); [apply Rmult_le_compat_r; lra|lra]]).
  assert (k * u * Rabs y <= 1 * Rabs y) by (apply Rmult_le_compat_r; [apply Rabs_pos|lra]).
  apply Rle_trans with (bp 90); [|apply bpow_le; lia]. rewrite bp_Z by lia. change (2 ^ 90)%Z with 1237940039285380274899124224%Z. lra.
Qed.
Lemma bp990 : bp 990 <= bp 1000.
Proof. apply bpow_le. lia. Qed.
Lemma nano_exp : bp (-1000) <= / 1000000000.
Proof. apply Rle_trans with (bp (-30)); [apply bpow_le; lia|]. change (bp (-30)) with (/ 1073741824). lra. Qed.

(** ** The two versions of Seconds *)
Section Time.
  Variable d : Z.
  Hypothesis Hd : (- 2 ^ 63 <= d < 2 ^ 63)%Z.
  Let q := Z.quot d 1000000000.
  Let r := Z.rem d 1000000000.
  Lemma qr : d = (1000000000 * q + r)%Z /\ (Z.abs q <= 2 ^ 34)%Z /\ (Z.abs r < 1000000000)%Z /\ ((0 <= q)%Z /\ (0 <= r)%Z \/ (q <= 0)%Z /\ (r <= 0)%Z).
  Proof.
    pose proof (Z.quot_rem d 1000000000 ltac:(lia)) as E. fold q r in E.
    change (2 ^ 63)%Z with 9223372036854775808%Z in Hd. change (2 ^ 34)%Z with 17179869184%Z.
    assert (B : (Z.abs r < Z.abs 1000000000)%Z) by (apply Z.rem_bound_abs; lia).
    assert (S : (0 <= d -> 0 <= r)%Z /\ (d <= 0 -> r <= 0)%Z).
    { unfold r. split; intros; [apply Z.rem_nonneg; lia|apply Z.rem_nonpos; lia]. }
    destruct (Z.le_ge_cases 0 d); repeat split; try lia.
  Qed.
  Lemma dR : IZR d / 1000000000 = IZR q + IZR r / 1000000000.
  Proof. destruct qr as (E & _). rewrite E at 1. rewrite plus_IZR, mult_IZR. lra. Qed.
  Lemma qr_sign : Rabs (IZR q + IZR r / 1000000000) = Rabs (IZR q) + Rabs (IZR r / 1000000000).
  Proof.
    destruct qr as (_ & _ & _ & [[A B]|[A B]]); apply IZR_le in A, B.
    - assert (0 <= IZR r / 1000000000) by lra. rewrite !Rabs_pos_eq; lra.
    - assert (IZR r / 1000000000 <= 0) by lra. rewrite !Rabs_left1; lra.
  Qed.
  Lemma d_tiny : IZR d / 1000000000 = 0 \/ bp (-1000) <= Rabs (IZR d / 1000000000).
  Proof.
    destruct (Z.eq_dec d 0) as [->|N0]; [left; lra|right]. unfold Rdiv. rewrite Rabs_mult, (Rabs_pos_eq (/ _)) by lra. rewrite <- abs_IZR.
    assert (1 <= IZR (Z.abs d)) by (apply IZR_le; lia). pose proof nano_exp. lra.
  Qed.
  Lemma r_tiny : IZR r / 1000000000 = 0 \/ bp (-1000) <= Rabs (IZR r / 1000000000).
  Proof.
    destruct (Z.eq_dec r 0) as [->|N0]; [left; lra|right]. unfold Rdiv. rewrite Rabs_mult, (Rabs_pos_eq (/ _)) by lra. rewrite <- abs_IZR.
    assert (1 <= IZR (Z.abs r)) by (apply IZR_le; lia). pose proof nano_exp. lra.
  Qed.
  Lemma d_big : Rabs (IZR d / 1000000000) <= 10000000000.
  Proof.
    unfold Rdiv. rewrite Rabs_mult, (Rabs_pos_eq (/ _)) by lra. rewrite <- abs_IZR.
    assert (IZR (Z.abs d) <= IZR (2 ^ 63)) by (apply IZR_le; lia). change (2 ^ 63)%Z with 9223372036854775808%Z in *. lra.
  Qed.
  Lemma r_big : Rabs (IZR r / 1000000000) <= 1.
  Proof.
    destruct qr as (_ & _ & B & _). unfold Rdiv. rewrite Rabs_mult, (Rabs_pos_eq (/ _)) by lra. rewrite <- abs_IZR. apply Z.lt_le_incl, IZR_le in B. lra.
  Qed.
  (** From the fraction to the sum. *)
  Lemma seconds_sum y r' k : is y r' -> ap k r' (IZR r / 1000000000) -> 0 <= k <= 50 -> ((0 <= r)%Z -> 0 <= r') ->
    exists x, is (fadd (fofZ q) y) x /\ ap (k + 2) x (IZR d / 1000000000) /\ ((1000000000 <= d)%Z -> 1 <= x).
  Proof.
    intros Iy A K S. destruct qr as (E & B1 & B2 & Sg).
    assert (As : ap k (IZR q + r') (IZR d / 1000000000)) by (rewrite dR; apply ap_add; [exact A|lra|exact qr_sign]).
    exists (rnd (IZR q + r')). split; [|split].
    - apply fadd_s; [apply fofZ_s|exact Iy|].
      + change (2 ^ 34)%Z with 17179869184%Z in B1. change (2 ^ 53)%Z with 9007199254740992%Z. lia.
      + pose proof bp990. pose proof d_big. assert (Rabs (IZR q + r') <= bp 990) by (apply (ap_big k _ _ As); lra). lra.
    - apply rnd_ap; [exact As|lra|exact d_tiny].
    - intros L. replace 1 with (rnd (IZR 1)) by (apply rnd_int; lia). apply rnd_le.
      assert (Q : (1 <= q)%Z) by lia. apply IZR_le in Q. specialize (S ltac:(lia)). lra.
  Qed.
  Lemma bil : is (fofZ 1000000000) 1000000000.
  Proof. apply fofZ_s. lia. Qed.
  Lemma r_is : is (fofZ r) (IZR r).
  Proof. destruct qr as (_ & _ & B & _). apply fofZ_s. change (2 ^ 53)%Z with 9007199254740992%Z. lia. Qed.
  Lemma ap_refl x : ap 0 x x.
  Proof. unfold ap. rewrite Rminus_diag_eq, Rabs_R0 by reflexivity. lra. Qed.
  Lemma seconds_div_ok : exists x, is (seconds_div d) x /\ ap 6 x (IZR d / 1000000000) /\ ((1000000000 <= d)%Z -> 1 <= x).
  Proof.
    unfold seconds_div. fold q r.
    destruct (seconds_sum (fdiv (fofZ r) (fofZ 1000000000)) (rnd (IZR r / 1000000000)) 4) as (x & A & B & C).
    - apply fdiv_s; [apply r_is|apply bil|lra|]. pose proof r_big. pose proof bp990.
      assert (1 <= bp 990) by (change 1 with (bp 0); apply bpow_le; lia). lra.
    - pose proof (rnd_ap 0 _ _ (ap_refl (IZR r / 1000000000)) ltac:(lra) r_tiny) as A. unfold ap in *. refine (Rle_trans _ _ _ A _).
      pose proof u_small. pose proof (Rabs_pos (IZR r / 1000000000)). nra.
    - lra.
    - intros L. apply rnd_pos. apply IZR_le in L. lra.
    - replace (4 + 2) with 6 in B by lra. now exists x.
  Qed.
  Lemma seconds_mul_ok : exists x, is (seconds_mul d) x /\ ap 6 x (IZR d / 1000000000) /\ ((1000000000 <= d)%Z -> 1 <= x).
  Proof.
    unfold seconds_mul. fold q r. set (nano := rnd (1 / 1000000000)).
    assert (b0 : 1 <= bp 990) by (change 1 with (bp 0); apply bpow_le; lia). pose proof bp990 as b1.
    assert (N : is (fdiv (fofZ 1) (fofZ 1000000000)) nano).
    { apply fdiv_s; [apply fofZ_s; lia|apply bil|lra|]. rewrite Rabs_pos_eq; lra. }
    assert (An : ap 2 nano (1 / 1000000000)).
    { replace 2 with (0 + 2) by lra. apply rnd_ap; [apply ap_refl|lra|right]. rewrite Rabs_pos_eq by lra. pose proof nano_exp. lra. }
    assert (Am : ap 2 (IZR r * nano) (IZR r / 1000000000)).
    { unfold ap in *. replace (IZR r * nano - IZR r / 1000000000) with (IZR r * (nano - 1 / 1000000000)) by lra.
      replace (IZR r / 1000000000) with (IZR r * (1 / 1000000000)) by lra. rewrite !Rabs_mult. pose proof (Rabs_pos (IZR r)). nra. }
    destruct (seconds_sum (fmul (fofZ r) (fdiv (fofZ 1) (fofZ 1000000000))) (rnd (IZR r * nano)) 4) as (x & A & B & C).
    - apply fmul_s; [apply r_is|exact N|]. pose proof r_big. assert (Rabs (IZR r * nano) <= bp 990) by (apply (ap_big 2 _ _ Am); lra). lra.
    - replace 4 with (2 + 2) by lra. apply rnd_ap; [exact Am|lra|exact r_tiny].
    - lra.
    - intros L. apply rnd_pos. apply IZR_le in L. apply Rmult_le_pos; [lra|]. apply rnd_pos. lra.
    - replace (4 + 2) with 6 in B by lra. now exists x.
  Qed.
End Time.

(** ** The unit *)
Definition ns (un : string) : R := if String.eqb un "s" then 1000000000 else if String.eqb un "ms" then 1000000 else 1000.
Lemma cvt_ok x0 x d : (- 2 ^ 63 <= d < 2 ^ 63)%Z -> is x0 x -> ap 6 x (IZR d / 1000000000) -> ((1000000000 <= d)%Z -> 1 <= x) ->
  ((d = 1000000)%Z -> snd (cvt x0) = "ms"%string) ->
  finite (fst (cvt x0)) = true /\ ap 10 (val (fst (cvt x0))) (IZR d / ns (snd (cvt x0))) /\
  snd (cvt x0) = (if 1000000000 <=? d then "s" else if 1000000 <=? d then "ms" else "us")%Z%string /\
  ((1000000 <= d)%Z -> 1 <= val (fst (cvt x0))) /\ ((0 <= d < 1000000000)%Z -> 0 <= val (fst (cvt x0)) < 1000).
Proof.
  intros Hd I A S M. pose proof (d_big d Hd) as Bd. pose proof (d_tiny d Hd) as Td. pose proof u_small as U.
  assert (b0 : 1 <= bp 990) by (change 1 with (bp 0); apply bpow_le; lia). pose proof bp990 as b1.
  assert (I1 : is (fofZ 1) 1) by (apply fofZ_s; lia). assert (I1000 : is (fofZ 1000) 1000) by (apply fofZ_s; lia).
  set (y := rnd (x * 1000)). set (z := rnd (y * 1000)).
  assert (T3 : forall c, 1 <= c -> IZR d / 1000000000 * c = 0 \/ bp (-1000) <= Rabs (IZR d / 1000000000 * c)).
  { intros c Hc. destruct Td as [T|T]; [left; rewrite T; lra|right]. rewrite Rabs_mult, (Rabs_pos_eq c) by lra. pose proof (bpow_gt_0 radix2 (-1000)). nra. }
  assert (A1 : ap 6 (x * 1000) (IZR d / 1000000000 * 1000)) by (apply ap_mul; [exact A|lra]).
  assert (Bd1 : Rabs (IZR d / 1000000000 * 1000) <= 10000000000000) by (rewrite Rabs_mult, (Rabs_pos_eq 1000) by lra; lra).
  assert (Bd2 : Rabs (IZR d / 1000000000 * 1000 * 1000) <= 10000000000000000) by (rewrite Rabs_mult, (Rabs_pos_eq 1000) by lra; lra).
  assert (Ay : ap 8 y (IZR d / 1000000000 * 1000)) by (replace 8 with (6 + 2) by lra; apply rnd_ap; [exact A1|lra|apply T3; lra]).
  assert (A2 : ap 8 (y * 1000) (IZR d / 1000000000 * 1000 * 1000)) by (apply ap_mul; [exact Ay|lra]).
  assert (Az : ap 10 z (IZR d / 1000000000 * 1000 * 1000)).
  { replace 10 with (8 + 2) by lra. apply rnd_ap; [exact A2|lra|]. rewrite Rmult_assoc. apply T3. lra. }
  assert (Iy : is (fmul x0 (fofZ 1000)) y).
  { apply fmul_s; [exact I|exact I1000|]. apply Rle_trans with (2 := b1). apply (ap_big 6 _ _ A1); lra. }
  assert (Iz : is (fmul (fmul x0 (fofZ 1000)) (fofZ 1000)) z).
  { apply fmul_s; [exact Iy|exact I1000|]. apply Rle_trans with (2 := b1). apply (ap_big 8 _ _ A2); lra. }
  assert (wk : forall k a b, 0 <= k <= 10 -> ap k a b -> ap 10 a b).
  { intros k a b K H. unfold ap in *. refine (Rle_trans _ _ _ H _). apply Rmult_le_compat_r; [apply Rabs_pos|]. apply Rmult_le_compat_r; lra. }
  assert (neg : forall k a b, 0 <= k <= 10 -> ap k a b -> b <= 0 -> a <= 0).
  { intros k a b K H L. unfold ap in H. rewrite (Rabs_left1 b) in H by exact L. apply Rabs_le_inv in H. assert (k * u <= 1) by nra. nra. }
  assert (Xlt : (d < 1000000000)%Z -> x < 1).
  { intros L. destruct (Z.le_gt_cases 0 d) as [P|P].
    - assert (0 <= IZR d <= 999999999) by (split; apply IZR_le; lia). destruct (ap_bounds _ _ _ A ltac:(lra)). nra.
    - apply IZR_lt in P. pose proof (neg 6 _ _ ltac:(lra) A ltac:(lra)). lra. }
  assert (Ylt : (d < 1000000)%Z -> y < 1).
  { intros L. destruct (Z.le_gt_cases 0 d) as [P|P].
    - assert (0 <= IZR d <= 999999) by (split; apply IZR_le; lia). destruct (ap_bounds _ _ _ Ay ltac:(lra)). nra.
    - apply IZR_lt in P. pose proof (neg 8 _ _ ltac:(lra) Ay ltac:(lra)). lra. }
  assert (Yge : (1000000 < d)%Z -> 1 <= y).
  { intros L. assert (1000001 <= IZR d) by (apply IZR_le; lia). destruct (ap_bounds _ _ _ Ay ltac:(lra)). nra. }
  unfold cvt in *. rewrite (fltb_ok _ _ _ _ I I1) in *. rewrite (fltb_ok _ _ _ _ Iy I1) in *.
  destruct (Z.leb_spec 1000000000 d) as [L1|L1].
  - specialize (S L1). rewrite Rlt_bool_false by exact S. cbn [fst snd]. destruct I as [F V]. split; [exact F|]. rewrite V. unfold ns. cbn [String.eqb Ascii.eqb Bool.eqb].
    split; [apply (wk 6); [lra|exact A]|]. split; [reflexivity|]. split; [intros _; exact S|lia].
  - specialize (Xlt L1). rewrite Rlt_bool_true in * by exact Xlt. destruct (Z.leb_spec 1000000 d) as [L2|L2].
    + assert (Y1 : 1 <= y).
      { destruct (Z.eq_dec d 1000000) as [E|E]; [|apply Yge; lia]. specialize (M E).
        destruct (Rlt_bool_spec y 1) as [C|C]; [cbn [snd] in M; discriminate|exact C]. }
      rewrite Rlt_bool_false by exact Y1. cbn [fst snd]. destruct Iy as [F V]. split; [exact F|]. rewrite V. unfold ns. cbn [String.eqb Ascii.eqb Bool.eqb].
      split; [apply (wk 8); [lra|]; now replace (IZR d / 1000000) with (IZR d / 1000000000 * 1000) by lra|]. split; [reflexivity|]. split; [intros _; exact Y1|].
      intros _. split; [lra|]. assert (0 <= IZR d <= 999999999) by (split; apply IZR_le; lia). destruct (ap_bounds _ _ _ Ay ltac:(lra)). nra.
    + specialize (Ylt L2). rewrite Rlt_bool_true by exact Ylt. cbn [fst snd]. destruct Iz as [F V]. split; [exact F|]. rewrite V. unfold ns. cbn [String.eqb Ascii.eqb Bool.eqb].
      split; [now replace (IZR d / 1000) with (IZR d / 1000000000 * 1000 * 1000) by lra|]. split; [reflexivity|]. split; [lia|].
      intros [P _]. assert (0 <= IZR d <= 999999) by (split; apply IZR_le; lia). destruct (ap_bounds _ _ _ Az ltac:(lra)). nra.
Qed.
