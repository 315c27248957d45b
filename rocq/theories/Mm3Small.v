(** MurmurHash3_x86_32 gives all keys of at most three bytes different values. *)
From Coq Require Import NArith ZArith List Arith Lia.
From Verif Require Import Words WordLemmas Bij Mm3Spec Mm3Model Mm3Proofs.
Import ListNotations.
Open Scope N_scope.

Lemma solve_mult (c i m z w k : Z) : (c * i = 1 + 2 ^ 32 * m)%Z -> (c * z = w + 2 ^ 32 * k)%Z -> exists t, (z = i * w + 2 ^ 32 * t)%Z.
Proof.
  intros I E. exists (i * k - m * z)%Z. assert (Q : (i * (c * z) = i * (w + 2 ^ 32 * k))%Z) by now rewrite E.
  replace (i * (c * z))%Z with ((c * i) * z)%Z in Q by ring. rewrite I in Q. lia.
Qed.
Lemma mod32_Z x : exists k, Z.of_N (x mod 2 ^ 32) = (Z.of_N x - 2 ^ 32 * k)%Z.
Proof.
  exists (Z.of_N (x / 2 ^ 32)). pose proof (N.div_mod x (2 ^ 32) ltac:(discriminate)) as D. apply (f_equal Z.of_N) in D.
  rewrite N2Z.inj_add, N2Z.inj_mul in D. change (Z.of_N (2 ^ 32)) with (2 ^ 32)%Z in D. lia.
Qed.
(** The two halves of a word before and after the rotation by 15. *)
Lemma rol15 p : p < 2 ^ 32 -> exists hi lo, p = hi * 2 ^ 17 + lo /\ rol 32 p 15 = lo * 2 ^ 15 + hi /\ hi < 2 ^ 15 /\ lo < 2 ^ 17.
Proof.
  intros H. exists (p / 2 ^ 17), (p mod 2 ^ 17).
  pose proof (N.div_mod p (2 ^ 17) ltac:(discriminate)) as D. pose proof (N.mod_lt p (2 ^ 17) ltac:(discriminate)) as L.
  assert (U : p / 2 ^ 17 < 2 ^ 15) by (apply N.div_lt_upper_bound; [discriminate|exact H]).
  split; [lia|]. split; [|auto]. unfold rol. change (32 - 15) with 17. f_equal.
  change (2 ^ 32) with (2 ^ 17 * 2 ^ 15). rewrite N.mul_mod_distr_r by discriminate. reflexivity.
Qed.
Lemma spec32_k_apart x y d : x < 2 ^ 24 -> y < 2 ^ 24 -> In d [1; 2; 3] -> spec32_k x <> spec32_k y + d.
Proof.
  intros Hx Hy Hd E. unfold spec32_k in E.
  set (p := (x * 3432918353) mod 2 ^ 32) in *. set (q := (y * 3432918353) mod 2 ^ 32) in *.
  assert (Lp : p < 2 ^ 32) by (apply N.mod_lt; discriminate). assert (Lq : q < 2 ^ 32) by (apply N.mod_lt; discriminate).
  destruct (rol15 p Lp) as (ph & pl & Ep & Er & B1 & B2). destruct (rol15 q Lq) as (qh & ql & Eq & Es & B3 & B4).
  rewrite Er, Es in E. clear Er Es.
  destruct (mod32_Z ((pl * 2 ^ 15 + ph) * 461845907)) as (k1 & K1). destruct (mod32_Z ((ql * 2 ^ 15 + qh) * 461845907)) as (k2 & K2).
  apply (f_equal Z.of_N) in E. rewrite N2Z.inj_add, K1, K2, !N2Z.inj_mul in E. clear K1 K2.
  set (A := (Z.of_N (pl * 2 ^ 15 + ph) - Z.of_N (ql * 2 ^ 15 + qh))%Z).
  destruct (solve_mult 461845907 1458385051 156822886 A (Z.of_N d) (k1 - k2)) as (t & T); [reflexivity|unfold A; lia|].
  destruct (mod32_Z (x * 3432918353)) as (k3 & K3). destruct (mod32_Z (y * 3432918353)) as (k4 & K4). fold p in K3. fold q in K4.
  rewrite N2Z.inj_mul in K3, K4. change (Z.of_N 3432918353) with 3432918353%Z in K3, K4.
  destruct (solve_mult 3432918353 3739302833 2988782088 (Z.of_N x - Z.of_N y) (Z.of_N p - Z.of_N q) (k3 - k4)) as (r & R).
  { reflexivity. }
  { rewrite K3, K4. lia. }
  assert (C : forall v, In v [1; 2; 3]%Z -> Z.of_N d = v -> False).
  { intros v Hv Ev. rewrite Ev in T.
    assert (Px : (- 2 ^ 24 < Z.of_N x - Z.of_N y < 2 ^ 24)%Z) by (clear - Hx Hy; change (2 ^ 24) with 16777216 in *; lia).
    assert (P : (Z.of_N p - Z.of_N q = (Z.of_N ph - Z.of_N qh) * 131072 + (Z.of_N pl - Z.of_N ql))%Z) by (rewrite Ep, Eq; change (2 ^ 17) with 131072; lia).
    assert (Q : A = ((Z.of_N pl - Z.of_N ql) * 32768 + (Z.of_N ph - Z.of_N qh))%Z) by (unfold A; change (2 ^ 15) with 32768; lia).
    set (h := (Z.of_N ph - Z.of_N qh)%Z) in *. set (l := (Z.of_N pl - Z.of_N ql)%Z) in *.
    assert (Bh : (-32768 < h < 32768)%Z) by (unfold h; change (2 ^ 15) with 32768 in *; lia).
    assert (Bl : (-131072 < l < 131072)%Z) by (unfold l; change (2 ^ 17) with 131072 in *; lia).
    rewrite P in R. rewrite Q in T. set (z := (Z.of_N x - Z.of_N y)%Z) in *. clearbody h l z. change (2 ^ 32)%Z with 4294967296%Z in *. change (2 ^ 24)%Z with 16777216%Z in *.
    clear - Hv Px Bh Bl T R. cbn [In] in Hv. destruct Hv as [<-|[<-|[<-|[]]]]; lia. }
  cbn [In] in Hd. destruct Hd as [<-|[<-|[<-|[]]]]; [apply (C 1%Z)|apply (C 2%Z)|apply (C 3%Z)]; cbn [In]; auto.
Qed.
Lemma near_xor a b m n : m < 4 -> n < 4 -> N.lxor a m = N.lxor b n -> a / 4 = b / 4.
Proof.
  intros Hm Hn E. apply (f_equal (fun x => N.shiftr x 2)) in E. rewrite !N.shiftr_lxor in E.
  assert (Z : forall z, z < 4 -> N.shiftr z 2 = 0) by (intros z Hz; rewrite N.shiftr_div_pow2; now apply N.div_small).
  rewrite (Z m Hm), (Z n Hn), !N.lxor_0_r, !N.shiftr_div_pow2 in E. exact E.
Qed.
Lemma short32 k : (length k <= 3)%nat -> murmur3_x86_32 k = spec32_fmix (N.lxor (spec32_k (le_int (pad0 4 k))) (N.of_nat (length k))).
Proof. intros L. destruct k as [|a [|b [|c [|]]]]; try (cbn in L; lia); reflexivity. Qed.
Lemma pad_small k : bytes_ok k -> (length k <= 3)%nat -> le_int (pad0 4 k) < 2 ^ 24 /\ le_int (pad0 4 k) = le_int k.
Proof.
  intros B L. change (2 ^ 24) with 16777216.
  destruct k as [|a [|b [|c [|]]]]; try (cbn in L; lia); unfold pad0; cbn [app length Nat.sub repeat le_int];
    repeat (apply Forall_cons_iff in B; let H := fresh in destruct B as [H B]); unfold byte_ok in *; lia.
Qed.
Lemma mm_small_inj k k' : bytes_ok k -> bytes_ok k' -> (length k <= 3)%nat -> (length k' <= 3)%nat ->
  murmur3_x86_32 k = murmur3_x86_32 k' -> k = k'.
Proof.
  intros B B' L L' E. rewrite !short32 in E by assumption.
  destruct (pad_small k B L) as [P Q]. destruct (pad_small k' B' L') as [P' Q'].
  set (x := le_int (pad0 4 k)) in *. set (y := le_int (pad0 4 k')) in *.
  assert (F : forall z, fits 32 (spec32_k z)) by (intros z; apply N.mod_lt; discriminate).
  assert (F3 : forall n, (n <= 3)%nat -> fits 32 (N.of_nat n)) by (intros n Hn; unfold fits; change (2 ^ 32) with 4294967296; lia).
  rewrite !spec32_fmix_eq in E. apply (bij_inj _ _ mm32_fmix_bij) in E; [|apply xor_fits'; auto..].
  assert (S : forall n, (n <= 3)%nat -> N.of_nat n < 4) by (intros; lia).
  pose proof (near_xor _ _ _ _ (S _ L) (S _ L') E) as D.
  assert (N0 : forall a b, a < 2 ^ 24 -> b < 2 ^ 24 -> spec32_k a / 4 = spec32_k b / 4 -> ~ spec32_k b < spec32_k a).
  { intros a b Ha Hb W G. pose proof (N.div_mod (spec32_k a) 4 ltac:(discriminate)) as D1. pose proof (N.div_mod (spec32_k b) 4 ltac:(discriminate)) as D2.
    pose proof (N.mod_lt (spec32_k a) 4 ltac:(discriminate)). pose proof (N.mod_lt (spec32_k b) 4 ltac:(discriminate)).
    apply (spec32_k_apart a b (spec32_k a - spec32_k b) Ha Hb); [|lia]. cbn [In].
    assert (Hd : spec32_k a - spec32_k b = 1 \/ spec32_k a - spec32_k b = 2 \/ spec32_k a - spec32_k b = 3).
    { rewrite W in D1. revert D1 D2 H H0 G. generalize (spec32_k a) (spec32_k b) (spec32_k b / 4) (spec32_k a mod 4) (spec32_k b mod 4). clear. intros. lia. }
    intuition. }
  assert (K : spec32_k x = spec32_k y).
  { pose proof (N0 x y P P' D). pose proof (N0 y x P' P (eq_sym D)). lia. }
  rewrite K in E. apply xor_inj_l in E. rewrite !spec32_k_eq in K. apply (bij_inj _ _ mm32_k1_bij) in K;
    [|unfold fits; change (2 ^ 24) with 16777216 in *; change (2 ^ 32) with 4294967296; lia..].
  rewrite Q, Q', !le_int_load in K by assumption. apply le_load_inj in K; auto. lia.
Qed.
