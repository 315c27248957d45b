(** The elementary steps of mixers as bijections of machine words (no model content). *)
From Coq Require Import NArith Arith Lia List.
From Verif Require Import Words WordLemmas Bij.
Open Scope N_scope.

Lemma odd_inverse_gen c : N.odd c = true -> forall n : nat, exists d, (c * d) mod 2 ^ N.of_nat n = 1 mod 2 ^ N.of_nat n.
Proof.
  intros Hc. induction n as [|n [d IH]].
  - exists 0. now rewrite !N.mod_1_r.
  - set (P := 2 ^ N.of_nat n) in *. assert (HP : P <> 0) by apply pow2_nz.
    rewrite Nat2N.inj_succ, N.pow_succ_r'. fold P.
    destruct (N.eq_dec P 1) as [E|E].
    { rewrite E in *. exists 1. rewrite N.mul_1_r. change (2 * 1) with 2.
      rewrite <- N.bit0_mod. rewrite N.bit0_odd, Hc. reflexivity. }
    assert (P1 : 1 < P) by lia.
    rewrite (N.mod_small 1 P) in IH by lia. rewrite (N.mod_small 1 (2 * P)) by lia.
    pose proof (N.div_mod (c * d) P HP) as D. rewrite IH in D. set (k := c * d / P) in *.
    exists (d + k * P). apply N.odd_spec in Hc as [j Hj].
    replace (c * (d + k * P)) with (1 + (k * (j + 1)) * (2 * P)).
    + rewrite N.mod_add by lia. apply N.mod_small. lia.
    + rewrite (N.mul_add_distr_l c d), D, Hj. ring.
Qed.
Lemma odd_inverse w c : N.odd c = true -> 0 < w -> exists d, mulw w c d = 1.
Proof.
  intros H Hw. destruct (odd_inverse_gen c H (N.to_nat w)) as [d Hd]. rewrite N2Nat.id in Hd.
  exists d. rewrite mulw_mod, Hd. apply N.mod_small. apply N.pow_gt_1; lia.
Qed.
Lemma bij_mul w c : N.odd c = true -> 0 < w -> bijection_on (fits w) (fun x => mulw w x c).
Proof.
  intros H Hw. destruct (odd_inverse w c H Hw) as [d Hd].
  apply (bij_inverse (fits w) _ (fun x => mulw w x d)); intros; auto using mulw_fits, mulw_inv.
  apply mulw_inv; auto. now rewrite mulw_comm.
Qed.
Lemma bij_mul_l w c : N.odd c = true -> 0 < w -> bijection_on (fits w) (fun x => mulw w c x).
Proof. intros H Hw. apply (bij_ext _ (fun x => mulw w x c)); [intros; apply mulw_comm|now apply bij_mul]. Qed.
Lemma bij_xor w c : fits w c -> bijection_on (fits w) (fun x => xor x c).
Proof. intros H. apply bij_involution; intros; [now apply xor_fits|apply xor_cancel]. Qed.
Lemma bij_xor_l w c : fits w c -> bijection_on (fits w) (fun x => xor c x).
Proof. intros H. apply bij_involution; intros; [now apply xor_fits|apply xor_cancel']. Qed.
Lemma bij_add w c : bijection_on (fits w) (fun x => addw w x c).
Proof.
  apply (bij_inverse (fits w) _ (fun x => subw w x c)); intros; auto using addw_fits, subw_fits, sub_add_w, add_sub_w.
Qed.
Lemma bij_add_l w c : bijection_on (fits w) (fun x => addw w c x).
Proof. apply (bij_ext _ (fun x => addw w x c)); [intros; apply addw_comm|apply bij_add]. Qed.
Lemma bij_sub w c : bijection_on (fits w) (fun x => subw w x c).
Proof.
  apply (bij_inverse (fits w) _ (fun x => addw w x c)); intros; auto using addw_fits, subw_fits, sub_add_w, add_sub_w.
Qed.
Lemma bij_rotr w k : k <= w -> bijection_on (fits w) (fun x => rotrw w x k).
Proof.
  intros H. apply (bij_inverse (fits w) _ (fun x => rotlw w x k)); intros; auto using rotrw_fits, rotlw_fits, rotl_rotr, rotr_rotl.
Qed.
Lemma bij_rotl w k : k <= w -> bijection_on (fits w) (fun x => rotlw w x k).
Proof.
  intros H. apply (bij_inverse (fits w) _ (fun x => rotrw w x k)); intros; auto using rotrw_fits, rotlw_fits, rotl_rotr, rotr_rotl.
Qed.
Lemma bij_xsr w k : 0 < k -> bijection_on (fits w) (fun x => xor x (shr x k)).
Proof.
  intros H. apply (bij_inverse (fits w) _ (unxsr (N.to_nat w) k)); intros.
  - apply xor_fits; auto using shr_fits.
  - now apply unxsr_fits.
  - apply (unxsr_left w); auto. rewrite N2Nat.id. nia.
  - apply (unxsr_right w); auto. rewrite N2Nat.id. nia.
Qed.
(** A function obtained from another by permuting arguments beforehand and results
    afterwards. *)
Lemma bij_inj_iff {A} (P : A -> Prop) f x y : bijection_on P f -> P x -> P y -> (f x = f y <-> x = y).
Proof. intros H Hx Hy. split; [now apply (bij_inj P f H)|congruence]. Qed.
