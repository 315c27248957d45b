(** Proofs about package keccakpg: the permutation. *)
From Coq Require Import Btauto.
From Verif Require Import Words WordLemmas ListLemmas Mem SLP Bij Mm3Spec Mm3Proofs KeccakModel KeccakSpec.
Open Scope N_scope.

Definition state_ok : list N -> Prop := regs_ok 64 25.
Ltac explode n v := match n with O => destruct v; [|discriminate] | S ?m => destruct v as [|? v]; [discriminate|]; explode m v end.
Ltac inv_forall :=
  repeat match goal with H : Forall _ (_ :: _) |- _ => inversion H; clear H; subst end;
  repeat match goal with H : Forall _ [] |- _ => clear H end.
Lemma rol64 x k : fits 64 x -> k <= 64 -> rol 64 x k = rotl64 x k.
Proof. apply rol_rotl. Qed.
Lemma rol64_0 x : fits 64 x -> rol 64 x 0 = x.
Proof.
  intros H. unfold rol. rewrite N.mul_1_r. change (2 ^ (64 - 0)) with (2 ^ 64). rewrite N.mod_small, N.div_small by exact H. apply N.add_0_r.
Qed.
Lemma not64_xor x : fits 64 x -> not64 x = xor x ones64.
Proof.
  intros H. unfold xor. change ones64 with (N.ones 64). change (N.lxor x (N.ones 64)) with (N.lnot x 64).
  unfold not64. change (2 ^ 64 - 1) with (N.ones 64).
  destruct (N.eq_dec x 0) as [->|Hx]; [reflexivity|].
  rewrite <- N.add_lnot_diag_low with (n := 64) (a := x).
  - rewrite N.add_comm. apply N.add_sub.
  - apply N.log2_lt_pow2; [lia|exact H].
Qed.
Ltac fitx := repeat (apply xor_fits || apply xor_fits' || apply land_fits_r || apply rotlw_fits); assumption || (apply fits_0) || idtac.

Ltac all_fit :=
  match goal with |- Forall (fits 64) ?x =>
    let y := eval cbv -[rotl64 N.lxor N.land ones64] in x in change (Forall (fits 64) y) end;
  repeat (apply Forall_cons; [fitx|]); apply Forall_nil.
Lemma Theta_ok s : state_ok s -> Theta s = theta s /\ state_ok (theta s).
Proof.
  intros [L F]. explode 25%nat s. inv_forall. unfold state_ok, regs_ok.
  assert (R : forall x, fits 64 x -> rol 64 x 1 = rotl64 x 1) by (intros; now apply rol64).
  split.
  - cbv -[rol rotl64 N.lxor fits]. rewrite !R by fitx. rewrite !N.lxor_assoc. reflexivity.
  - split; [reflexivity|]. all_fit.
Qed.
Lemma RhoPi_ok s : state_ok s -> Pi (Rho s) = rhopi s /\ state_ok (rhopi s).
Proof.
  intros [L F]. explode 25%nat s. inv_forall. unfold state_ok, regs_ok.
  split.
  - cbv -[rol rotl64 fits]. rewrite !rol64_0, !rol64 by (assumption || discriminate). reflexivity.
  - split; [reflexivity|]. all_fit.
Qed.
Lemma ones64_fits : fits 64 ones64. Proof. reflexivity. Qed.
Lemma Chi_ok s : state_ok s -> Chi s = chi s /\ state_ok (chi s).
Proof.
  intros [L F]. explode 25%nat s. inv_forall. unfold state_ok, regs_ok.
  split.
  - cbv -[N.lxor N.land not64 ones64 fits]. rewrite !not64_xor by assumption. unfold xor. reflexivity.
  - split; [reflexivity|]. all_fit.
Qed.
Lemma RC_table i : (i < 24)%nat -> RC i = nth i roundConstants 0 /\ fits 64 (nth i roundConstants 0).
Proof. intros Hi. do 24 (destruct i as [|i]; [vm_compute; auto|]). lia. Qed.
Lemma Iota_ok i s : (i < 24)%nat -> state_ok s -> Iota i s = iota (nth i roundConstants 0) s /\ state_ok (iota (nth i roundConstants 0) s).
Proof.
  intros Hi [L F].
  pose proof (RC_table i Hi) as [HR HF].
  unfold Iota. rewrite HR. clear HR. revert HF. generalize (nth i roundConstants 0). intros c HF.
  explode 25%nat s. inv_forall. unfold state_ok, regs_ok. split.
  - cbv -[N.lxor]. reflexivity.
  - split; [reflexivity|]. all_fit.
Qed.
Definition round_ (i : nat) (s : list N) : list N := iota (nth i roundConstants 0) (chi (rhopi (theta s))).
Lemma Round_ok i s : (i < 24)%nat -> state_ok s -> Round s i = round_ i s /\ state_ok (round_ i s).
Proof.
  intros Hi H. unfold Round, round_. destruct (Theta_ok s H) as [-> H1]. destruct (RhoPi_ok _ H1) as [-> H2].
  destruct (Chi_ok _ H2) as [-> H3]. now apply Iota_ok.
Qed.
Lemma rounds_loop_S n r s : rounds_loop (S n) r s = (c <~ idx roundConstants r ;; rounds_loop n (S r) (iota c (chi (rhopi (theta s))))).
Proof. reflexivity. Qed.
Global Opaque theta rhopi chi iota Theta Rho Pi Chi Iota.
Lemma rounds_loop_ok n : forall r s, (r + n <= 24)%nat -> state_ok s ->
  rounds_loop n r s = Ok (fold_left Round (seq r n) s) /\ state_ok (fold_left Round (seq r n) s).
Proof.
  induction n as [|n IH]; intros r s Hr Hs; [split; [reflexivity|assumption]|]. cbn [seq fold_left]. rewrite rounds_loop_S, idx_ok by (cbn; lia). cbn [rbind]. destruct (Round_ok r s ltac:(lia) Hs) as [E H]. rewrite E. unfold round_ in *. apply IH; [lia|assumption].
Qed.
Lemma rounds_loop_panics n : forall r s, (24 < r + n)%nat -> (r <= 24)%nat -> rounds_loop n r s = Panics.
Proof.
  induction n as [|n IH]; intros r s Hr Hle; [lia|]. cbn [rounds_loop].
  destruct (Nat.eq_dec r 24) as [->|Hn]; [reflexivity|]. rewrite idx_ok by (cbn; lia). cbn [rbind]. apply IH; lia.
Qed.
