(** Proofs about package keccak: the unrolled rounds on complemented lanes. *)
From Coq Require Import Btauto.
From Verif Require Import Words WordLemmas ListLemmas Mem SLP Bij Mm3Spec Mm3Proofs KeccakModel KeccakSpec KeccakProofs KeccakProofs2 CkProg.
Open Scope N_scope.
Local Transparent theta rhopi chi iota.

(** Complementing the lanes of a set. *)
Definition flipl (m : list nat) (s : list N) : list N :=
  map (fun i => if existsb (Nat.eqb i) m then xor (nth i s 0) ones64 else nth i s 0) (seq 0 25).
Definition lanesA : list nat := [1; 2; 8; 12; 17; 20]%nat.
Definition lanesB : list nat := [0; 2; 3; 5; 7; 10; 12; 16; 18; 19; 20; 23]%nat.

Lemma rolx x k : fits 64 x -> k <= 64 -> N.lxor (shl64 x k) (shr x (64 - k)) = rotl64 x k.
Proof.
  intros Hx Hk. apply N.bits_inj. intro i. rewrite N.lxor_spec. unfold rotl64. rewrite N.lor_spec.
  assert (N.testbit (shl64 x k) i = false \/ N.testbit (shr x (64 - k)) i = false) as [-> | ->].
  { destruct (N.ltb_spec i k).
    - left. unfold shl64, shlw, wrap. rewrite N.land_spec, N.shiftl_spec_low by assumption. reflexivity.
    - right. unfold shr. rewrite N.shiftr_spec by lia. apply (fits_high 64); [assumption|lia]. }
  - destruct (N.testbit (shr x (64 - k)) i); reflexivity.
  - destruct (N.testbit (shl64 x k) i); reflexivity.
Qed.

(** What the macro computes from the lanes [s] and the column parities [P]. *)
Definition thetaB (s P : list N) : list N := rhopi (addD s P).
Definition chiE (c : N) (B : list N) : list N :=
  let b := get B in let n x := xor x ones64 in
  [xor (xor (b 0%nat) (N.lor (b 1%nat) (b 2%nat))) c; xor (b 1%nat) (N.lor (n (b 2%nat)) (b 3%nat)); xor (b 2%nat) (N.land (b 3%nat) (b 4%nat));
   xor (b 3%nat) (N.lor (b 4%nat) (b 0%nat)); xor (b 4%nat) (N.land (b 0%nat) (b 1%nat));
   xor (b 5%nat) (N.lor (b 6%nat) (b 7%nat)); xor (b 6%nat) (N.land (b 7%nat) (b 8%nat)); xor (b 7%nat) (N.lor (b 8%nat) (n (b 9%nat)));
   xor (b 8%nat) (N.lor (b 9%nat) (b 5%nat)); xor (b 9%nat) (N.land (b 5%nat) (b 6%nat));
   xor (b 10%nat) (N.lor (b 11%nat) (b 12%nat)); xor (b 11%nat) (N.land (b 12%nat) (b 13%nat)); xor (b 12%nat) (N.land (n (b 13%nat)) (b 14%nat));
   xor (n (b 13%nat)) (N.lor (b 14%nat) (b 10%nat)); xor (b 14%nat) (N.land (b 10%nat) (b 11%nat));
   xor (b 15%nat) (N.land (b 16%nat) (b 17%nat)); xor (b 16%nat) (N.lor (b 17%nat) (b 18%nat)); xor (b 17%nat) (N.lor (n (b 18%nat)) (b 19%nat));
   xor (n (b 18%nat)) (N.land (b 19%nat) (b 15%nat)); xor (b 19%nat) (N.lor (b 15%nat) (b 16%nat));
   xor (b 20%nat) (N.land (n (b 21%nat)) (b 22%nat)); xor (n (b 21%nat)) (N.lor (b 22%nat) (b 23%nat)); xor (b 22%nat) (N.land (b 23%nat) (b 24%nat));
   xor (b 23%nat) (N.lor (b 24%nat) (b 20%nat)); xor (b 24%nat) (N.land (b 20%nat) (b 21%nat))].

Lemma chiE_ok c b : fits 64 c -> state_ok b -> chiE c (flipl lanesB b) = flipl lanesA (iota c (chi b)).
Proof.
  intros Hc [L F]. explode 25%nat b. inv_forall. cbv -[N.lxor N.land N.lor ones64 fits].
  repeat (apply f_equal2; [
    apply N.bits_inj; let i := fresh "i" in intro i;
    rewrite ?N.lxor_spec, ?N.land_spec, ?N.lor_spec, ?N.lxor_spec, ?N.land_spec, ?N.lor_spec, ?N.lxor_spec, ?ones_bit;
    destruct (N.ltb_spec i 64);
    [repeat match goal with |- context [N.testbit ?x i] => destruct (N.testbit x i) end; reflexivity
    |rewrite ?(fun x H => fits_high 64 x i H) by assumption; reflexivity]|]).
  reflexivity.
Qed.
Lemma rot_ones k : k <= 64 -> rotl64 ones64 k = ones64.
Proof.
  intros Hk. apply N.bits_inj. intro i. change rotl64 with (rotlw 64). rewrite rotlw_testbit by (auto using ones64_fits). rewrite !ones_bit.
  destruct (N.ltb_spec i 64); cbn [andb]; [|reflexivity].
  destruct (N.leb_spec k i); apply N.ltb_lt; lia.
Qed.
Lemma rot_not x k : fits 64 x -> k <= 64 -> rotl64 (N.lxor x ones64) k = N.lxor (rotl64 x k) ones64.
Proof. intros Hx Hk. rewrite rot_xor by (assumption || apply ones64_fits). now rewrite rot_ones. Qed.
Lemma not_l a b : N.lxor (N.lxor a ones64) b = N.lxor (N.lxor a b) ones64.
Proof. rewrite !N.lxor_assoc. f_equal. apply N.lxor_comm. Qed.
Lemma not_r a b : N.lxor a (N.lxor b ones64) = N.lxor (N.lxor a b) ones64.
Proof. now rewrite N.lxor_assoc. Qed.
Lemma not_not a : N.lxor (N.lxor a ones64) ones64 = a.
Proof. rewrite N.lxor_assoc, N.lxor_nilpotent. apply N.lxor_0_r. Qed.

Ltac push_not := repeat (rewrite not_not || rewrite not_l || rewrite not_r).
Definition parA : list nat := [0; 1; 2; 3]%nat.
Lemma par_flip s : length s = 25%nat -> par (flipl lanesA s) = map (fun i => if existsb (Nat.eqb i) parA then xor (get (par s) i) ones64 else get (par s) i) (seq 0 5).
Proof.
  intros L. explode 25%nat s. cbv -[N.lxor ones64].
  repeat (apply f_equal2; [push_not; reflexivity|]). reflexivity.
Qed.
Lemma thetaB_ok s : state_ok s -> thetaB (flipl lanesA s) (par (flipl lanesA s)) = flipl lanesB (rhopi (theta s)).
Proof.
  intros Hs. pose proof (par_ok s Hs) as [Lp Fp]. destruct Hs as [L F]. rewrite theta_addD by assumption. rewrite par_flip by assumption. revert Lp Fp. generalize (par s). intros p Lp Fp.
  explode 25%nat s. explode 5%nat p. inv_forall. unfold thetaB.
  cbv -[N.lxor rotl64 ones64 fits].
  repeat (apply f_equal2; [repeat rewrite (fun x H => rot_not x 1 H) by (assumption || discriminate); push_not; rewrite ?rot_not by (fitx || discriminate); reflexivity|]). reflexivity.
Qed.

(** One round of the macro: lanes at [a], result at [e]. *)
Definition block (i : nat) (st : list N) : list N := firstn 25 (skipn i st).
Definition cols (st : list N) : list N := firstn 5 (skipn 50 st).
Lemma rolx' x k j : fits 64 x -> k + j = 64 -> N.lxor (shlw 64 x k) (shr x j) = rotl64 x k.
Proof. intros Hx Hk. replace j with (64 - k) by lia. apply rolx; [assumption|lia]. Qed.
Lemma notw_xor x : notw 64 x = N.lxor x ones64.
Proof. reflexivity. Qed.
Ltac round_eq :=
  cbv -[N.lxor N.lor N.land rotl64 shlw shr notw ones64 fits];
  repeat rewrite (fun x H => rolx' x 1 63 H) by (assumption || reflexivity);
  repeat rewrite rolx' by (fitx || reflexivity);
  rewrite ?notw_xor.
Lemma round_AE c st : regs_ok 64 85 st -> fits 64 c ->
  block 25 (exec 64 (thetaRhoPiChiIotaPrepareTheta c 0 25) st) = chiE c (thetaB (block 0 st) (cols st)) /\
  cols (exec 64 (thetaRhoPiChiIotaPrepareTheta c 0 25) st) = par (chiE c (thetaB (block 0 st) (cols st))).
Proof.
  intros [L F] Hc. explode 85%nat st. inv_forall. round_eq.
  split; reflexivity.
Qed.
Lemma round_EA c st : regs_ok 64 85 st -> fits 64 c ->
  block 0 (exec 64 (thetaRhoPiChiIotaPrepareTheta c 25 0) st) = chiE c (thetaB (block 25 st) (cols st)) /\
  cols (exec 64 (thetaRhoPiChiIotaPrepareTheta c 25 0) st) = par (chiE c (thetaB (block 25 st) (cols st))).
Proof. intros [L F] Hc. explode 85%nat st. inv_forall. round_eq. split; reflexivity. Qed.
Lemma round_last c st : regs_ok 64 85 st -> fits 64 c ->
  block 0 (exec 64 (thetaRhoPiChiIota c 25 0) st) = chiE c (thetaB (block 25 st) (cols st)).
Proof. intros [L F] Hc. explode 85%nat st. inv_forall. round_eq. reflexivity. Qed.
Lemma prepare_ok st : length st = 85%nat -> cols (exec 64 prepareTheta st) = par (block 0 st) /\ block 0 (exec 64 prepareTheta st) = block 0 st.
Proof. intros L. explode 85%nat st. split; reflexivity. Qed.

(** Registers stay words. *)
Definition asg_ok (n : nat) (a : asg) : bool := match a with Set_ d e => (Nat.ltb d n && consts_ok 64 e)%bool end.
Lemma exec_regs n p : forall st, forallb (asg_ok n) p = true -> regs_ok 64 n st -> regs_ok 64 n (exec 64 p st).
Proof.
  induction p as [|[d e] p IH]; intros st H Hs; [exact Hs|]. cbn [forallb asg_ok] in H.
  apply andb_prop in H. destruct H as [H H3]. apply andb_prop in H. destruct H as [H1 H2]. apply Nat.ltb_lt in H1.
  cbn [exec fold_left]. apply (IH (step 64 st (Set_ d e)) H3). destruct Hs as [L F]. cbn [step]. split; [now rewrite upd_length|].
  apply upd_Forall; [assumption|]. now apply eval_fits.
Qed.
Lemma fitsb_true c : fits 64 c -> fitsb 64 c = true.
Proof. intros H. unfold fitsb. now apply N.ltb_lt. Qed.
Lemma regs_round c a e st : ((a = 0 /\ e = 25) \/ (a = 25 /\ e = 0))%nat -> fits 64 c -> regs_ok 64 85 st ->
  regs_ok 64 85 (exec 64 (thetaRhoPiChiIotaPrepareTheta c a e) st).
Proof.
  intros H Hc. apply exec_regs. apply fitsb_true in Hc.
  destruct H as [[-> ->]|[-> ->]]; cbv -[fitsb]; rewrite Hc; reflexivity.
Qed.
Lemma regs_prepare st : regs_ok 64 85 st -> regs_ok 64 85 (exec 64 prepareTheta st).
Proof. apply exec_regs. reflexivity. Qed.

(** The registers represent a state. *)
Record repr (b : nat) (st s : list N) : Prop := {
  rp_regs : regs_ok 64 85 st; rp_state : state_ok s; rp_block : block b st = flipl lanesA s; rp_cols : cols st = par (flipl lanesA s) }.
Lemma rconst i : (i < 24)%nat -> nth i KeccakF1600RoundConstants 0 = nth i roundConstants 0 /\ fits 64 (nth i roundConstants 0).
Proof. intros Hi. do 24 (destruct i as [|i]; [vm_compute; auto|]). lia. Qed.
Lemma chain s i : (i < 24)%nat -> state_ok s ->
  chiE (nth i KeccakF1600RoundConstants 0) (thetaB (flipl lanesA s) (par (flipl lanesA s))) = flipl lanesA (Round s i) /\ state_ok (Round s i).
Proof.
  intros Hi Hs. destruct (rconst i Hi) as [-> Hc]. destruct (Round_ok i s Hi Hs) as [-> Hr]. split; [|exact Hr].
  rewrite thetaB_ok by assumption. apply chiE_ok; [assumption|]. apply RhoPi_ok. now apply Theta_ok.
Qed.
Lemma repr_AE i st s : (i < 24)%nat -> repr 0 st s -> repr 25 (exec 64 (thetaRhoPiChiIotaPrepareTheta (nth i KeccakF1600RoundConstants 0) 0 25) st) (Round s i).
Proof.
  intros Hi [R S0 B C]. destruct (chain s i Hi S0) as [E Hr]. pose proof (proj2 (rconst i Hi)) as Hc. rewrite <- (proj1 (rconst i Hi)) in Hc.
  destruct (round_AE _ st R Hc) as [E1 E2]. rewrite B, C, E in E1, E2.
  constructor; [apply regs_round; auto|exact Hr|exact E1|exact E2].
Qed.
Lemma repr_EA i st s : (i < 24)%nat -> repr 25 st s -> repr 0 (exec 64 (thetaRhoPiChiIotaPrepareTheta (nth i KeccakF1600RoundConstants 0) 25 0) st) (Round s i).
Proof.
  intros Hi [R S0 B C]. destruct (chain s i Hi S0) as [E Hr]. pose proof (proj2 (rconst i Hi)) as Hc. rewrite <- (proj1 (rconst i Hi)) in Hc.
  destruct (round_EA _ st R Hc) as [E1 E2]. rewrite B, C, E in E1, E2.
  constructor; [apply regs_round; auto|exact Hr|exact E1|exact E2].
Qed.
Lemma repr_last i st s : (i < 24)%nat -> repr 25 st s -> block 0 (exec 64 (thetaRhoPiChiIota (nth i KeccakF1600RoundConstants 0) 25 0) st) = flipl lanesA (Round s i).
Proof.
  intros Hi [R S0 B C]. destruct (chain s i Hi S0) as [E Hr]. pose proof (proj2 (rconst i Hi)) as Hc. rewrite <- (proj1 (rconst i Hi)) in Hc.
  rewrite (round_last _ st R Hc). now rewrite B, C, E.
Qed.
Lemma flipl_length m s : length (flipl m s) = 25%nat.
Proof. unfold flipl. now rewrite map_length, seq_length. Qed.
Lemma flipl_ok m s : state_ok s -> state_ok (flipl m s).
Proof.
  intros [L F]. split; [apply flipl_length|]. apply Forall_forall. intros x Hx. apply in_map_iff in Hx. destruct Hx as (i & <- & _).
  destruct (existsb _ m); [apply xor_fits; [|apply ones64_fits]|]; now apply nth_fits.
Qed.
Lemma repr_start s junk : state_ok s -> regs_ok 64 60 junk -> repr 0 (exec 64 prepareTheta (flipl lanesA s ++ junk)) s.
Proof.
  intros Hs [Lj Fj]. pose proof (flipl_ok lanesA s Hs) as [Lf Ff].
  assert (R : regs_ok 64 85 (flipl lanesA s ++ junk)) by (split; [rewrite app_length; lia|apply Forall_app; auto]).
  assert (B : block 0 (flipl lanesA s ++ junk) = flipl lanesA s).
  { unfold block. rewrite skipn_O. now apply firstn_app_exact. }
  destruct (prepare_ok _ (proj1 R)) as [E1 E2]. rewrite B in E1, E2.
  constructor; [now apply regs_prepare|exact Hs|exact E2|exact E1].
Qed.
Lemma fold_left_cons {A B} (f : A -> B -> A) x l a : fold_left f (x :: l) a = fold_left f l (f a x).
Proof. reflexivity. Qed.
Lemma fold_left_nil {A B} (f : A -> B -> A) a : fold_left f [] a = a.
Proof. reflexivity. Qed.
Definition run24 (st : list N) : list N := fold_left (fun r p => exec 64 p r) rounds24 st.
Definition pgm (i a e : nat) : prog := thetaRhoPiChiIotaPrepareTheta (nth i KeccakF1600RoundConstants 0) a e.
Lemma rounds24_eq : rounds24 = prepareTheta :: flat_map (fun j => [pgm (2 * j) 0 25; pgm (2 * j + 1) 25 0]) (seq 0 11)
  ++ [pgm 22 0 25; thetaRhoPiChiIota (nth 23 KeccakF1600RoundConstants 0) 25 0].
Proof. reflexivity. Qed.
Lemma repr_pairs n : forall j st s, (2 * (j + n) <= 24)%nat -> repr 0 st s ->
  repr 0 (fold_left (fun r p => exec 64 p r) (flat_map (fun j => [pgm (2 * j) 0 25; pgm (2 * j + 1) 25 0]) (seq j n)) st)
         (fold_left Round (seq (2 * j) (2 * n)) s).
Proof.
  induction n as [|n IH]; intros j st s Hj R; [exact R|].
  replace (2 * S n)%nat with (S (S (2 * n))) by lia. cbn [seq flat_map app]. rewrite !(@fold_left_cons).
  replace (S (S (2 * j))) with (2 * S j)%nat by lia. apply IH; [lia|].
  replace (S (2 * j)) with (2 * j + 1)%nat by lia.
  apply repr_EA; [lia|]. apply repr_AE; [lia|exact R].
Qed.
Section Last.
  Variable ex : prog -> list N -> list N.
  Variables (p22 p23 p0 : prog) (l : list prog).
  Lemma fold_shape st : fold_left (fun r p => ex p r) (p0 :: l ++ [p22; p23]) st =
    ex p23 (ex p22 (fold_left (fun r p => ex p r) l (ex p0 st))).
  Proof. rewrite fold_left_cons, fold_left_app. reflexivity. Qed.
End Last.
Lemma block_0 st : block 0 st = firstn 25 st.
Proof. reflexivity. Qed.
Lemma keccak_f_shape s : keccak_f 24 s = Round (Round (fold_left Round (seq 0 22) s) 22) 23.
Proof. unfold keccak_f. change (seq 0 24) with (seq 0 22 ++ [22; 23])%nat. rewrite fold_left_app. reflexivity. Qed.
Lemma run24_ok s junk : state_ok s -> regs_ok 64 60 junk ->
  firstn 25 (run24 (flipl lanesA s ++ junk)) = flipl lanesA (keccak_f 24 s).
Proof.
  intros Hs Hj. pose proof (repr_start s junk Hs Hj) as R.
  unfold run24. rewrite rounds24_eq, (fold_shape (exec 64)), keccak_f_shape.
  pose proof (repr_last 23 _ _ ltac:(lia) (repr_AE 22 _ _ ltac:(lia) (repr_pairs 11 0 _ _ ltac:(lia) R))) as H.
  rewrite block_0 in H. exact H.
Qed.
