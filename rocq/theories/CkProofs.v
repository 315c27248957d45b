(** Proofs about package keccak: absorbing one block, extracting. *)
From Coq Require Import ZArith.
From Verif Require Import Words WordLemmas ListLemmas Mem SLP Bij Blocks Mm3Spec Mm3Proofs KeccakSpec KeccakProofs KeccakProofs2 KeccakProofs3 KeccakProofs4 CkProg CkModel CkRounds.
From Verif Require KeccakModel.
Open Scope N_scope.

Strategy 1000 [rounds24].
Notation masked s := (flipl lanesA s).
Lemma run_rounds_ok s : state_ok s -> run_rounds (masked s) = masked (keccak_f 24 s).
Proof.
  intros Hs. assert (J : regs_ok 64 60 (repeat 0 60)).
  { split; [reflexivity|]. apply Forall_forall. intros x Hx. apply repeat_spec in Hx. rewrite Hx. apply fits_0. }
  pose proof (run24_ok s (repeat 0 60) Hs J) as H. unfold run24 in H. unfold run_rounds. rewrite H. reflexivity.
Qed.
Lemma nth_flipl m s i : (i < 25)%nat -> nth i (flipl m s) 0 = if existsb (Nat.eqb i) m then xor (nth i s 0) KeccakModel.ones64 else nth i s 0.
Proof. intros H. unfold flipl. now rewrite (nth_map_seq _ 25 i H). Qed.
Lemma word_int data i : bytes_ok data -> word data i = le_int (firstn 8 (skipn (8 * i) data)).
Proof. intros H. unfold word. symmetry. apply le_int_load. apply bytes_ok_firstn. now apply bytes_ok_skipn. Qed.
Lemma nth_lanes_used B data i : (i < 25)%nat -> (B mod 8 = 0)%nat -> bytes_ok data ->
  nth i (lanes_of (used B (firstn B data))) 0 = if Nat.ltb i (B / 8) then word data i else 0.
Proof.
  intros Hi H8 Hb. unfold lanes_of. rewrite nth_map_seq by assumption. unfold used. pose proof (Nat.div_mod B 8) as D.
  rewrite firstn_firstn, Nat.min_l by lia. rewrite skipn_firstn_comm, firstn_firstn.
  destruct (Nat.ltb_spec i (B / 8)).
  - rewrite Nat.min_l by lia. symmetry. now apply word_int.
  - replace (8 * (B / 8) - 8 * i)%nat with 0%nat by lia. rewrite Nat.min_r by lia. reflexivity.
Qed.
(** Xoring lanes commutes with complementing. *)
Lemma masked_xor s L : masked (xor_state s L) = map (fun i => N.lxor (nth i (masked s) 0) (nth i L 0)) (seq 0 25).
Proof.
  apply list_ext; [now rewrite flipl_length, map_length, seq_length|]. intros i Hi. rewrite flipl_length in Hi.
  rewrite nth_map_seq, !nth_flipl by assumption. unfold xor_state. rewrite nth_map_seq by assumption.
  unfold xor. destruct (existsb (Nat.eqb i) lanesA); [now rewrite not_l|reflexivity].
Qed.
Lemma xored_masked s B data : (B mod 8 = 0)%nat -> bytes_ok data ->
  map (fun i => if Nat.ltb i (B / 8) then xor (nth i (masked s) 0) (word data i) else nth i (masked s) 0) (seq 0 25)
  = masked (xor_state s (lanes_of (used B (firstn B data)))).
Proof.
  intros H8 Hb. rewrite masked_xor. apply map_ext_in. intros i Hi. apply in_seq in Hi.
  rewrite nth_lanes_used by (assumption || lia). destruct (Nat.ltb i (B / 8)); [reflexivity|]. now rewrite N.lxor_0_r.
Qed.
Lemma step_state_ok s B data : state_ok s -> bytes_ok data -> state_ok (xor_state s (lanes_of (used B (firstn B data)))).
Proof. intros Hs Hb. apply xor_state_ok; [assumption|]. apply lanes_ok. apply bytes_ok_firstn. now apply bytes_ok_firstn. Qed.
Lemma absorb_fast_ok pat B s data : pat = map (fun i => Nat.ltb i (B / 8)) (seq 0 25) -> length (filter (fun b => b) pat) = (B / 8)%nat ->
  (B mod 8 = 0)%nat -> (B <= length data)%nat -> state_ok s -> bytes_ok data ->
  absorb_fast pat (masked s) data = Ok (masked (stepf 24 B s (firstn B data))).
Proof.
  intros -> Hf H8 HL Hs Hb. unfold absorb_fast. rewrite Hf. pose proof (Nat.div_mod B 8).
  destruct (Nat.leb_spec (8 * (B / 8)) (length data)); [|lia]. f_equal.
  unfold stepf, absorb_block. rewrite <- run_rounds_ok by now apply step_state_ok. f_equal.
  rewrite <- xored_masked by assumption. apply map_ext_in. intros i Hi. apply in_seq in Hi.
  rewrite (nth_indep _ false ((fun i => Nat.ltb i (B / 8)) 0%nat)) by (rewrite map_length, seq_length; lia).
  rewrite (map_nth (fun i => Nat.ltb i (B / 8)) (seq 0 25) 0%nat i), seq_nth by lia. reflexivity.
Qed.
Lemma xor_fold n : forall a st data, (a + n <= length st)%nat ->
  length (fold_left (fun s j => upd s j (xor (nth j s 0) (word data j))) (seq a n) st) = length st /\
  forall i, nth i (fold_left (fun s j => upd s j (xor (nth j s 0) (word data j))) (seq a n) st) 0 =
    if (Nat.leb a i && Nat.ltb i (a + n))%bool then xor (nth i st 0) (word data i) else nth i st 0.
Proof.
  induction n as [|n IH]; intros a st data H; cbn [seq fold_left].
  - split; [reflexivity|]. intros i. destruct (Nat.leb_spec a i), (Nat.ltb_spec i (a + 0)); cbn [andb]; try reflexivity; lia.
  - destruct (IH (S a) (upd st a (xor (nth a st 0) (word data a))) data) as [L Hn]; [rewrite upd_length; lia|].
    rewrite upd_length in L. split; [exact L|]. intros i. rewrite Hn.
    destruct (Nat.eq_dec i a) as [->|Hi].
    + rewrite upd_same by lia. destruct (Nat.leb_spec (S a) a); [lia|]. cbn [andb].
      destruct (Nat.leb_spec a a); [|lia]. destruct (Nat.ltb_spec a (a + S n)); [|lia]. reflexivity.
    + rewrite upd_other by assumption.
      destruct (Nat.leb_spec (S a) i), (Nat.leb_spec a i), (Nat.ltb_spec i (S a + n)), (Nat.ltb_spec i (a + S n)); cbn [andb]; try reflexivity; lia.
Qed.
Lemma KeccakAbsorb_ok B s data : (B mod 8 = 0)%nat -> (B <= 200)%nat -> (B <= length data)%nat -> state_ok s -> bytes_ok data ->
  KeccakAbsorb (masked s) data (B / 8) = Ok (masked (stepf 24 B s (firstn B data))).
Proof.
  intros H8 H200 HL Hs Hb. unfold KeccakAbsorb. pose proof (Nat.div_mod B 8) as D.
  destruct (Nat.leb_spec (B / 8) 25); [|lia]. destruct (Nat.leb_spec (8 * (B / 8)) (length data)); [|lia]. cbn [andb]. f_equal.
  unfold stepf, absorb_block. rewrite <- run_rounds_ok by now apply step_state_ok. f_equal. rewrite <- xored_masked by assumption.
  destruct (xor_fold (B / 8) 0 (masked s) data) as [L Hn]; [rewrite flipl_length; lia|].
  apply list_ext; [now rewrite L, flipl_length, map_length, seq_length|]. intros i Hi. rewrite L, flipl_length in Hi.
  rewrite Hn, nth_map_seq by assumption. reflexivity.
Qed.
Lemma absorb_rate_ok B s data : (B mod 8 = 0)%nat -> (B <= 200)%nat -> (B <= length data)%nat -> state_ok s -> bytes_ok data ->
  absorb_rate (8 * N.of_nat B) (masked s) data = Ok (masked (stepf 24 B s (firstn B data))).
Proof.
  intros H8 H200 HL Hs Hb. unfold absorb_rate.
  repeat match goal with |- context [8 * N.of_nat B =? ?r] =>
    destruct (N.eqb_spec (8 * N.of_nat B) r) as [E|_];
    [replace B with (N.to_nat (r / 8)) by (apply Nat2N.inj; rewrite N2Nat.id; apply (N.mul_cancel_l _ _ 8); [discriminate|]; rewrite E; reflexivity);
     replace B with (N.to_nat (r / 8)) in HL by (apply Nat2N.inj; rewrite N2Nat.id; apply (N.mul_cancel_l _ _ 8); [discriminate|]; rewrite E; reflexivity);
     apply absorb_fast_ok; (reflexivity || assumption)|] end.
  replace (N.to_nat (8 * N.of_nat B / 64)) with (B / 8)%nat; [now apply KeccakAbsorb_ok|].
  change 64 with (8 * 8). rewrite N.div_mul_cancel_l by discriminate. change 8 with (N.of_nat 8) at 1. rewrite <- Nat2N.inj_div. now rewrite Nat2N.id.
Qed.

(** ** Extraction *)
Lemma notnot x : notw 64 (xor x KeccakModel.ones64) = x.
Proof. rewrite notw_xor. apply not_not. Qed.
Lemma concat_store n : forall l : list N, firstn (8 * n) (concat (map (le_store 8) l)) = concat (map (le_store 8) (firstn n l)).
Proof.
  induction n as [|n IH]; intros l; [reflexivity|]. destruct l as [|x l]; [now rewrite firstn_nil|].
  cbn [map concat firstn]. replace (8 * S n)%nat with (length (le_store 8 x) + 8 * n)%nat by (rewrite le_store_length; lia).
  rewrite firstn_app_2. now rewrite IH.
Qed.
Lemma extract_ok inv n s data : (n <= 25)%nat -> (8 * n <= length data)%nat -> state_ok s ->
  (forall i, (i < n)%nat -> existsb (Nat.eqb i) inv = existsb (Nat.eqb i) lanesA) ->
  extract inv n (masked s) data = Ok (firstn (8 * n) (state_bytes s) ++ skipn (8 * n) data).
Proof.
  intros Hn HL Hs Hi. unfold extract. destruct (Nat.leb_spec n 25); [|lia]. destruct (Nat.leb_spec (8 * n) (length data)); [|lia].
  cbn [andb]. do 2 f_equal. rewrite <- state_bytes_eq. unfold KeccakModel.putUint64le. rewrite concat_store. do 2 f_equal.
  destruct Hs as [L F]. apply list_ext; [rewrite map_length, seq_length, firstn_length; lia|].
  intros i H'. rewrite map_length, seq_length in H'. rewrite nth_map_seq by assumption.
  rewrite nth_flipl by lia. rewrite Hi by assumption. destruct (Nat.ltb_spec i n); [|lia].
  assert (E : nth i (firstn n s) 0 = nth i s 0).
  { rewrite <- (firstn_skipn n s) at 2. now rewrite app_nth1 by (rewrite firstn_length; lia). }
  rewrite E.
  destruct (existsb (Nat.eqb i) lanesA); cbn [andb]; [|reflexivity].
  apply notnot.
Qed.
