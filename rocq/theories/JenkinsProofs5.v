(** Package jenkins: Hash264 equals its specification. *)
From Coq Require Import ZArith.
From Verif Require Import Words WordLemmas ListLemmas Blocks Bij Mem Mm3Spec Mm3Proofs
  JenkinsModel JenkinsSpec JenkinsProofs JenkinsProofs2 JenkinsProofs3 JenkinsProofs4.
Open Scope N_scope.

Definition l8_block (s : tri) (b : list N) : tri := mix64alt (add_block 64 8 s b).
Lemma add_block_24 k a b c : (24 <= length k)%nat -> bytes_ok k ->
  add_block 64 8 (a, b, c) (firstn 24 k) =
  (add64 a (le_load (firstn 8 k)), add64 b (le_load (firstn 8 (skipn 8 k))), add64 c (le_load (firstn 8 (skipn 16 k)))).
Proof.
  intros Hl Hk. split_bytes k 24%nat. cbn [add_block firstn skipn Nat.add].
  rewrite !le_int_load by bytes_list. now rewrite !madd64_eq.
Qed.
Lemma byte_word64_ok k i : (i + 8 <= length k)%nat -> bytes_ok k -> byte_word64 k i = Ok (le_load (firstn 8 (skipn i k))).
Proof.
  intros Hl Hk. unfold byte_word64. rewrite !idx_ok by lia. cbn [rbind].
  assert (E : forall j, nth (i + j) k 0 = nth j (skipn i k) 0) by (intros; now rewrite nth_skipn').
  rewrite !E.
  assert (Hl' : (8 <= length (skipn i k))%nat) by (rewrite skipn_length; lia).
  assert (Hk' : bytes_ok (skipn i k)) by now apply bytes_ok_skipn.
  set (r := skipn i k) in *. clearbody r. split_bytes r 8%nat. cbn [nth firstn].
  cbn [le_load]. rewrite !shl64_byte' by (assumption || lia).
  rewrite ?N.shiftl_lor, ?N.shiftl_shiftl, ?N.shiftl_0_l, ?N.lor_0_r, !N.lor_assoc. reflexivity.
Qed.
Definition l8_result (n : nat) (k : list N) (s : tri) : list N * N * tri :=
  (skipn (24 * (n / 24)) k, N.of_nat (n mod 24), fst (absorb 24 l8_block s (firstn n k))).
Lemma l8_result_step n k s : (24 <= n)%nat -> (n <= length k)%nat ->
  l8_result (n - 24) (skipn 24 k) (l8_block s (firstn 24 k)) = l8_result n k s.
Proof.
  intros H Hl. unfold l8_result.
  assert (D : (n / 24 = 1 + (n - 24) / 24)%nat).
  { replace n with (1 * 24 + (n - 24))%nat at 1 by lia. apply Nat.div_add_l. lia. }
  assert (M : (n mod 24 = (n - 24) mod 24)%nat).
  { replace n with ((n - 24) + 1 * 24)%nat at 1 by lia. apply Nat.mod_add. lia. }
  rewrite D, M. apply pair_equal_spec; split; [apply pair_equal_spec; split; [|reflexivity]|].
  { replace (24 * (1 + (n - 24) / 24))%nat with (24 + 24 * ((n - 24) / 24))%nat by lia. now rewrite skipn_add. }
  rewrite (absorb_step 24 l8_block pos24 s (firstn n k)) by (rewrite firstn_length_le; lia).
  rewrite firstn_firstn, Nat.min_l by lia. do 2 f_equal.
  rewrite firstn_skipn_comm. replace (24 + (n - 24))%nat with n by lia. reflexivity.
Qed.
Lemma l8_result_small n k s : (n < 24)%nat -> (n <= length k)%nat -> l8_result n k s = (k, N.of_nat n, s).
Proof.
  intros H Hl. unfold l8_result. rewrite Nat.div_small, Nat.mod_small by assumption. 
  rewrite (absorb_short 24 l8_block pos24) by (rewrite firstn_length_le; lia). reflexivity.
Qed.

Lemma h264_slow_run n : forall fuel k s, (n < fuel)%nat -> (n <= length k)%nat -> N.of_nat n < 2 ^ 64 -> bytes_ok k ->
  h264_slow fuel k (N.of_nat n) (N.of_nat n) s = Ok (l8_result n k s).
Proof.
  induction n as [n IH] using lt_wf_ind. intros fuel k s Hf Hl Hn Hk.
  destruct fuel as [|fuel]; [lia|]. cbn [h264_slow].
  destruct (N.leb_spec 24 (N.of_nat n)).
  - destruct s as [[a b] c]. rewrite !byte_word64_ok by (auto; lia). rewrite tail_from_ok by lia. cbn [rbind].
    unfold sub64. change (subw 64 (N.of_nat n) 24) with (subw 64 (N.of_nat n) (N.of_nat 24)). rewrite sub_ge by (auto; lia).
    rewrite IH; try lia; [|rewrite skipn_length; lia|now apply bytes_ok_skipn].
    rewrite <- (l8_result_step n k) by lia. unfold l8_block. rewrite add_block_24 by (auto; lia). reflexivity.
  - now rewrite l8_result_small by lia.
Qed.
Lemma h264_fast_run n : forall fuel k0 cnt s, (n < fuel)%nat -> (8 * cnt + n <= length k0)%nat -> N.of_nat n < 2 ^ 64 -> bytes_ok k0 ->
  h264_fast fuel k0 (skipn (8 * cnt) k0) cnt (N.of_nat n) (N.of_nat n) s = Ok (l8_result n (skipn (8 * cnt) k0) s).
Proof.
  induction n as [n IH] using lt_wf_ind. intros fuel k0 cnt s Hf Hl Hn Hk.
  destruct fuel as [|fuel]; [lia|]. cbn [h264_fast].
  destruct (N.leb_spec 24 (N.of_nat n)).
  - destruct s as [[a b] c]. rewrite !word64_ok by lia. rewrite tail_from_ok by (rewrite skipn_length; lia). cbn [rbind].
    unfold sub64. change (subw 64 (N.of_nat n) 24) with (subw 64 (N.of_nat n) (N.of_nat 24)). rewrite sub_ge by (auto; lia).
    rewrite <- skipn_add. replace (8 * cnt + 24)%nat with (8 * (cnt + 3))%nat by lia.
    rewrite IH; try lia; auto.
    rewrite <- (l8_result_step n) by (rewrite ?skipn_length; lia). unfold l8_block.
    rewrite add_block_24 by (try apply bytes_ok_skipn; auto; rewrite skipn_length; lia).
    rewrite <- !skipn_add. replace (8 * cnt + 24)%nat with (8 * (cnt + 3))%nat by lia.
    replace (8 * (0 + cnt))%nat with (8 * cnt)%nat by lia.
    replace (8 * (1 + cnt))%nat with (8 * cnt + 8)%nat by lia.
    replace (8 * (2 + cnt))%nat with (8 * cnt + 16)%nat by lia. reflexivity.
  - rewrite l8_result_small by (rewrite ?skipn_length; lia). reflexivity.
Qed.

Lemma h264_last n k a b c : (n < 24)%nat -> (n <= length k)%nat -> bytes_ok k -> tri_ok 64 (a, b, c) ->
  h264_tail k (N.of_nat n) (a, b, add64 c (N.of_nat n)) = Ok (l8_last (a, b, c) (N.of_nat n) (firstn n k)).
Proof.
  intros Hn Hl Hk (Ha & Hb & Hc).
  assert (H : n = 0%nat \/ n = 1%nat \/ n = 2%nat \/ n = 3%nat \/ n = 4%nat \/ n = 5%nat \/ n = 6%nat \/ n = 7%nat \/ n = 8%nat \/ n = 9%nat \/ n = 10%nat \/ n = 11%nat \/ n = 12%nat \/ n = 13%nat \/ n = 14%nat \/ n = 15%nat \/ n = 16%nat \/ n = 17%nat \/ n = 18%nat \/ n = 19%nat \/ n = 20%nat \/ n = 21%nat \/ n = 22%nat \/ n = 23%nat) by lia.
  repeat (destruct H as [H|H]); subst n;
  lazymatch goal with |- h264_tail _ (N.of_nat ?n) _ = _ => split_bytes k n end;
  cbn [h264_tail N.of_nat Pos.of_succ_nat Pos.succ idx nth_error rbind Nat.leb Nat.add length
    firstn skipn pad0 l8_last app repeat Nat.sub nth]; words_eq; apply f_equal; tri_eq.
Qed.

Lemma l8_spec_form m seed : lookup8v m seed =
  (let '(s, r) := absorb 24 l8_block (0x9e3779b97f4a7c13, 0x9e3779b97f4a7c13, seed) m in
   snd (mix64alt (l8_last s (N.of_nat (length r)) r))).
Proof.
  unfold lookup8v.
  pose proof (fold_blocks (fun s b => l8_mix (add_block 64 8 s b)) 24 m (0x9e3779b97f4a7c13, 0x9e3779b97f4a7c13, seed) pos24) as F.
  rewrite (absorb_ext 24 (fun s b => l8_mix (add_block 64 8 s b)) l8_block pos24) in F
    by (intros; unfold l8_block; apply l8_mix_eq).
  change (@absorb tri 24 l8_block) with (@absorb (N * N * N) 24 l8_block). destruct (blocks 24 m) as [bs r].
  rewrite <- F. now rewrite l8_mix_eq.
Qed.
Lemma l8_block_ok s b : tri_ok 64 (l8_block s b).
Proof. apply mix64alt_bij, add_block_ok64. Qed.
Lemma l8_absorb_ok s m : tri_ok 64 s -> tri_ok 64 (fst (absorb 24 l8_block s m)).
Proof.
  intros H. apply (absorb_inv 24 l8_block pos24 (tri_ok 64) (fun _ => True)); auto using l8_block_ok.
Qed.
Lemma hash264_gen fast k seed : bytes_ok k -> fits 64 seed -> N.of_nat (length k) < 2 ^ 64 ->
  hash264_with fast k seed = Ok (lookup8v k seed).
Proof.
  intros Hk Hs Hlt. unfold hash264_with. cbv zeta. rewrite wrap_small by exact Hlt.
  remember (length k) as n eqn:En.
  set (s0 := (0x9e3779b97f4a7c13, 0x9e3779b97f4a7c13, seed)).
  assert (R : (if fast then h264_fast (S n) k k 0 (N.of_nat n) (N.of_nat n) s0 else h264_slow (S n) k (N.of_nat n) (N.of_nat n) s0)
     = Ok (l8_result n k s0)).
  { destruct fast.
    - apply (h264_fast_run n (S n) k 0 s0); auto; lia.
    - apply h264_slow_run; auto; lia. }
  rewrite R. unfold l8_result. cbn [rbind]. subst n. rewrite firstn_all.
  assert (Hs0 : tri_ok 64 s0) by (repeat split; auto; reflexivity).
  pose proof (l8_absorb_ok s0 k Hs0) as Hs1.
  rewrite l8_spec_form. fold s0.
  pose proof (absorb_rest_length 24 l8_block pos24 s0 k) as Lr.
  pose proof (absorb_rest 24 l8_block pos24 s0 k) as Er.
  destruct (absorb 24 l8_block s0 k) as [[[a b] c] r]. cbn [fst snd] in *.
  assert (Hm : (length k mod 24 < 24)%nat) by (apply Nat.mod_upper_bound; lia).
  rewrite <- Er. replace (23 <? length r)%nat with false by (symmetry; apply Nat.ltb_ge; lia).
  rewrite <- Lr. rewrite h264_last; auto; try lia.
  - cbn [rbind]. rewrite firstn_all. destruct (mix64alt _) as [[? ?] ?]. reflexivity.
  - rewrite Er. now apply bytes_ok_skipn.
Qed.
