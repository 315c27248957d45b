(** Package jenkins: Hash232 and Hash264 equal their specification; collisions. *)
From Coq Require Import ZArith.
From Verif Require Import Words WordLemmas ListLemmas Blocks Bij Mem Mm3Spec Mm3Proofs
  JenkinsModel JenkinsSpec JenkinsProofs JenkinsProofs2 JenkinsProofs3.
Open Scope N_scope.

Definition l2_block (s : tri) (b : list N) : tri := mix32 (add_block 32 4 s b).
Lemma pos12 : (0 < 12)%nat. Proof. lia. Qed.
Lemma pos24 : (0 < 24)%nat. Proof. lia. Qed.

Lemma nth_skipn' (k : list N) : forall i j, nth j (skipn i k) 0 = nth (i + j) k 0.
Proof. induction k as [|x k IH]; intros [|i] j; cbn; auto. now destruct j. Qed.
Lemma byte_word_ok k i : (i + 4 <= length k)%nat -> bytes_ok k -> byte_word k i = Ok (le_load (firstn 4 (skipn i k))).
Proof.
  intros Hl Hk. unfold byte_word. rewrite !idx_ok by lia. cbn [rbind].
  assert (E : forall j, nth (i + j) k 0 = nth j (skipn i k) 0) by (intros; now rewrite nth_skipn').
  rewrite !E.
  assert (Hl' : (4 <= length (skipn i k))%nat) by (rewrite skipn_length; lia).
  assert (Hk' : bytes_ok (skipn i k)) by now apply bytes_ok_skipn.
  destruct (skipn i k) as [|b0 [|b1 [|b2 [|b3 r]]]]; cbn [length] in Hl'; try lia. cbn [nth firstn].
  inversion_clear Hk' as [|? ? B0 R0]. inversion_clear R0 as [|? ? B1 R1]. inversion_clear R1 as [|? ? B2 R2]. inversion_clear R2 as [|? ? B3 R3].
  rewrite <- le_int_load by bytes_list. rewrite !shl32_b by (assumption || lia). rewrite !add32_add32.
  cbn [le_int]. f_equal. unfold add32. rewrite addw_mod, N.mod_small; eval_pow; unfold byte_ok in *; lia.
Qed.
Lemma word32_ok k i : (4 * i + 4 <= length k)%nat -> word32 k i = Ok (le_load (firstn 4 (skipn (4 * i) k))).
Proof.
  intros H. unfold word32. replace (i <? length k / 4)%nat with true; auto. symmetry. apply Nat.ltb_lt.
  apply Nat.div_le_lower_bound; lia.
Qed.
Lemma word64_ok k i : (8 * i + 8 <= length k)%nat -> word64 k i = Ok (le_load (firstn 8 (skipn (8 * i) k))).
Proof.
  intros H. unfold word64. replace (i <? length k / 8)%nat with true; auto. symmetry. apply Nat.ltb_lt.
  apply Nat.div_le_lower_bound; lia.
Qed.
Lemma sub_ge w n c : (c <= n)%nat -> N.of_nat n < 2 ^ w -> subw w (N.of_nat n) (N.of_nat c) = N.of_nat (n - c).
Proof.
  intros H Hn. rewrite subw_mod. rewrite (N.mod_small (N.of_nat c)) by lia.
  replace (N.of_nat n + (2 ^ w - N.of_nat c)) with (N.of_nat (n - c) + 1 * 2 ^ w) by lia.
  rewrite N.mod_add by apply pow2_nz. apply N.mod_small. lia.
Qed.

Definition l2_result (n : nat) (k : list N) (s : tri) : list N * N * tri :=
  (skipn (12 * (n / 12)) k, N.of_nat (n mod 12), fst (absorb 12 l2_block s (firstn n k))).
Lemma l2_result_step n k s : (12 <= n)%nat -> (n <= length k)%nat ->
  l2_result (n - 12) (skipn 12 k) (l2_block s (firstn 12 k)) = l2_result n k s.
Proof.
  intros H Hl. unfold l2_result.
  assert (D : (n / 12 = 1 + (n - 12) / 12)%nat).
  { replace n with (1 * 12 + (n - 12))%nat at 1 by lia. apply Nat.div_add_l. lia. }
  assert (M : (n mod 12 = (n - 12) mod 12)%nat).
  { replace n with ((n - 12) + 1 * 12)%nat at 1 by lia. apply Nat.mod_add. lia. }
  rewrite D, M. apply pair_equal_spec; split; [apply pair_equal_spec; split; [|reflexivity]|].
  { replace (12 * (1 + (n - 12) / 12))%nat with (12 + 12 * ((n - 12) / 12))%nat by lia. now rewrite skipn_add. }
  rewrite (absorb_step 12 l2_block pos12 s (firstn n k)) by (rewrite firstn_length_le; lia).
  rewrite firstn_firstn, Nat.min_l by lia. do 2 f_equal.
  rewrite firstn_skipn_comm. replace (12 + (n - 12))%nat with n by lia. reflexivity.
Qed.
Lemma l2_result_small n k s : (n < 12)%nat -> (n <= length k)%nat -> l2_result n k s = (k, N.of_nat n, s).
Proof.
  intros H Hl. unfold l2_result. rewrite Nat.div_small, Nat.mod_small by assumption. 
  rewrite (absorb_short 12 l2_block pos12) by (rewrite firstn_length_le; lia). reflexivity.
Qed.

Lemma h232_slow_run n : forall fuel k s, (n < fuel)%nat -> (n <= length k)%nat -> N.of_nat n < 2 ^ 32 -> bytes_ok k ->
  h232_slow fuel k (N.of_nat n) s = Ok (l2_result n k s).
Proof.
  induction n as [n IH] using lt_wf_ind. intros fuel k s Hf Hl Hn Hk.
  destruct fuel as [|fuel]; [lia|]. cbn [h232_slow].
  destruct (N.leb_spec 12 (N.of_nat n)).
  - destruct s as [[a b] c]. rewrite !byte_word_ok by (auto; lia). rewrite tail_from_ok by lia. cbn [rbind].
    unfold sub32. change (subw 32 (N.of_nat n) 12) with (subw 32 (N.of_nat n) (N.of_nat 12)). rewrite sub_ge by (auto; lia).
    rewrite IH; try lia; [|rewrite skipn_length; lia|now apply bytes_ok_skipn].
    rewrite <- (l2_result_step n k) by lia. unfold l2_block. rewrite add_block_12 by (auto; lia). reflexivity.
  - now rewrite l2_result_small by lia.
Qed.
Lemma h232_fast_run n : forall fuel k0 cnt s, (n < fuel)%nat -> (4 * cnt + n <= length k0)%nat -> N.of_nat n < 2 ^ 32 -> bytes_ok k0 ->
  h232_fast fuel k0 (skipn (4 * cnt) k0) cnt (N.of_nat n) s = Ok (l2_result n (skipn (4 * cnt) k0) s).
Proof.
  induction n as [n IH] using lt_wf_ind. intros fuel k0 cnt s Hf Hl Hn Hk.
  destruct fuel as [|fuel]; [lia|]. cbn [h232_fast].
  destruct (N.leb_spec 12 (N.of_nat n)).
  - destruct s as [[a b] c]. rewrite !word32_ok by lia. rewrite tail_from_ok by (rewrite skipn_length; lia). cbn [rbind].
    unfold sub32. change (subw 32 (N.of_nat n) 12) with (subw 32 (N.of_nat n) (N.of_nat 12)). rewrite sub_ge by (auto; lia).
    rewrite <- skipn_add. replace (4 * cnt + 12)%nat with (4 * (cnt + 3))%nat by lia.
    rewrite IH; try lia; auto.
    rewrite <- (l2_result_step n) by (rewrite ?skipn_length; lia). unfold l2_block.
    rewrite add_block_12 by (try apply bytes_ok_skipn; auto; rewrite skipn_length; lia).
    rewrite <- !skipn_add. replace (4 * cnt + 12)%nat with (4 * (cnt + 3))%nat by lia.
    replace (4 * (0 + cnt))%nat with (4 * cnt)%nat by lia.
    replace (4 * (1 + cnt))%nat with (4 * cnt + 4)%nat by lia.
    replace (4 * (2 + cnt))%nat with (4 * cnt + 8)%nat by lia. reflexivity.
  - rewrite l2_result_small by (rewrite ?skipn_length; lia). reflexivity.
Qed.

Lemma h232_last n k a b c : (n < 12)%nat -> (n <= length k)%nat -> bytes_ok k -> tri_ok 32 (a, b, c) ->
  h232_tail k (N.of_nat n) (a, b, add32 c (N.of_nat n)) = Ok (l2_last false (a, b, c) (N.of_nat n) (firstn n k)).
Proof.
  intros Hn Hl Hk (Ha & Hb & Hc).
  assert (H : n = 0%nat \/ n = 1%nat \/ n = 2%nat \/ n = 3%nat \/ n = 4%nat \/ n = 5%nat \/ n = 6%nat \/ n = 7%nat \/ n = 8%nat \/
    n = 9%nat \/ n = 10%nat \/ n = 11%nat) by lia.
  repeat (destruct H as [H|H]); subst n;
  lazymatch goal with |- h232_tail _ (N.of_nat ?n) _ = _ => split_bytes k n end;
  cbn [h232_tail N.of_nat Pos.of_succ_nat Pos.succ idx nth_error rbind Nat.leb Nat.add length
    firstn skipn pad0 l2_last app repeat Nat.sub nth]; words_eq; apply f_equal; tri_eq.
Qed.

Definition last3 := last_of.
Lemma snd_last (t : tri) : snd t = last_of t. Proof. now destruct t as [[? ?] ?]. Qed.
Lemma l2_spec_form total first m seed : lookup2_gen total first m seed =
  (let '(s, r) := absorb 12 l2_block (0x9e3779b9, 0x9e3779b9, seed) m in
   snd (mix32 (l2_last first s (N.of_nat (length (if total then m else r))) r))).
Proof.
  unfold lookup2_gen.
  pose proof (fold_blocks (fun s b => l2_mix (add_block 32 4 s b)) 12 m (0x9e3779b9, 0x9e3779b9, seed) pos12) as F.
  rewrite (absorb_ext 12 (fun s b => l2_mix (add_block 32 4 s b)) l2_block pos12) in F
    by (intros; unfold l2_block; apply l2_mix_eq).
  change (@absorb tri 12 l2_block) with (@absorb (N * N * N) 12 l2_block). destruct (blocks 12 m) as [bs r]. rewrite <- F. now rewrite l2_mix_eq.
Qed.
Lemma l2_block_ok s b : tri_ok 32 (l2_block s b).
Proof. apply mix32_bij, add_block_ok32. Qed.
Lemma l2_absorb_ok s m : tri_ok 32 s -> tri_ok 32 (fst (absorb 12 l2_block s m)).
Proof.
  intros H. apply (absorb_inv 12 l2_block pos12 (tri_ok 32) (fun _ => True)); auto using l2_block_ok.
Qed.

Lemma wrap32_len_le (k : list N) : (N.to_nat (wrap 32 (N.of_nat (length k))) <= length k)%nat.
Proof. rewrite wrap_mod. pose proof (N.mod_le (N.of_nat (length k)) (2 ^ 32) (pow2_nz 32)). lia. Qed.
Lemma hash232_gen fast k seed : bytes_ok k -> fits 32 seed ->
  hash232_with fast k seed =
  Ok (lookup2_gen false false (firstn (N.to_nat (N.of_nat (length k) mod 2 ^ 32)) k) seed).
Proof.
  intros Hk Hs. unfold hash232_with. cbv zeta. rewrite wrap_mod.
  pose proof (wrap32_len_le k) as Hle. rewrite wrap_mod in Hle.
  assert (Hlt : N.of_nat (length k) mod 2 ^ 32 < 2 ^ 32) by (apply N.mod_lt, pow2_nz).
  remember (N.to_nat (N.of_nat (length k) mod 2 ^ 32)) as n eqn:En.
  assert (E : N.of_nat (length k) mod 2 ^ 32 = N.of_nat n) by lia. rewrite E in *.
  set (s0 := (0x9e3779b9, 0x9e3779b9, seed)).
  assert (R : (if fast then h232_fast (S (length k)) k k 0 (N.of_nat n) s0 else h232_slow (S (length k)) k (N.of_nat n) s0)
     = Ok (l2_result n k s0)).
  { destruct fast.
    - apply (h232_fast_run n (S (length k)) k 0 s0); auto; lia.
    - apply h232_slow_run; auto; lia. }
  rewrite R. unfold l2_result. cbn [rbind].
  assert (Hs0 : tri_ok 32 s0) by (repeat split; auto; reflexivity).
  pose proof (l2_absorb_ok s0 (firstn n k) Hs0) as Hs1.
  rewrite l2_spec_form. fold s0.
  pose proof (absorb_rest_length 12 l2_block pos12 s0 (firstn n k)) as Lr.
  pose proof (absorb_rest 12 l2_block pos12 s0 (firstn n k)) as Er.
  rewrite firstn_length_le in Lr, Er by lia.
  destruct (absorb 12 l2_block s0 (firstn n k)) as [[[a b] c] r]. cbn [fst snd] in *.
  assert (Hm : (n mod 12 < 12)%nat) by (apply Nat.mod_upper_bound; lia).
  assert (Hd : (n = 12 * (n / 12) + n mod 12)%nat) by (apply Nat.div_mod; lia).
  rewrite h232_last; auto; [|rewrite skipn_length; lia|now apply bytes_ok_skipn].
  cbn [rbind]. rewrite Lr.
  replace (firstn (n mod 12) (skipn (12 * (n / 12)) k)) with r.
  - destruct (mix32 _) as [[? ?] ?]. reflexivity.
  - rewrite Er. rewrite firstn_skipn_comm. f_equal. f_equal. lia.
Qed.
