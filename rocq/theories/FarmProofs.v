(** Package farm: every function returns, in bounds, what the specification says. *)
From Coq Require Import NArith ZArith List Arith Lia.
From Verif Require Import Words WordLemmas ListLemmas Mem Mm3Proofs JenkinsProofs JenkinsProofs2 JenkinsProofs3 JenkinsProofs4 JenkinsModel JenkinsProofs5 FarmModel FarmSpec.
Import ListNotations.
Open Scope N_scope.

(** ** Fetches *)
Lemma idxz_nat s i j : (Z.to_nat j = i)%nat -> (0 <= j)%Z -> idxz s j = idx s i.
Proof. intros <- H. unfold idxz. destruct (Z.ltb_spec j 0); [lia|reflexivity]. Qed.
Lemma fetch64_ok s j i : j = Z.of_nat i -> (i + 8 <= length s)%nat -> bytes_ok s -> fetch64 s j = Ok (w64 s i).
Proof.
  intros -> H Hs. unfold w64. rewrite <- (byte_word64_ok s i H Hs). unfold fetch64, byte_word64.
  rewrite (idxz_nat s (i + 0)), (idxz_nat s (i + 1)), (idxz_nat s (i + 2)), (idxz_nat s (i + 3)),
    (idxz_nat s (i + 4)), (idxz_nat s (i + 5)), (idxz_nat s (i + 6)), (idxz_nat s (i + 7)) by lia.
  reflexivity.
Qed.
Lemma fetch32_ok s j i : j = Z.of_nat i -> (i + 4 <= length s)%nat -> bytes_ok s -> fetch32 s j = Ok (w32 s i).
Proof.
  intros -> Hl Hk. unfold w32, fetch32.
  rewrite (idxz_nat s (i + 0)), (idxz_nat s (i + 1)), (idxz_nat s (i + 2)), (idxz_nat s (i + 3)) by lia.
  rewrite !idx_ok by lia. cbn [rbind].
  assert (E : forall j, nth (i + j) s 0 = nth j (skipn i s) 0) by (intros; now rewrite nth_skipn').
  rewrite !E.
  assert (Hl' : (4 <= length (skipn i s))%nat) by (rewrite skipn_length; lia).
  assert (Hk' : bytes_ok (skipn i s)) by now apply bytes_ok_skipn.
  set (r := skipn i s) in *. clearbody r. split_bytes r 4%nat. cbn [nth firstn].
  cbn [le_load]. rewrite !shl32_byte by (assumption || lia).
  rewrite ?N.shiftl_lor, ?N.shiftl_shiftl, ?N.shiftl_0_l, ?N.lor_0_r, !N.lor_assoc. reflexivity.
Qed.
Lemma tailz_ok s j i : j = Z.of_nat i -> (i <= length s)%nat -> tailz s j = Ok (skipn i s).
Proof.
  intros -> H. unfold tailz. destruct (Z.ltb_spec (Z.of_nat i) 0); [lia|].
  rewrite Nat2Z.id. now apply tail_from_ok.
Qed.
Lemma w64_skipn s a b : w64 (skipn a s) b = w64 s (a + b).
Proof. unfold w64. now rewrite skipn_add. Qed.
Lemma w32_skipn s a b : w32 (skipn a s) b = w32 s (a + b).
Proof. unfold w32. now rewrite skipn_add. Qed.
Lemma block64_skipn s a b : block64 (skipn a s) b = block64 s (a + b).
Proof. unfold block64. rewrite !w64_skipn, !Nat.add_assoc. reflexivity. Qed.
Lemma fetch_words8_ok s : (64 <= length s)%nat -> bytes_ok s -> fetch_words8 s = Ok (block64 s 0).
Proof.
  intros H Hs. unfold fetch_words8. pose proof (bytes_ok_skipn 32 s Hs) as Hs'.
  rewrite (fetch64_ok s 0 0), (fetch64_ok s 8 8), (fetch64_ok s 16 16), (fetch64_ok s 24 24),
    (fetch64_ok s 40 40), (fetch64_ok s 48 48), (tail_from_ok s 32) by (auto; lia). cbn [rbind].
  assert (L : (length (skipn 32 s) = length s - 32)%nat) by apply skipn_length.
  rewrite (fetch64_ok (skipn 32 s) 0 0), (fetch64_ok (skipn 32 s) 8 8), (fetch64_ok (skipn 32 s) 16 16),
    (fetch64_ok (skipn 32 s) 24 24) by (auto; lia).
  cbn [rbind]. rewrite !w64_skipn. reflexivity.
Qed.
Lemma fetch_words4_ok s j i : j = Z.of_nat i -> (i + 32 <= length s)%nat -> bytes_ok s ->
  fetch_words4 s j = Ok (w64 s i, w64 s (i + 8), w64 s (i + 16), w64 s (i + 24)).
Proof.
  intros -> H Hs. unfold fetch_words4. pose proof (bytes_ok_skipn i s Hs) as Hs'.
  assert (L : (length (skipn i s) = length s - i)%nat) by apply skipn_length.
  rewrite (fetch64_ok s (Z.of_nat i + 16) (i + 16)), (fetch64_ok s (Z.of_nat i) i), (tailz_ok s (Z.of_nat i) i) by (auto; lia).
  cbn [rbind].
  rewrite (fetch64_ok (skipn i s) 0 0), (fetch64_ok (skipn i s) 8 8), (fetch64_ok (skipn i s) 16 16),
    (fetch64_ok (skipn i s) 24 24) by (auto; lia).
  cbn [rbind]. now rewrite !w64_skipn.
Qed.

(** ** Mixing functions *)
Ltac same_mix :=
  unfold fk0, fk1, fk2, fc1, fc2, K0, K1, K2, C1, C2, words8, W8, reg7, R7, reg8, R8, hash_len16, hash128to64, S_hash_len16, S_shift_mix, shift_mix in *;
  repeat match goal with |- context [if ?n =? 0 then _ else _] => change (n =? 0) with false; cbv iota end;
  reflexivity.
Lemma rotate64_rotr x n : n <> 0 -> rotate64 x n = rotr64 x n.
Proof. intros H. unfold rotate64. destruct (N.eqb_spec n 0); [contradiction|reflexivity]. Qed.
Lemma fmix_eq h : fmix h = S_fmix h.
Proof. reflexivity. Qed.
Lemma mur_end_eq h : mur_end h = S_mur_end h.
Proof. reflexivity. Qed.
Lemma mur_begin_eq h : mur_begin h = S_mur_begin h.
Proof. reflexivity. Qed.
Lemma mur_eq a h : mur a h = S_mur a h.
Proof. unfold mur, S_mur. now rewrite mur_end_eq, mur_begin_eq. Qed.
Lemma shift_mix_eq x : shift_mix x = S_shift_mix x.
Proof. reflexivity. Qed.
Lemma hash_len16_mul_eq u v m : hash_len16_mul u v m = S_hash_len16_mul u v m.
Proof. reflexivity. Qed.
Lemma hash_len16_eq u v : hash_len16 u v = S_hash_len16 u v.
Proof. reflexivity. Qed.
Lemma hash_len17to32_words_eq l a b c d : hash_len17to32_words l a b c d = S_hash_len17to32_words l a b c d.
Proof.
  unfold hash_len17to32_words, S_hash_len17to32_words, rotate64, rotr64, rotrw, hash_len16_mul, S_hash_len16_mul.
  same_mix.
Qed.
Lemma weak_words_eq w x y z a b : weak_words w x y z a b = S_weak_words w x y z a b.
Proof. unfold weak_words, S_weak_words, rotate64, rotr64, rotrw. same_mix. Qed.
Lemma hash_len33to64_words_eq l a b c d e f g h :
  hash_len33to64_words l a b c d e f g h = S_hash_len33to64_words l a b c d e f g h.
Proof.
  unfold hash_len33to64_words, S_hash_len33to64_words, rotate64, rotr64, rotrw, hash_len16_mul, S_hash_len16_mul.
  same_mix.
Qed.
Lemma na_round_eq ws r : na_round ws r = S_na_round ws r.
Proof. unfold na_round, S_na_round, weak_words, S_weak_words, rotate64, rotr64, rotrw. same_mix. Qed.
Lemma uo_round_eq mul ws r : uo_round mul ws r = S_uo_round mul ws r.
Proof. unfold uo_round, S_uo_round, rotate64, rotr64, rotrw. same_mix. Qed.
Lemma uo_h_eq x y m r : r <> 0 -> uo_h x y m r = S_uo_h x y m r.
Proof.
  intros H. unfold uo_h, S_uo_h. cbv zeta. now rewrite rotate64_rotr.
Qed.
Lemma uo_final_eq l mul ws r : uo_final l mul ws r = S_uo_final l mul ws r.
Proof.
  unfold uo_final, S_uo_final, uo_h, S_uo_h, weak_words, S_weak_words, rotate64, rotr64, rotrw, hash_len16_mul, S_hash_len16_mul.
  same_mix.
Qed.
Lemma cm_round_eq x y r : cm_round x y r = S_cm_round x y r.
Proof. reflexivity. Qed.
Lemma cc_middle_eq r : cc_middle r = S_cc_middle r.
Proof. unfold cc_middle, S_cc_middle, rotate64, rotr64, rotrw. same_mix. Qed.
Lemma cc_tail_round_eq w r : cc_tail_round w r = S_cc_tail_round w r.
Proof. unfold cc_tail_round, S_cc_tail_round, weak_words, S_weak_words, rotate64, rotr64, rotrw. same_mix. Qed.
Lemma cc_final_eq r : cc_final r = S_cc_final r.
Proof. reflexivity. Qed.
Lemma h32_13_words_eq l s a b c d e f : h32_13_words l s a b c d e f = S_h32_13_words l s a b c d e f.
Proof.
  unfold h32_13_words, S_h32_13_words, mur, S_mur, mur_end, S_mur_end, mur_begin, S_mur_begin, rotate32, rotr32, rotrw.
  same_mix.
Qed.
Lemma mk_round_eq a b c d e r : mk_round a b c d e r = S_mk_round a b c d e r.
Proof.
  unfold mk_round, S_mk_round, mur, S_mur, mur_end, S_mur_end, mur_begin, S_mur_begin, rotate32, rotr32, rotrw.
  same_mix.
Qed.
Lemma mk_init_eq l a b c d e : mk_init l a b c d e = S_mk_init l a b c d e.
Proof.
  unfold mk_init, S_mk_init, mur, S_mur, mur_end, S_mur_end, mur_begin, S_mur_begin, rotate32, rotr32, rotrw.
  same_mix.
Qed.
Lemma mk_final_eq r : mk_final r = S_mk_final r.
Proof.
  unfold mk_final, S_mk_final, mur, S_mur, mur_end, S_mur_end, mur_begin, S_mur_begin, rotate32, rotr32, rotrw.
  same_mix.
Qed.
