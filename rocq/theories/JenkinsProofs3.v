(** Package jenkins: word hashing, lookup2 and the 64-bit variant. *)
From Coq Require Import ZArith.
From Verif Require Import Words WordLemmas ListLemmas Blocks Bij Mem Mm3Spec Mm3Proofs
  JenkinsModel JenkinsSpec JenkinsProofs JenkinsProofs2.
Open Scope N_scope.

(** ** lookup3 on words *)
Lemma wbytes_length ws : length (wbytes ws) = (4 * length ws)%nat.
Proof. induction ws as [|w ws IH]; cbn [wbytes flat_map length]; auto. unfold wbytes in IH. rewrite app_length, le_store_length. lia. Qed.
Lemma le_int_store4 x : fits 32 x -> le_int (le_store 4 x) = x.
Proof. intros H. rewrite le_int_load by apply le_store_ok. now apply le_load_store. Qed.
Lemma add_block_words a b c x y z r : fits 32 x -> fits 32 y -> fits 32 z ->
  add_block 32 4 (a, b, c) (le_store 4 x ++ le_store 4 y ++ le_store 4 z ++ r) = (add32 a x, add32 b y, add32 c z).
Proof.
  intros Hx Hy Hz. unfold add_block. rewrite <- !madd32_eq.
  change (firstn 4 (le_store 4 x ++ le_store 4 y ++ le_store 4 z ++ r)) with (le_store 4 x).
  change (firstn 4 (skipn 4 (le_store 4 x ++ le_store 4 y ++ le_store 4 z ++ r))) with (le_store 4 y).
  change (firstn 4 (skipn (4 + 4) (le_store 4 x ++ le_store 4 y ++ le_store 4 z ++ r))) with (le_store 4 z).
  now rewrite !le_int_store4.
Qed.
Lemma add32_0 a : fits 32 a -> add32 a 0 = a. Proof. apply addw_0_r. Qed.

Lemma firstn_skipn_cons (k : list N) i n : (n < length k - i)%nat -> 
  firstn (S n) (skipn i k) = nth i k 0 :: firstn n (skipn (S i) k).
Proof.
  revert k. induction i as [|i IH]; intros k H.
  - destruct k as [|x k]; cbn in *; [lia|reflexivity].
  - destruct k as [|x k]; [cbn in H; lia|]. cbn [skipn nth]. apply IH. cbn in H. lia.
Qed.
Lemma widx_ok k i : (i < length k)%nat -> widx k i = Ok (nth i k 0). Proof. apply idx_ok. Qed.
Lemma nth_fits_list k i : Forall (fits 32) k -> (i < length k)%nat -> fits 32 (nth i k 0).
Proof. intros H Hi. rewrite Forall_forall in H. apply H. now apply nth_In. Qed.

Definition last_of (t : tri) : N := let '(_, _, c) := t in c.
Lemma words_run dec : (forall l, 3 < l -> fits 32 l -> dec l = l - 3) ->
  forall n fuel fuel' k i s, (n < fuel)%nat -> (4 * n <= fuel')%nat -> (i + n <= length k)%nat -> N.of_nat n < 2 ^ 32 ->
  Forall (fits 32) k -> tri_ok 32 s ->
  ('(i, len, s) <~ words_loop dec mix12 fuel k i (N.of_nat n) s ;; words_tail final12 k i len s) =
  Ok (if (n =? 0)%nat then last_of s else last_of (l3_run fuel' s (wbytes (firstn n (skipn i k))))).
Proof.
  intros Hdec n. induction n as [n IH] using lt_wf_ind. intros fuel fuel' k i s Hf Hf' Hl Hn Hk Hs.
  destruct fuel as [|fuel]; [lia|]. destruct s as [[a b] c]. pose proof Hs as (Ha & Hb & Hc). cbn [words_loop].
  destruct (N.ltb_spec 3 (N.of_nat n)) as [Hbig|Hsmall].
  - destruct n as [|[|[|[|m]]]]; try lia. cbn [Nat.eqb].
    rewrite !widx_ok by lia. cbn [rbind]. rewrite Hdec by (auto; exact Hn).
    replace (N.of_nat (S (S (S (S m)))) - 3) with (N.of_nat (S m)) by lia.
    destruct fuel' as [|fuel']; [lia|]. 
    rewrite (IH (S m)) with (fuel' := fuel') ; try lia; auto.
    2:{ apply mix12_ok. repeat split; apply add32_fits. }
    cbn [Nat.eqb]. cbn [l3_run].
    rewrite !(firstn_skipn_cons k i), !(firstn_skipn_cons k (S i)), !(firstn_skipn_cons k (S (S i))) by lia.
    replace (S (S (S i))) with (i + 3)%nat by lia.
    set (rest := firstn (S m) (skipn (i + 3) k)).
    change (wbytes (nth i k 0 :: nth (S i) k 0 :: nth (S (S i)) k 0 :: rest)) with
      (le_store 4 (nth i k 0) ++ le_store 4 (nth (S i) k 0) ++ le_store 4 (nth (S (S i)) k 0) ++ wbytes rest).
    rewrite !app_length, !le_store_length, wbytes_length.
    replace (length rest) with (S m) by (unfold rest; rewrite firstn_length_le; [reflexivity|rewrite skipn_length; lia]).
    replace (4 + (4 + (4 + 4 * S m)) <=? 12)%nat with false by (symmetry; apply Nat.leb_gt; lia).
    rewrite l3_mix_eq by apply add_block_ok32.
    change (firstn 12 (le_store 4 (nth i k 0) ++ le_store 4 (nth (S i) k 0) ++ le_store 4 (nth (S (S i)) k 0) ++ wbytes rest))
      with (le_store 4 (nth i k 0) ++ le_store 4 (nth (S i) k 0) ++ le_store 4 (nth (S (S i)) k 0) ++ []).
    change (skipn 12 (le_store 4 (nth i k 0) ++ le_store 4 (nth (S i) k 0) ++ le_store 4 (nth (S (S i)) k 0) ++ wbytes rest))
      with (wbytes rest).
    rewrite add_block_words by (apply nth_fits_list; auto; lia).
    rewrite Nat.add_0_r, <- (plus_n_Sm i 0), <- (plus_n_Sm i 1), <- (plus_n_Sm i 0), Nat.add_0_r. reflexivity.
  - cbn [rbind]. destruct n as [|n]; [reflexivity|]. destruct fuel' as [|fuel']; [lia|]. cbn [Nat.eqb l3_run].
    rewrite wbytes_length, firstn_length_le by (rewrite skipn_length; lia).
    replace (4 * S n <=? 12)%nat with true by (symmetry; apply Nat.leb_le; lia).
    rewrite l3_final_eq by apply add_block_ok32.
    assert (H0 : fits 32 0) by apply fits_0.
    destruct n as [|[|[|n]]]; try lia; cbn [N.of_nat Pos.of_succ_nat Pos.succ words_tail];
      rewrite !widx_ok by lia; cbn [rbind].
    + rewrite (firstn_skipn_cons k i) by lia. cbn [firstn].
      change (pad0 12 (wbytes [nth i k 0])) with (le_store 4 (nth i k 0) ++ le_store 4 0 ++ le_store 4 0 ++ []).
      rewrite add_block_words by (auto; apply nth_fits_list; auto; lia).
      rewrite (add32_0 b), (add32_0 c), Nat.add_0_r by assumption.
      destruct (final12 _) as [[? ?] ?]. reflexivity.
    + rewrite (firstn_skipn_cons k i), (firstn_skipn_cons k (S i)) by lia. cbn [firstn].
      change (pad0 12 (wbytes [nth i k 0; nth (S i) k 0])) with (le_store 4 (nth i k 0) ++ le_store 4 (nth (S i) k 0) ++ le_store 4 0 ++ []).
      rewrite add_block_words by (auto; apply nth_fits_list; auto; lia).
      rewrite (add32_0 c), <- (plus_n_Sm i 0), Nat.add_0_r by assumption.
      destruct (final12 _) as [[? ?] ?]. reflexivity.
    + rewrite (firstn_skipn_cons k i), (firstn_skipn_cons k (S i)), (firstn_skipn_cons k (S (S i))) by lia. cbn [firstn].
      change (pad0 12 (wbytes [nth i k 0; nth (S i) k 0; nth (S (S i)) k 0])) with
        (le_store 4 (nth i k 0) ++ le_store 4 (nth (S i) k 0) ++ le_store 4 (nth (S (S i)) k 0) ++ []).
      rewrite add_block_words by (auto; apply nth_fits_list; auto; lia).
      rewrite <- (plus_n_Sm i 1), <- (plus_n_Sm i 0), Nat.add_0_r by assumption.
      destruct (final12 _) as [[? ?] ?]. reflexivity.
Qed.

Lemma words_init_eq k seed : words_init k seed =
  (let i := (0xdeadbeef + N.of_nat (length (wbytes k)) + seed) mod 2 ^ 32 in (i, i, i)).
Proof.
  unfold words_init. cbv zeta. rewrite wbytes_length.
  replace (add32 (add32 0xdeadbeef (shl32 (wrap 32 (N.of_nat (length k))) 2)) seed)
    with ((0xdeadbeef + N.of_nat (4 * length k) + seed) mod 2 ^ 32); [reflexivity|].
  unfold add32. rewrite !addw_mod. unfold shl32, shlw. rewrite !wrap_mod, N.shiftl_mul_pow2.
  rewrite N.mul_mod_idemp_l by apply pow2_nz.
  rewrite N.add_mod_idemp_r, N.add_mod_idemp_l by apply pow2_nz. f_equal. f_equal. f_equal.
  change (2 ^ 2) with 4. lia.
Qed.
Lemma words_init_ok k seed : tri_ok 32 (words_init k seed).
Proof. unfold words_init. cbv zeta. repeat split; apply add32_fits. Qed.

(** The word hash of the first [n] words with the length of the whole slice in the
    initial value. *)
Definition words_from (k : list N) (n : nat) (seed : N) : N :=
  fst (l3_from (wbytes (firstn n k)) ((0xdeadbeef + N.of_nat (length (wbytes k)) + seed) mod 2 ^ 32) 0).
Lemma words_core dec k n seed fuel : (forall l, 3 < l -> fits 32 l -> dec l = l - 3) ->
  Forall (fits 32) k -> (n <= length k)%nat -> N.of_nat n < 2 ^ 32 -> (n < fuel)%nat ->
  ('(i, len, s) <~ words_loop dec mix12 fuel k 0 (N.of_nat n) (words_init k seed) ;; words_tail final12 k i len s) =
  Ok (words_from k n seed).
Proof.
  intros Hd Hk Hn Hn' Hf. rewrite (words_run dec Hd n fuel (4 * n)) by (auto using words_init_ok; lia).
  f_equal. change (skipn 0 k) with k. rewrite words_init_eq. cbv zeta. unfold words_from.
  set (i := (_ + seed) mod 2 ^ 32). assert (Hi : i < 2 ^ 32) by (apply N.mod_lt, pow2_nz). clearbody i.
  destruct n as [|n]; cbn [Nat.eqb].
  - cbn. now rewrite N.add_0_r, N.mod_small.
  - unfold l3_from. pose proof (wbytes_length (firstn (S n) k)) as L. rewrite firstn_length_le in L by lia.
    rewrite N.add_0_r, (N.mod_small i) by assumption.
    destruct (wbytes (firstn (S n) k)) as [|x m]; [cbn in L; lia|]. cbv iota. rewrite L.
    destruct (l3_run (4 * S n) (i, i, i) (x :: m)) as [[? ?] ?]. reflexivity.
Qed.
Lemma sub32_3 l : 3 < l -> fits 32 l -> sub32 l 3 = l - 3.
Proof.
  intros H H'. unfold sub32. rewrite subw_mod. change (2 ^ 32) with 4294967296. unfold fits in H'. change (2 ^ 32) with 4294967296 in H'.
  rewrite (N.mod_small 3) by lia.
  replace (l + (4294967296 - 3)) with ((l - 3) + 1 * 4294967296) by lia. rewrite N.mod_add by lia. apply N.mod_small. lia.
Qed.
Lemma hash_words332_eq k seed : Forall (fits 32) k -> N.of_nat (length k) < 2 ^ 32 ->
  hash_words332 k seed = Ok (fst (lookup3 (wbytes k) seed 0)).
Proof.
  intros Hk Hl. unfold hash_words332. rewrite wrap_small by exact Hl.
  rewrite (words_core (fun l => sub32 l 3)) by (auto using sub32_3; lia).
  unfold words_from. now rewrite firstn_all, <- lookup3_from.
Qed.
Lemma xhash_words_eq k len seed : Forall (fits 32) k -> N.of_nat (length k) < 2 ^ 32 ->
  xhash_words k len seed = Ok (fst (lookup3 (wbytes k) seed 0)).
Proof.
  intros Hk Hl. unfold xhash_words.
  assert (E : forall fuel i n s, words_loop (fun l => l - 3) xmix fuel k i n s = words_loop (fun l => l - 3) mix12 fuel k i n s).
  { induction fuel as [|fuel IH]; intros i n [[a b] c]; cbn [words_loop]; auto. destruct (3 <? n); auto.
    destruct (widx k (i + 0)); cbn [rbind]; auto. destruct (widx k (i + 1)); cbn [rbind]; auto.
    destruct (widx k (i + 2)); cbn [rbind]; auto; rewrite xmix_eq; apply IH. }
  assert (E' : forall i n s, words_tail xfinal k i n s = words_tail final12 k i n s).
  { intros i n [[a b] c]. unfold words_tail. destruct n as [|[[?|?|]|[?|?|]|]]; auto;
    repeat (match goal with |- context [widx k ?j] => destruct (widx k j) end; cbn [rbind]; auto);
    now rewrite xfinal_eq. }
  rewrite E.
  transitivity ('(i, len, s) <~ words_loop (fun l => l - 3) mix12 (S (length k)) k 0 (N.of_nat (length k)) (words_init k seed) ;;
     words_tail final12 k i len s).
  { destruct (words_loop _ mix12 _ _ _ _ _) as [[[? ?] ?]| | |]; cbn [rbind]; auto. }
  rewrite words_core by (auto; lia). unfold words_from. now rewrite firstn_all, <- lookup3_from.
Qed.
Lemma hash_words_len_eq k n seed : Forall (fits 32) k -> (n <= length k)%nat -> N.of_nat (length k) < 2 ^ 32 ->
  hash_words_len k (Z.of_nat n) seed = Ok (words_from k n seed).
Proof.
  intros Hk Hn Hl. unfold hash_words_len.
  replace (_ * 4 <? _)%Z with false by (symmetry; apply Z.ltb_ge; lia).
  replace (Z.of_nat n <? 0)%Z with false by (symmetry; apply Z.ltb_ge; lia).
  rewrite Nat2Z.id. replace (Z.to_N (Z.of_nat n)) with (N.of_nat n) by lia. apply words_core; auto; lia.
Qed.
Lemma idx_none k i : (length k <= i)%nat -> idx k i = Panics.
Proof. intros H. unfold idx. now rewrite (proj2 (nth_error_None k i) H). Qed.
Lemma words_panic n : forall fuel k i s, (n < fuel)%nat -> (length k < i + n)%nat -> (0 < n)%nat ->
  ('(i, len, s) <~ words_loop (fun l => l - 3) mix12 fuel k i (N.of_nat n) s ;; words_tail final12 k i len s) = Panics.
Proof.
  induction n as [n IH] using lt_wf_ind. intros fuel k i s Hf Hl H00.
  destruct fuel as [|fuel]; [lia|]. destruct s as [[a b] c]. cbn [words_loop].
  destruct (N.ltb_spec 3 (N.of_nat n)) as [Hbig|Hsmall].
  - unfold widx.
    destruct (Nat.ltb_spec (i + 0) (length k)) as [H0|H0]; [rewrite (idx_ok k _ H0)|rewrite idx_none by lia; reflexivity].
    destruct (Nat.ltb_spec (i + 1) (length k)) as [H1|H1]; [rewrite (idx_ok k _ H1)|cbn [rbind]; rewrite idx_none by lia; reflexivity].
    destruct (Nat.ltb_spec (i + 2) (length k)) as [H2|H2]; [rewrite (idx_ok k _ H2)|cbn [rbind]; rewrite (idx_none k (i+2)) by lia; reflexivity].
    cbn [rbind]. replace (N.of_nat n - 3) with (N.of_nat (n - 3)) by lia. apply IH; lia.
  - cbn [rbind]. destruct n as [|[|[|[|n]]]]; try lia; cbn [N.of_nat Pos.of_succ_nat Pos.succ words_tail]; unfold widx.
    + now rewrite idx_none by lia.
    + now rewrite idx_none by lia.
    + now rewrite idx_none by lia.
Qed.
Lemma hash_words_len_panics k n seed : (Z.of_nat (length k) < n)%Z -> hash_words_len k n seed = Panics.
Proof.
  intros H. unfold hash_words_len. destruct (_ * 4 <? n)%Z; auto.
  replace (n <? 0)%Z with false by (symmetry; apply Z.ltb_ge; lia).
  replace (Z.to_N n) with (N.of_nat (Z.to_nat n)) by lia. apply words_panic; lia.
Qed.

(** The prefix with shifted initial value. *)
Lemma init_shift L n pc : n <= L ->
  (0xdeadbeef + L + pc) mod 2 ^ 32 = (0xdeadbeef + n + (pc + (L - n)) mod 2 ^ 32) mod 2 ^ 32.
Proof. intros H. rewrite N.add_mod_idemp_r by apply pow2_nz. f_equal. lia. Qed.
Lemma jenkins364_explicit k n pc pb : bytes_ok k -> (1 <= n <= length k)%nat ->
  jenkins364 k (Z.of_nat n) pc pb = Ok (lookup3 (firstn n k) ((pc + N.of_nat (length k - n)) mod 2 ^ 32) pb).
Proof.
  intros Hk Hn. rewrite jenkins364_prefix by assumption. rewrite lookup3_from.
  rewrite (init_shift (N.of_nat (length k)) (N.of_nat n)) by lia. rewrite firstn_length_le by lia.
  do 5 f_equal. lia.
Qed.
Lemma words_from_shift k n seed : (n <= length k)%nat ->
  words_from k n seed = fst (lookup3 (wbytes (firstn n k)) ((seed + 4 * N.of_nat (length k - n)) mod 2 ^ 32) 0).
Proof.
  intros Hn. unfold words_from. rewrite lookup3_from, !wbytes_length, firstn_length_le by lia.
  rewrite (init_shift (N.of_nat (4 * length k)) (N.of_nat (4 * n))) by lia.
  do 6 f_equal. lia.
Qed.
