(** Package farm, continued: loops and public functions. *)
From Coq Require Import NArith ZArith List Arith Lia.
From Verif Require Import Words WordLemmas ListLemmas Mem FarmModel FarmSpec FarmProofs.
Import ListNotations.
Open Scope N_scope.

Lemma iterate_S {A} n (f : nat -> A -> A) a : iterate (S n) f a = iterate n (fun i => f (S i)) (f 0%nat a).
Proof.
  unfold iterate. cbn [seq fold_left]. rewrite <- seq_shift. generalize (f 0%nat a) as b. generalize (seq 0 n) as l.
  induction l as [|x l IH]; intros b; cbn; auto.
Qed.
Lemma iterate_ext {A} n (f g : nat -> A -> A) a :
  (forall i x, (i < n)%nat -> f i x = g i x) -> iterate n f a = iterate n g a.
Proof.
  revert f g a. induction n as [|n IH]; intros f g a H; [reflexivity|].
  rewrite !iterate_S, H by lia. apply IH. intros i x Hi. apply H. lia.
Qed.
Lemma div_step n k : (0 < k)%nat -> (k <= n)%nat -> (n / k = S ((n - k) / k))%nat.
Proof.
  intros Hk H. replace n with ((n - k) + 1 * k)%nat at 1 by lia. rewrite Nat.div_add by lia. lia.
Qed.
Lemma skipn_len {A} n (s : list A) : length (skipn n s) = (length s - n)%nat.
Proof. apply skipn_length. Qed.

Lemma uo_loop_ok mul : forall fuel s r, (length s <= fuel)%nat -> bytes_ok s ->
  uo_loop mul fuel s r = Ok (iterate ((length s - 1) / 64) (fun i => S_uo_round mul (block64 s (64 * i))) r).
Proof.
  induction fuel as [|fuel IH]; intros s r Hf Hs; cbn [uo_loop]; destruct (Nat.ltb_spec 64 (length s)) as [H|H].
  - lia.
  - rewrite (Nat.div_small (length s - 1)) by lia. reflexivity.
  - rewrite fetch_words8_ok, tail_from_ok by (auto; lia). cbn [rbind].
    rewrite IH by (rewrite ?skipn_len; auto using bytes_ok_skipn; lia). rewrite skipn_len.
    rewrite (div_step (length s - 1) 64) by lia. rewrite iterate_S, uo_round_eq.
    replace (length s - 1 - 64)%nat with (length s - 64 - 1)%nat by lia. f_equal.
    apply iterate_ext. intros i x Hi. rewrite block64_skipn. do 2 f_equal. lia.
  - rewrite (Nat.div_small (length s - 1)) by lia. reflexivity.
Qed.

Lemma zland_63 n : Z.land n 63 = (n mod 64)%Z.
Proof. change 63%Z with (Z.ones 6). rewrite Z.land_ones by lia. reflexivity. Qed.
Lemma zland_127 n : Z.land n 127 = (n mod 128)%Z.
Proof. change 127%Z with (Z.ones 7). rewrite Z.land_ones by lia. reflexivity. Qed.
Lemma last64_idx_eq s : (64 <= length s)%nat -> last64_idx s = Z.of_nat (length s - 64).
Proof.
  intros H. unfold last64_idx, zlen. rewrite zland_63.
  pose proof (Z.div_mod (Z.of_nat (length s) - 1) 64). lia.
Qed.
Lemma ulen64_len s : ulen64 s = len64 s.
Proof. unfold ulen64, len64. apply wrap_mod. Qed.
Lemma ulen32_len s : ulen32 s = len32 s.
Proof. unfold ulen32, len32. apply wrap_mod. Qed.

Lemma uo_ok s seed0 seed1 : (64 < length s)%nat -> bytes_ok s ->
  hash64_with_seeds s seed0 seed1 = Ok (spec_over64 s seed0 seed1).
Proof.
  intros H Hs. unfold hash64_with_seeds. destruct (Nat.leb_spec (length s) 64); [lia|].
  rewrite (tailz_ok s _ (length s - 64)) by (try apply last64_idx_eq; lia). cbv zeta. cbn [rbind].
  rewrite uo_loop_ok by auto. cbn [rbind].
  rewrite fetch_words8_ok by (rewrite ?skipn_len; auto using bytes_ok_skipn; lia). cbn [rbind].
  rewrite uo_final_eq, block64_skipn, ulen64_len, Nat.add_0_r. reflexivity.
Qed.

(** *** Up to 64 bytes *)
Lemma small_wrap w n : N.of_nat n < 2 ^ w -> wrap w (N.of_nat n) = N.of_nat n.
Proof. intros H. rewrite wrap_mod. now apply N.mod_small. Qed.
Lemma nth_byte s i : bytes_ok s -> byte_ok (nth i s 0).
Proof.
  intros H. destruct (Nat.ltb_spec i (length s)) as [L|L].
  - unfold bytes_ok in H. rewrite Forall_forall in H. apply H, nth_In, L.
  - rewrite nth_overflow by lia. reflexivity.
Qed.
Lemma w64_fits s i : bytes_ok s -> fits 64 (w64 s i).
Proof.
  intros H. unfold w64. apply le_load_fits.
  - apply bytes_ok_firstn, bytes_ok_skipn, H.
  - pose proof (firstn_le_length 8 (skipn i s)). lia.
Qed.
Lemma w32_fits s i : bytes_ok s -> fits 32 (w32 s i).
Proof.
  intros H. unfold w32. apply le_load_fits.
  - apply bytes_ok_firstn, bytes_ok_skipn, H.
  - pose proof (firstn_le_length 4 (skipn i s)). lia.
Qed.
Lemma add64_small a b : a + b < 2 ^ 64 -> add64 a b = a + b.
Proof. intros H. unfold add64. rewrite addw_mod. now apply N.mod_small. Qed.
Lemma add32_small a b : a + b < 2 ^ 32 -> add32 a b = a + b.
Proof. intros H. unfold add32. rewrite addw_mod. now apply N.mod_small. Qed.
Lemma sub64_small a b : b <= a -> a < 2 ^ 64 -> sub64 a b = a - b.
Proof.
  intros H1 H2. unfold sub64. rewrite subw_mod. rewrite (N.mod_small b) by lia.
  replace (a + (2 ^ 64 - b)) with (a - b + 1 * 2 ^ 64) by lia. rewrite N.mod_add by discriminate. apply N.mod_small. lia.
Qed.
Lemma shl_mul w x k : x * 2 ^ k < 2 ^ w -> shlw w x k = x * 2 ^ k.
Proof. intros H. unfold shlw. rewrite N.shiftl_mul_pow2, wrap_mod. now apply N.mod_small. Qed.
Lemma pow64 : 2 ^ 64 = 18446744073709551616. Proof. reflexivity. Qed.
Lemma pow32 : 2 ^ 32 = 4294967296. Proof. reflexivity. Qed.
Lemma idxz_ok s j i : j = Z.of_nat i -> (i < length s)%nat -> idxz s j = Ok (nth i s 0).
Proof. intros -> H. rewrite (idxz_nat s i) by lia. now apply idx_ok. Qed.
Lemma len0to16_ok s : (length s <= 16)%nat -> bytes_ok s -> hash_len0to16 s = Ok (spec_0to16 s).
Proof.
  intros H Hs. unfold hash_len0to16, spec_0to16, ulen64. cbv zeta.
  rewrite small_wrap by (rewrite pow64; lia).
  pose proof pow64 as P64. pose proof pow32 as P32.
  destruct (Nat.leb_spec 8 (length s)) as [H8|H8].
  { replace (8 <=? N.of_nat (length s)) with true by (symmetry; apply N.leb_le; lia).
    rewrite (fetch64_ok s 0 0), (fetch64_ok s _ (length s - 8)) by
      (auto; try lia; rewrite sub64_small by lia; lia). reflexivity. }
  replace (8 <=? N.of_nat (length s)) with false by (symmetry; apply N.leb_gt; lia).
  destruct (Nat.leb_spec 4 (length s)) as [H4|H4].
  { replace (4 <=? N.of_nat (length s)) with true by (symmetry; apply N.leb_le; lia).
    rewrite (fetch32_ok s 0 0), (fetch32_ok s _ (length s - 4)) by
      (auto; try lia; rewrite sub64_small by lia; lia). cbn [rbind].
    pose proof (w32_fits s 0 Hs) as F. unfold fits in F. rewrite P32 in F.
    unfold shl64. rewrite shl_mul by (change (2 ^ 3) with 8; lia). change (2 ^ 3) with 8.
    rewrite add64_small by lia. rewrite (N.mul_comm _ 8). reflexivity. }
  replace (4 <=? N.of_nat (length s)) with false by (symmetry; apply N.leb_gt; lia).
  destruct (Nat.leb_spec 1 (length s)) as [H1|H1].
  { replace (0 <? N.of_nat (length s)) with true by (symmetry; apply N.ltb_lt; lia).
    assert (D : (length s / 2 < length s)%nat) by (apply Nat.div_lt; lia).
    assert (E1 : Z.of_N (shr (N.of_nat (length s)) 1) = Z.of_nat (length s / 2)).
    { unfold shr. rewrite N.shiftr_div_pow2. change (2 ^ 1) with (N.of_nat 2). rewrite <- Nat2N.inj_div. apply nat_N_Z. }
    assert (E2 : Z.of_N (sub64 (N.of_nat (length s)) 1) = Z.of_nat (length s - 1)) by (rewrite sub64_small; lia).
    rewrite (idxz_ok s 0 0), (idxz_ok s _ _ E1), (idxz_ok s _ _ E2) by lia.
    cbn [rbind].
    pose proof (nth_byte s 0 Hs). pose proof (nth_byte s (length s / 2) Hs). pose proof (nth_byte s (length s - 1) Hs).
    unfold byte_ok in *.
    unfold shl32. rewrite !shl_mul by (change (2 ^ 8) with 256; change (2 ^ 2) with 4; lia).
    change (2 ^ 8) with 256; change (2 ^ 2) with 4. rewrite small_wrap by lia.
    rewrite !add32_small by lia. rewrite (N.mul_comm _ 256), (N.mul_comm _ 4). reflexivity. }
  replace (0 <? N.of_nat (length s)) with false by (symmetry; apply N.ltb_ge; lia). reflexivity.
Qed.
Lemma na_ok s : (length s <= 64)%nat -> bytes_ok s -> na_hash64 s = Ok (spec_upto64 s).
Proof.
  intros H Hs. unfold na_hash64, spec_upto64. cbv zeta.
  destruct (Nat.leb_spec (length s) 16) as [L|L].
  { replace (length s <=? 32)%nat with true by (symmetry; apply Nat.leb_le; lia). now apply len0to16_ok. }
  destruct (Nat.leb_spec (length s) 32) as [L'|L'].
  { unfold hash_len17to32, zlen.
    rewrite (fetch64_ok s 0 0), (fetch64_ok s 8 8), (fetch64_ok s (Z.of_nat (length s) - 8) (length s - 8)), (fetch64_ok s (Z.of_nat (length s) - 16) (length s - 16)) by (auto; lia).
    cbn [rbind]. now rewrite hash_len17to32_words_eq, ulen64_len. }
  destruct (Nat.leb_spec (length s) 64) as [L''|L'']; [|lia].
  unfold hash_len33to64, zlen.
  rewrite (fetch64_ok s 0 0), (fetch64_ok s 8 8), (fetch64_ok s 16 16), (fetch64_ok s 24 24),
    (fetch64_ok s (Z.of_nat (length s) - 8) (length s - 8)), (fetch64_ok s (Z.of_nat (length s) - 16) (length s - 16)), (fetch64_ok s (Z.of_nat (length s) - 24) (length s - 24)),
    (fetch64_ok s (Z.of_nat (length s) - 32) (length s - 32)) by (auto; lia).
  cbn [rbind]. now rewrite hash_len33to64_words_eq, ulen64_len.
Qed.
Theorem hash64_ok s : bytes_ok s -> farm_hash64 s = Ok (spec_hash64 s).
Proof.
  intros Hs. unfold farm_hash64, spec_hash64. destruct (Nat.leb_spec (length s) 64).
  - now apply na_ok.
  - now apply uo_ok.
Qed.
Theorem hash64_seeds_ok s a b : bytes_ok s -> hash64_with_seeds s a b = Ok (spec_hash64_seeds s a b).
Proof.
  intros Hs. unfold spec_hash64_seeds. destruct (Nat.leb_spec (length s) 64) as [L|L].
  - unfold hash64_with_seeds. replace (length s <=? 64)%nat with true by (symmetry; apply Nat.leb_le; lia).
    unfold na_hash64_with_seeds. rewrite na_ok by auto. cbn [rbind]. now rewrite hash_len16_eq.
  - now apply uo_ok.
Qed.
Theorem hash64_seed_ok s a : bytes_ok s -> farm_hash64_with_seed s a = Ok (spec_hash64_seed s a).
Proof.
  intros Hs. unfold farm_hash64_with_seed, spec_hash64_seed. destruct (Nat.leb_spec (length s) 64) as [L|L].
  - unfold na_hash64_with_seed, na_hash64_with_seeds. rewrite na_ok by auto. cbn [rbind]. now rewrite hash_len16_eq.
  - now apply uo_ok.
Qed.

(** ** 128 bits *)
Lemma cm_loop_ok : forall fuel s l r, (length s <= fuel)%nat -> (16 < length s)%nat -> bytes_ok s -> l = (Z.of_nat (length s) - 16)%Z ->
  cm_loop fuel s l r = Ok (iterate ((length s - 1) / 16) (fun i => S_cm_round (w64 s (16 * i)) (w64 s (16 * i + 8))) r).
Proof.
  induction fuel as [|fuel IH]; intros s l r Hf H Hs ->; [lia|]. cbn [cm_loop].
  rewrite (fetch64_ok s 0 0), (fetch64_ok s 8 8), tail_from_ok by (auto; lia). cbn [rbind]. cbv zeta.
  rewrite (div_step (length s - 1) 16) by lia. rewrite iterate_S, cm_round_eq.
  destruct (Z.leb_spec (Z.of_nat (length s) - 16 - 16) 0) as [L|L].
  - rewrite (Nat.div_small (length s - 1 - 16)) by lia. reflexivity.
  - rewrite IH by (rewrite ?skipn_len; auto using bytes_ok_skipn; lia). rewrite skipn_len.
    replace (length s - 1 - 16)%nat with (length s - 16 - 1)%nat by lia. f_equal.
    apply iterate_ext. intros i x Hi. rewrite !w64_skipn. f_equal; f_equal; lia.
Qed.
Lemma murmur_ok s lo hi : bytes_ok s -> city_murmur s lo hi = Ok (spec_murmur s lo hi).
Proof.
  intros Hs. unfold city_murmur, spec_murmur. cbv zeta. unfold zlen.
  destruct (Nat.leb_spec (length s) 16) as [L|L].
  - replace (Z.of_nat (length s) - 16 <=? 0)%Z with true by (symmetry; apply Z.leb_le; lia).
    rewrite len0to16_ok by auto. cbn [rbind].
    destruct (Nat.leb_spec 8 (length s)).
    + rewrite (fetch64_ok s 0 0) by (auto; lia). reflexivity.
    + reflexivity.
  - replace (Z.of_nat (length s) - 16 <=? 0)%Z with false by (symmetry; apply Z.leb_gt; lia).
    rewrite (fetch64_ok s (Z.of_nat (length s) - 8) (length s - 8)), (fetch64_ok s (Z.of_nat (length s) - 16) (length s - 16)) by (auto; lia). cbn [rbind].
    rewrite cm_loop_ok by (auto; lia). cbn [rbind]. rewrite !ulen64_len.
    rewrite !hash_len16_eq. destruct (iterate _ _ _) as [[[a b] c] d]. reflexivity.
Qed.
Lemma cc_loop_ok : forall fuel s l r, (length s <= fuel)%nat -> (128 <= length s)%nat -> bytes_ok s -> l = Z.of_nat (length s) ->
  cc_loop fuel s l r =
  Ok (Z.of_nat (length s mod 128), iterate (2 * (length s / 128)) (fun i => S_na_round (block64 s (64 * i))) r).
Proof.
  induction fuel as [|fuel IH]; intros s l r Hf H Hs ->; [lia|]. cbn [cc_loop].
  rewrite fetch_words8_ok, tail_from_ok by (auto; lia). cbn [rbind]. cbv zeta.
  rewrite fetch_words8_ok, tail_from_ok by (rewrite ?skipn_len; auto using bytes_ok_skipn; lia). cbn [rbind].
  rewrite <- skipn_add, !na_round_eq. change (64 + 64)%nat with 128%nat.
  rewrite (div_step (length s) 128) by lia.
  replace (2 * S ((length s - 128) / 128))%nat with (S (S (2 * ((length s - 128) / 128)))) by lia.
  rewrite !iterate_S. rewrite block64_skipn.
  assert (M : (length s mod 128 = (length s - 128) mod 128)%nat).
  { replace (length s) with ((length s - 128) + 1 * 128)%nat at 1 by lia. apply Nat.mod_add. lia. }
  rewrite M.
  destruct (Z.ltb_spec (Z.of_nat (length s) - 128) 128) as [L|L].
  - rewrite (Nat.div_small (length s - 128)), (Nat.mod_small (length s - 128)) by lia. do 2 f_equal. lia.
  - rewrite IH by (rewrite ?skipn_len; auto using bytes_ok_skipn; lia). rewrite skipn_len. do 2 f_equal.
    apply iterate_ext. intros i x Hi. rewrite !block64_skipn. do 2 f_equal. lia.
Qed.
Lemma cc_tail_ok : forall k fuel (last : list N) done m r, (k <= fuel)%nat -> length last = 128%nat -> bytes_ok last -> (m < 128)%nat ->
  (k = (m + 31 - done) / 32)%nat -> (exists q, done = 32 * q)%nat ->
  cc_tail fuel last (Z.of_nat done) (Z.of_nat m) r =
  Ok (iterate k (fun i => let o := (128 - done - 32 * S i)%nat in
                          S_cc_tail_round (w64 last o, w64 last (o + 8), w64 last (o + 16), w64 last (o + 24))) r).
Proof.
  induction k as [|k IH]; intros fuel last done m r Hf Hl Hb Hm Hk [q Hq].
  - assert (m <= done)%nat.
    { destruct (le_lt_dec m done); auto. exfalso.
      assert (1 <= (m + 31 - done) / 32)%nat by (apply Nat.div_le_lower_bound; lia). lia. }
    destruct fuel; cbn [cc_tail]; destruct (Z.ltb_spec (Z.of_nat done) (Z.of_nat m)); try lia; reflexivity.
  - assert (done < m)%nat.
    { destruct (le_lt_dec m done); auto. exfalso. rewrite Nat.div_small in Hk by lia. lia. }
    destruct fuel as [|fuel]; [lia|]. cbn [cc_tail]. destruct (Z.ltb_spec (Z.of_nat done) (Z.of_nat m)); try lia. cbv zeta.
    rewrite (fetch_words4_ok last _ (128 - done - 32)) by (auto; lia). cbn [rbind].
    rewrite iterate_S, cc_tail_round_eq.
    replace (Z.of_nat done + 32)%Z with (Z.of_nat (done + 32)) by lia.
    rewrite IH; auto; try lia.
    + f_equal. cbv zeta. replace (128 - done - 32 * 1)%nat with (128 - done - 32)%nat by lia.
      apply iterate_ext. intros i x Hi. now replace (128 - (done + 32) - 32 * S i)%nat with (128 - done - 32 * S (S i))%nat by lia.
    + rewrite (div_step (m + 31 - done) 32) in Hk by lia.
      replace (m + 31 - (done + 32))%nat with (m + 31 - done - 32)%nat by lia. lia.
    + exists (S q). lia.
Qed.
Lemma last128_idx (s : list N) : (128 <= length s)%nat ->
  ((Z.of_nat (length s) - 1) / 128 * 128 + Z.land (Z.of_nat (length s) - 1) 127 - 127)%Z = Z.of_nat (length s - 128).
Proof.
  intros H. rewrite zland_127. pose proof (Z.div_mod (Z.of_nat (length s) - 1) 128). lia.
Qed.
Theorem hash128_seed_ok s lo hi : bytes_ok s -> farm_hash128_with_seed s lo hi = Ok (spec_hash128_seed s lo hi).
Proof.
  intros Hs. unfold farm_hash128_with_seed, city_hash128_with_seed, spec_hash128_seed. cbv zeta. unfold zlen.
  destruct (Nat.ltb_spec (length s) 128) as [L|L].
  { replace (Z.of_nat (length s) <? 128)%Z with true by (symmetry; apply Z.ltb_lt; lia). now apply murmur_ok. }
  replace (Z.of_nat (length s) <? 128)%Z with false by (symmetry; apply Z.ltb_ge; lia).
  rewrite (tailz_ok s _ (length s - 128)) by (try apply last128_idx; lia). cbn [rbind].
  rewrite (fetch64_ok s 0 0), (fetch64_ok s 8 8), (fetch64_ok s 88 88) by (auto; lia). cbn [rbind].
  rewrite cc_loop_ok by (auto; lia). cbn [rbind]. rewrite cc_middle_eq.
  assert (M : (length s mod 128 < 128)%nat) by (apply Nat.mod_upper_bound; lia).
  change 0%Z with (Z.of_nat 0).
  rewrite (cc_tail_ok ((length s mod 128 + 31) / 32)).
  - cbn [rbind]. rewrite cc_final_eq. unfold spec_128_long. cbv zeta. rewrite !rotate64_rotr by discriminate.
    rewrite !ulen64_len. do 2 f_equal.
    apply iterate_ext. intros i x Hi. rewrite !w64_skipn.
    assert ((length s mod 128 + 31) / 32 < 5)%nat by (apply Nat.div_lt_upper_bound; lia).
    cbv zeta. rewrite !Nat.add_assoc.
    replace (length s - 128 + (128 - 0 - 32 * S i))%nat with (length s - 32 * S i)%nat by lia. reflexivity.
  - apply Nat.lt_le_incl, Nat.div_lt_upper_bound; lia.
  - rewrite skipn_len. lia.
  - now apply bytes_ok_skipn.
  - auto.
  - now rewrite Nat.sub_0_r.
  - now exists 0%nat.
Qed.
Theorem hash128_ok s : bytes_ok s -> farm_hash128 s = Ok (spec_hash128 s).
Proof.
  intros Hs. unfold farm_hash128, spec_hash128. destruct (Nat.leb_spec 16 (length s)) as [L|L].
  - rewrite tail_from_ok, (fetch64_ok s 0 0), (fetch64_ok s 8 8) by (auto; lia). cbn [rbind].
    now apply (hash128_seed_ok (skipn 16 s)), bytes_ok_skipn.
  - now apply (hash128_seed_ok s).
Qed.

(** ** 32 bits *)
Lemma sext8_eq b : byte_ok b -> sext8 b = signed8 b.
Proof. intros H. unfold sext8, signed8, byte_ok in *. destruct (N.ltb_spec b 128); [reflexivity|]. rewrite pow32. lia. Qed.
Lemma h32_0to4_fold seed : forall s l c, bytes_ok s ->
  fold_left (fun '(b, c) x => let b := add32 (mul32 b fc1) (sext8 x) in (b, xor c b)) s (last l seed, fold_left N.lxor l c) =
  (let bs := fold_left (fun l x => l ++ [add32 (mul32 (last l seed) C1) (signed8 x)]) s l in
   (last bs seed, fold_left N.lxor bs c)).
Proof.
  induction s as [|x s IH]; intros l c Hs; [reflexivity|]. apply Forall_inv in Hs as Hx. apply Forall_inv_tail in Hs.
  cbn [fold_left]. cbv zeta. rewrite sext8_eq by assumption. cbv zeta in IH. rewrite <- IH by assumption.
  rewrite last_last, fold_left_app. reflexivity.
Qed.
Lemma h32_0to4_ok s seed : bytes_ok s -> hash32_len0to4 s seed = Ok (spec32_0to4 s seed).
Proof.
  intros Hs. unfold hash32_len0to4, spec32_0to4.
  pose proof (h32_0to4_fold seed s [] 9 Hs) as E. cbn [last] in E. change (fold_left N.lxor [] 9) with 9 in E. rewrite E.
  cbv zeta. now rewrite !mur_eq, fmix_eq, ulen32_len.
Qed.
Lemma h32_5to12_ok s seed : (5 <= length s <= 12)%nat -> bytes_ok s -> hash32_len5to12 s seed = Ok (spec32_5to12 s seed).
Proof.
  intros H Hs. unfold hash32_len5to12, spec32_5to12, zlen. cbv zeta.
  pose proof pow32 as P.
  assert (E : Z.land (Z.shiftr (Z.of_nat (length s)) 1) 4 = Z.of_nat (if (8 <=? length s)%nat then 4 else 0)).
  { destruct H as [H1 H2]. revert H1 H2. generalize (length s) as n. intros n H1 H2.
    do 13 (destruct n as [|n]; [first [lia|reflexivity]|]). lia. }
  assert (E' : ((if (8 <=? length s)%nat then 4 else 0) + 4 <= length s)%nat) by (destruct (Nat.leb_spec 8 (length s)); lia).
  rewrite (fetch32_ok s 0 0), (fetch32_ok s (Z.of_nat (length s) - 4) (length s - 4)), (fetch32_ok s _ _ E) by (auto; lia). cbn [rbind].
  rewrite !mur_eq, fmix_eq. unfold ulen32. rewrite small_wrap by lia.
  rewrite wrap_mod, N.mod_small by lia. reflexivity.
Qed.
Lemma h32_13to24_ok s seed : (13 <= length s <= 24)%nat -> bytes_ok s -> hash32_len13to24 s seed = Ok (spec32_13to24 s seed).
Proof.
  intros H Hs. unfold hash32_len13to24, spec32_13to24, zlen. cbv zeta.
  assert (E : Z.shiftr (Z.of_nat (length s)) 1 = Z.of_nat (length s / 2)).
  { rewrite Z.shiftr_div_pow2 by lia. change (2 ^ 1)%Z with (Z.of_nat 2). now rewrite <- Nat2Z.inj_div. }
  rewrite !E.
  assert (D1 : (6 <= length s / 2)%nat) by (apply Nat.div_le_lower_bound; lia).
  assert (D2 : (length s / 2 <= 12)%nat) by (apply Nat.div_le_upper_bound; lia).
  assert (D3 : (length s / 2 + 6 <= length s)%nat).
  { pose proof (Nat.div_mod (length s) 2). lia. }
  rewrite (fetch32_ok s 0 0), (fetch32_ok s 4 4), (fetch32_ok s _ (length s / 2 - 4)), (fetch32_ok s (Z.of_nat (length s) - 8) (length s - 8)),
    (fetch32_ok s _ (length s / 2)), (fetch32_ok s (Z.of_nat (length s) - 4) (length s - 4)) by (auto; lia).
  cbn [rbind]. now rewrite h32_13_words_eq, ulen32_len.
Qed.
Lemma mk_loop_ok : forall k fuel s r, (k < fuel)%nat -> (20 * S k < length s)%nat -> bytes_ok s ->
  mk_loop fuel s (Z.of_nat (S k)) r =
  Ok (iterate (S k) (fun i => let o := (20 * i)%nat in
         S_mk_round (w32 s o) (w32 s (o + 4)) (w32 s (o + 8)) (w32 s (o + 12)) (w32 s (o + 16))) r).
Proof.
  induction k as [|k IH]; intros fuel s r Hf H Hs; (destruct fuel as [|fuel]; [lia|]); cbn [mk_loop];
    rewrite (fetch32_ok s 0 0), (fetch32_ok s 4 4), (fetch32_ok s 8 8), (fetch32_ok s 12 12), (fetch32_ok s 16 16),
      tail_from_ok by (auto; lia); cbn [rbind]; cbv zeta; rewrite iterate_S, mk_round_eq.
  - reflexivity.
  - destruct (Z.eqb_spec (Z.of_nat (S (S k)) - 1) 0); [lia|].
    replace (Z.of_nat (S (S k)) - 1)%Z with (Z.of_nat (S k)) by lia.
    rewrite IH by (rewrite ?skipn_len; auto using bytes_ok_skipn; lia). f_equal.
    apply iterate_ext. intros i x Hi. cbv zeta. rewrite !w32_skipn, !Nat.add_assoc.
    replace (20 + 20 * i)%nat with (20 * S i)%nat by lia. reflexivity.
Qed.
Theorem hash32_ok s : bytes_ok s -> farm_hash32 s = Ok (spec_hash32 s).
Proof.
  intros Hs. unfold farm_hash32, spec_hash32. cbv zeta.
  destruct (Nat.leb_spec (length s) 24) as [L|L].
  - destruct (Nat.leb_spec (length s) 12) as [L'|L'].
    + destruct (Nat.leb_spec (length s) 4) as [L''|L'']; [now apply h32_0to4_ok|apply h32_5to12_ok; auto; lia].
    + replace (length s <=? 4)%nat with false by (symmetry; apply Nat.leb_gt; lia). apply h32_13to24_ok; auto; lia.
  - replace (length s <=? 4)%nat with false by (symmetry; apply Nat.leb_gt; lia).
    replace (length s <=? 12)%nat with false by (symmetry; apply Nat.leb_gt; lia). unfold zlen.
    rewrite (fetch32_ok s (Z.of_nat (length s) - 4) (length s - 4)), (fetch32_ok s (Z.of_nat (length s) - 8) (length s - 8)), (fetch32_ok s (Z.of_nat (length s) - 16) (length s - 16)),
      (fetch32_ok s (Z.of_nat (length s) - 12) (length s - 12)), (fetch32_ok s (Z.of_nat (length s) - 20) (length s - 20)) by (auto; lia). cbn [rbind].
    assert (E : exists k, ((length s - 1) / 20 = S k)%nat).
    { exists ((length s - 1) / 20 - 1)%nat.
      assert (1 <= (length s - 1) / 20)%nat by (apply Nat.div_le_lower_bound; lia). lia. }
    destruct E as [k E].
    replace ((Z.of_nat (length s) - 1) / 20)%Z with (Z.of_nat (S k)).
    2: { rewrite <- E, Nat2Z.inj_div, Nat2Z.inj_sub by lia. reflexivity. }
    pose proof (Nat.mul_div_le (length s - 1) 20).
    rewrite mk_loop_ok by (auto; lia). cbn [rbind]. rewrite E, mk_final_eq, mk_init_eq, ulen32_len. reflexivity.
Qed.
Theorem hash32_seed_ok s seed : bytes_ok s -> farm_hash32_with_seed s seed = Ok (spec_hash32_seed s seed).
Proof.
  intros Hs. unfold farm_hash32_with_seed, spec_hash32_seed. cbv zeta.
  destruct (Nat.leb_spec (length s) 24) as [L|L].
  - destruct (Nat.leb_spec 13 (length s)) as [L'|L'].
    + replace (length s <=? 4)%nat with false by (symmetry; apply Nat.leb_gt; lia).
      replace (length s <=? 12)%nat with false by (symmetry; apply Nat.leb_gt; lia). apply h32_13to24_ok; auto; lia.
    + destruct (Nat.leb_spec 5 (length s)) as [L''|L''].
      * replace (length s <=? 4)%nat with false by (symmetry; apply Nat.leb_gt; lia).
        replace (length s <=? 12)%nat with true by (symmetry; apply Nat.leb_le; lia). apply h32_5to12_ok; auto; lia.
      * replace (length s <=? 4)%nat with true by (symmetry; apply Nat.leb_le; lia). now apply h32_0to4_ok.
  - replace (length s <=? 4)%nat with false by (symmetry; apply Nat.leb_gt; lia).
    replace (length s <=? 12)%nat with false by (symmetry; apply Nat.leb_gt; lia).
    rewrite h32_13to24_ok by (rewrite ?firstn_length_le; auto using bytes_ok_firstn; lia). cbn [rbind].
    rewrite tail_from_ok by lia. cbn [rbind]. rewrite hash32_ok by now apply bytes_ok_skipn. cbn [rbind].
    now rewrite mur_eq, ulen32_len.
Qed.
