(** Package farm: what the mixers cannot lose, and what seeds cannot add. *)
From Coq Require Import NArith ZArith List Arith Lia.
From Verif Require Import Words WordLemmas ListLemmas Mem Bij WordBij FarmModel FarmSpec FarmProofs FarmProofs2.
Import ListNotations.
Open Scope N_scope.

(** ** Bijections *)
Lemma h16_bij v m : fits 64 v -> N.odd m = true -> bijection_on (fits 64) (fun u => S_hash_len16_mul u v m).
Proof.
  intros Hv Hm.
  pose proof (bij_comp _ _ _ (bij_xor 64 v Hv) (bij_mul 64 m Hm eq_refl)) as B.
  pose proof (bij_comp _ _ _ B (bij_xsr 64 47 eq_refl)) as B1.
  pose proof (bij_comp _ _ _ (bij_comp _ _ _ B1 (bij_xor_l 64 v Hv)) (bij_mul 64 m Hm eq_refl)) as B2.
  exact (bij_comp _ _ _ (bij_comp _ _ _ B2 (bij_xsr 64 47 eq_refl)) (bij_mul 64 m Hm eq_refl)).
Qed.
Lemma h16s_bij v : fits 64 v -> bijection_on (fits 64) (fun u => S_hash_len16 u v).
Proof. intros H. now apply h16_bij. Qed.
Lemma fmix_bij : bijection_on (fits 32) S_fmix.
Proof.
  pose proof (bij_comp _ _ _ (bij_xsr 32 16 eq_refl) (bij_mul 32 0x85ebca6b eq_refl eq_refl)) as B.
  pose proof (bij_comp _ _ _ B (bij_xsr 32 13 eq_refl)) as B1.
  exact (bij_comp _ _ _ (bij_comp _ _ _ B1 (bij_mul 32 0xc2b2ae35 eq_refl eq_refl)) (bij_xsr 32 16 eq_refl)).
Qed.
Lemma mur_end_bij : bijection_on (fits 32) S_mur_end.
Proof.
  exact (bij_comp _ _ _ (bij_comp _ _ _ (bij_rotr 32 19 ltac:(discriminate)) (bij_mul 32 5 eq_refl eq_refl)) (bij_add 32 0xe6546b64)).
Qed.
Lemma mur_begin_bij : bijection_on (fits 32) S_mur_begin.
Proof.
  exact (bij_comp _ _ _ (bij_comp _ _ _ (bij_mul 32 C1 eq_refl eq_refl) (bij_rotr 32 17 ltac:(discriminate))) (bij_mul 32 C2 eq_refl eq_refl)).
Qed.
Lemma mur_begin_fits a : fits 32 (S_mur_begin a).
Proof. apply mulw_fits. Qed.
Lemma mur_fits a h : fits 32 (S_mur a h).
Proof. apply addw_fits. Qed.
Lemma mur_bij_h a : bijection_on (fits 32) (fun h => S_mur a h).
Proof. exact (bij_comp _ _ _ (bij_xor 32 _ (mur_begin_fits a)) mur_end_bij). Qed.
Lemma mur_bij_a h : fits 32 h -> bijection_on (fits 32) (fun a => S_mur a h).
Proof. intros H. exact (bij_comp _ _ _ (bij_comp _ _ _ mur_begin_bij (bij_xor_l 32 h H)) mur_end_bij). Qed.

(** ** Results fit *)
Lemma h16_fits u v m : fits 64 (S_hash_len16_mul u v m).
Proof. apply mulw_fits. Qed.
Lemma spec_0to16_fits s : fits 64 (spec_0to16 s).
Proof.
  unfold spec_0to16. cbv zeta.
  destruct (8 <=? length s)%nat; [apply mulw_fits|]. destruct (4 <=? length s)%nat; [apply mulw_fits|].
  destruct (1 <=? length s)%nat; [apply mulw_fits|reflexivity].
Qed.
Lemma spec_upto64_fits s : fits 64 (spec_upto64 s).
Proof.
  unfold spec_upto64. cbv zeta. destruct (length s <=? 16)%nat; [apply spec_0to16_fits|].
  destruct (length s <=? 32)%nat; apply mulw_fits.
Qed.
Lemma spec_over64_fits s a b : fits 64 (spec_over64 s a b).
Proof.
  unfold spec_over64. cbv zeta. unfold S_uo_final, block64, S_uo_h.
  destruct (iterate _ _ _) as [[[[[[[u x] y] z] vl] vh] wl] wh]. unfold S_weak_words. cbv zeta. apply mulw_fits.
Qed.
Lemma spec_hash64_fits s : fits 64 (spec_hash64 s).
Proof. unfold spec_hash64. destruct (_ <=? _)%nat; [apply spec_upto64_fits|apply spec_over64_fits]. Qed.
Lemma spec_hash64_seeds_fits s a b : fits 64 (spec_hash64_seeds s a b).
Proof. unfold spec_hash64_seeds. destruct (_ <=? _)%nat; [apply mulw_fits|apply spec_over64_fits]. Qed.
Lemma spec_hash64_seed_fits s a : fits 64 (spec_hash64_seed s a).
Proof. unfold spec_hash64_seed. destruct (_ <=? _)%nat; [apply mulw_fits|apply spec_over64_fits]. Qed.
Lemma fmix_fits h : fits 32 (S_fmix h).
Proof. unfold S_fmix. cbv zeta. apply xor_fits; [|apply shr_fits]; apply mulw_fits. Qed.
Lemma mk_final_fits r : fits 32 (S_mk_final r).
Proof. destruct r as [[h g] f]. apply mulw_fits. Qed.
Lemma spec_hash32_fits s : fits 32 (spec_hash32 s).
Proof.
  unfold spec_hash32. cbv zeta. destruct (length s <=? 4)%nat; [apply fmix_fits|].
  destruct (length s <=? 12)%nat; [apply fmix_fits|]. destruct (length s <=? 24)%nat; [apply fmix_fits|apply mk_final_fits].
Qed.
Lemma spec_hash32_seed_fits s seed : fits 32 (spec_hash32_seed s seed).
Proof.
  unfold spec_hash32_seed. cbv zeta. destruct (length s <=? 4)%nat; [apply fmix_fits|].
  destruct (length s <=? 12)%nat; [apply fmix_fits|]. destruct (length s <=? 24)%nat; [apply fmix_fits|apply mur_fits].
Qed.
Lemma hash128_seed_fits s a b : fits 64 (fst (spec_hash128_seed s a b)) /\ fits 64 (snd (spec_hash128_seed s a b)).
Proof.
  unfold spec_hash128_seed. destruct (_ <? _)%nat.
  - unfold spec_murmur. cbv zeta.
    match goal with |- context [match ?e with (_, _) => _ end] => destruct e as [[[a' b'] c'] d'] end.
    cbn [fst snd]. split; [apply xor_fits; apply mulw_fits|apply mulw_fits].
  - unfold spec_128_long. cbv zeta. destruct (iterate _ _ (S_cc_middle _)) as [[[[[[x y] z] v1] v2] w1] w2].
    cbn [S_cc_final fst snd]. split; [apply addw_fits|apply mulw_fits].
Qed.
Lemma hash128_fits s : fits 64 (fst (spec_hash128 s)) /\ fits 64 (snd (spec_hash128 s)).
Proof. unfold spec_hash128. destruct (_ <=? _)%nat; apply hash128_seed_fits. Qed.

(** ** Seeds *)
Lemma seeds_iff s t a b : (length s <= 64)%nat -> (length t <= 64)%nat -> fits 64 b ->
  (spec_hash64_seeds s a b = spec_hash64_seeds t a b <-> spec_hash64 s = spec_hash64 t).
Proof.
  intros Hs Ht Hb. unfold spec_hash64_seeds, spec_hash64. apply Nat.leb_le in Hs, Ht. rewrite Hs, Ht.
  pose proof (bij_comp _ _ _ (bij_sub 64 a) (h16s_bij b Hb)) as B.
  apply (bij_inj_iff _ _ (spec_upto64 s) (spec_upto64 t) B); apply spec_upto64_fits.
Qed.
Lemma seed_iff s t b : (length s <= 64)%nat -> (length t <= 64)%nat -> fits 64 b ->
  (spec_hash64_seed s b = spec_hash64_seed t b <-> spec_hash64 s = spec_hash64 t).
Proof.
  intros Hs Ht Hb. rewrite <- (seeds_iff s t K2 b Hs Ht Hb).
  unfold spec_hash64_seed, spec_hash64_seeds. apply Nat.leb_le in Hs, Ht. rewrite Hs, Ht. reflexivity.
Qed.
Lemma seed0_bij s b : (length s <= 64)%nat -> fits 64 b -> bijection_on (fits 64) (fun a => spec_hash64_seeds s a b).
Proof.
  intros Hs Hb. unfold spec_hash64_seeds. apply Nat.leb_le in Hs. rewrite Hs.
  refine (bij_comp _ _ _ _ (h16s_bij b Hb)).
  pose proof (spec_upto64_fits s) as F. set (h := spec_upto64 s) in *. clearbody h.
  apply bij_involution; intros x Hx; [apply subw_fits|].
  unfold sub64. apply (addw_cancel_r 64 _ _ (subw 64 h x)); auto using subw_fits.
  rewrite add_sub_w by assumption. rewrite addw_comm, add_sub_w by assumption. reflexivity.
Qed.

(** ** Words of a key with a part replaced *)
Lemma w64_left p m i : (i + 8 <= length p)%nat -> w64 (p ++ m) i = w64 p i.
Proof.
  intros H. unfold w64. rewrite skipn_app, firstn_app, skipn_length.
  replace (8 - (length p - i))%nat with 0%nat by lia. cbn [firstn]. now rewrite app_nil_r.
Qed.
Lemma w32_left p m i : (i + 4 <= length p)%nat -> w32 (p ++ m) i = w32 p i.
Proof.
  intros H. unfold w32. rewrite skipn_app, firstn_app, skipn_length.
  replace (4 - (length p - i))%nat with 0%nat by lia. cbn [firstn]. now rewrite app_nil_r.
Qed.
Lemma w64_right p m i : (length p <= i)%nat -> w64 (p ++ m) i = w64 m (i - length p).
Proof. intros H. unfold w64. rewrite skipn_app, skipn_all2 by lia. reflexivity. Qed.
Lemma w32_right p m i : (length p <= i)%nat -> w32 (p ++ m) i = w32 m (i - length p).
Proof. intros H. unfold w32. rewrite skipn_app, skipn_all2 by lia. reflexivity. Qed.
Lemma w64_outside (p m m' q : list N) i : length m = length m' -> (i + 8 <= length p \/ length p + length m <= i)%nat ->
  w64 (p ++ m ++ q) i = w64 (p ++ m' ++ q) i.
Proof.
  intros L [H|H]; [now rewrite !w64_left|]. rewrite !(w64_right p) by lia. rewrite !w64_right by lia. now rewrite L.
Qed.
Lemma w32_outside (p m m' q : list N) i : length m = length m' -> (i + 4 <= length p \/ length p + length m <= i)%nat ->
  w32 (p ++ m ++ q) i = w32 (p ++ m' ++ q) i.
Proof.
  intros L [H|H]; [now rewrite !w32_left|]. rewrite !(w32_right p) by lia. rewrite !w32_right by lia. now rewrite L.
Qed.
Lemma sub_inside {A} n (p m q : list A) i : (i <= length p)%nat -> (length p + length m <= i + n)%nat ->
  firstn n (skipn i (p ++ m ++ q)) = skipn i p ++ m ++ firstn (n - (length p - i) - length m) q.
Proof.
  intros H1 H2. rewrite skipn_app. replace (i - length p)%nat with 0%nat by lia. cbn [skipn].
  rewrite firstn_app, firstn_all2 by (rewrite skipn_length; lia). f_equal.
  rewrite skipn_length, firstn_app, firstn_all2 by lia. reflexivity.
Qed.
Lemma load_inside n (p m m' q : list N) i : bytes_ok (p ++ m ++ q) -> bytes_ok (p ++ m' ++ q) -> length m = length m' ->
  (i <= length p)%nat -> (length p + length m <= i + n)%nat ->
  le_load (firstn n (skipn i (p ++ m ++ q))) = le_load (firstn n (skipn i (p ++ m' ++ q))) -> m = m'.
Proof.
  intros B B' L H1 H2 E. apply le_load_inj in E.
  - rewrite !sub_inside in E by lia. apply app_inv_head in E. rewrite L in E. now apply app_inv_tail in E.
  - now apply bytes_ok_firstn, bytes_ok_skipn.
  - now apply bytes_ok_firstn, bytes_ok_skipn.
  - rewrite !firstn_length, !skipn_length, !app_length. lia.
Qed.

(** 25 to 32 bytes: the bytes 16 .. n-9 only enter through one added word; 49 to 64
    bytes: the bytes 32 .. and n-24 .. up to n-17. *)
Lemma odd_mul n : N.odd (add64 K2 (mul64 n 2)) = true.
Proof.
  unfold add64, mul64. rewrite addw_mod, mulw_mod. rewrite <- N.bit0_odd.
  rewrite N.mod_pow2_bits_low by reflexivity. rewrite N.bit0_odd, N.odd_add. change (N.odd K2) with true.
  rewrite <- (N.bit0_odd ((n * 2) mod 2 ^ 64)), N.mod_pow2_bits_low by reflexivity. rewrite N.bit0_odd, N.odd_mul. 
  cbn [N.odd]. now rewrite Bool.andb_false_r.
Qed.
Lemma len32_word_bij l x0 x1 y0 : fits 64 x0 -> fits 64 x1 ->
  bijection_on (fits 64) (fun y1 => S_hash_len17to32_words l x0 x1 y1 y0).
Proof.
  intros H0 H1.
  pose proof (bij_comp _ _ _ (bij_mul 64 K2 eq_refl eq_refl)
    (bij_add_l 64 (add64 (rotr64 (add64 (mul64 x0 K1) x1) 43) (rotr64 (mul64 y0 (add64 K2 (mul64 l 2))) 30)))) as B.
  exact (bij_comp _ _ _ B (h16_bij (add64 (add64 (mul64 x0 K1) (rotr64 (add64 x1 K2) 18)) (mul64 y0 (add64 K2 (mul64 l 2)))) _
    (addw_fits _ _ _) (odd_mul l))).
Qed.
Lemma len64_word_bij l x0 x1 x2 x3 y3 y1 y0 :
  bijection_on (fits 64) (fun y2 => S_hash_len33to64_words l x0 x1 x2 x3 y3 y2 y1 y0).
Proof.
  unfold S_hash_len33to64_words. cbv zeta.
  match goal with |- bijection_on _ (fun y2 => S_hash_len16_mul (add64 ?A (mul64 (add64 ?Z y2) ?M)) ?V ?M) =>
    pose proof (bij_comp _ _ _ (bij_comp _ _ _ (bij_add_l 64 Z) (bij_mul 64 M (odd_mul l) eq_refl)) (bij_add_l 64 A)) as B;
    exact (bij_comp _ _ _ B (h16_bij V M (addw_fits _ _ _) (odd_mul l)))
  end.
Qed.
(** Where a key of n bytes may be changed: the hole starts at byte a and ends before b. *)
Definition hole (n a b : nat) : Prop :=
  (24 < n <= 32 /\ 16 <= a /\ b + 8 <= n)%nat \/ (48 < n <= 64 /\ 32 <= a /\ n <= a + 24 /\ b + 16 <= n)%nat.
Lemma hole_no_collision p m m' q :
  let s := p ++ m ++ q in let t := p ++ m' ++ q in
  bytes_ok s -> bytes_ok t -> length m = length m' -> hole (length s) (length p) (length p + length m) ->
  spec_hash64 s = spec_hash64 t -> m = m'.
Proof.
  intros s t Hs Ht L H E.
  assert (Ls : length s = (length p + length m + length q)%nat) by (unfold s; rewrite !app_length; lia).
  assert (Lt : length t = length s) by (unfold s, t; rewrite !app_length; lia).
  unfold spec_hash64, spec_upto64 in E. cbv zeta in E. unfold len64 in E. rewrite !Lt in E.
  destruct (Nat.leb_spec (length s) 64) as [H64|H64]; [|destruct H; lia].
  destruct (Nat.leb_spec (length s) 16) as [H16|H16]; [destruct H; lia|].
  destruct (Nat.leb_spec (length s) 32) as [H32|H32].
  - destruct H as [H|H]; [|lia].
    unfold s, t in E. rewrite (w64_outside p m m' q 0), (w64_outside p m m' q 8), (w64_outside p m m' q (length (p ++ m ++ q) - 8)) in E
      by (auto; fold s; lia).
    apply (bij_inj _ _ (len32_word_bij _ _ _ _ (w64_fits t 0 Ht) (w64_fits t 8 Ht))) in E; try now apply w64_fits.
    apply (load_inside 8) in E; auto; fold s; lia.
  - destruct H as [H|H]; [lia|].
    unfold s, t in E. rewrite (w64_outside p m m' q 0), (w64_outside p m m' q 8), (w64_outside p m m' q 16), (w64_outside p m m' q 24),
      (w64_outside p m m' q (length (p ++ m ++ q) - 8)), (w64_outside p m m' q (length (p ++ m ++ q) - 16)),
      (w64_outside p m m' q (length (p ++ m ++ q) - 32)) in E by (auto; fold s; lia).
    apply (bij_inj _ _ (len64_word_bij _ _ _ _ _ _ _ _)) in E; try now apply w64_fits.
    apply (load_inside 8) in E; auto; fold s; lia.
Qed.
Lemma w64_hole p m q i : length m = 8%nat -> i = length p -> w64 (p ++ m ++ q) i = le_load m.
Proof.
  intros L ->. rewrite w64_right, Nat.sub_diag by lia. unfold w64. cbn [skipn].
  rewrite firstn_app, L, firstn_all2 by lia. now rewrite app_nil_r.
Qed.
Lemma hole_surjective p q h : bytes_ok p -> bytes_ok q -> fits 64 h ->
  hole (length p + 8 + length q) (length p) (length p + 8) ->
  exists m, bytes_ok m /\ length m = 8%nat /\ spec_hash64 (p ++ m ++ q) = h.
Proof.
  intros Hp Hq Hh H. set (n := (length p + 8 + length q)%nat) in *.
  set (z := repeat 0 8). assert (Hz : bytes_ok (p ++ z ++ q)).
  { apply bytes_ok_app; split; auto. apply bytes_ok_app; split; auto. repeat constructor. }
  assert (Ln : forall m : list N, length m = 8%nat -> length (p ++ m ++ q) = n) by (intros m E; rewrite !app_length; unfold n; lia).
  assert (Hs8 : forall x, length (le_store 8 x) = 8%nat) by (intros; apply le_store_length).
  destruct (Nat.leb_spec n 32) as [H32|H32].
  - destruct H as [H|H]; [|lia].
    destruct (bij_surj _ _ (len32_word_bij (len64 (p ++ z ++ q)) (w64 (p ++ z ++ q) 0) (w64 (p ++ z ++ q) 8) (w64 (p ++ z ++ q) (n - 8))
      (w64_fits _ 0 Hz) (w64_fits _ 8 Hz)) h Hh) as [x [Hx E]].
    exists (le_store 8 x). split; [apply le_store_ok|]. split; [apply Hs8|]. rewrite <- E.
    unfold spec_hash64, spec_upto64, len64. cbv zeta. rewrite !Ln by (auto; reflexivity).
    replace (n <=? 64)%nat with true by (symmetry; apply Nat.leb_le; lia).
    replace (n <=? 16)%nat with false by (symmetry; apply Nat.leb_gt; lia).
    replace (n <=? 32)%nat with true by (symmetry; apply Nat.leb_le; lia).
    rewrite (w64_outside p (le_store 8 x) z q 0), (w64_outside p (le_store 8 x) z q 8), (w64_outside p (le_store 8 x) z q (n - 8))
      by (rewrite ?Hs8; try reflexivity; unfold n; lia).
    rewrite (w64_hole p (le_store 8 x)) by (auto; unfold n in *; lia). now rewrite le_load_store.
  - destruct H as [H|H]; [lia|].
    destruct (bij_surj _ _ (len64_word_bij (len64 (p ++ z ++ q)) (w64 (p ++ z ++ q) 0) (w64 (p ++ z ++ q) 8) (w64 (p ++ z ++ q) 16)
      (w64 (p ++ z ++ q) 24) (w64 (p ++ z ++ q) (n - 32)) (w64 (p ++ z ++ q) (n - 16)) (w64 (p ++ z ++ q) (n - 8))) h Hh) as [x [Hx E]].
    exists (le_store 8 x). split; [apply le_store_ok|]. split; [apply Hs8|]. rewrite <- E.
    unfold spec_hash64, spec_upto64, len64. cbv zeta. rewrite !Ln by (auto; reflexivity).
    replace (n <=? 64)%nat with true by (symmetry; apply Nat.leb_le; lia).
    replace (n <=? 16)%nat with false by (symmetry; apply Nat.leb_gt; lia).
    replace (n <=? 32)%nat with false by (symmetry; apply Nat.leb_gt; lia).
    rewrite (w64_outside p (le_store 8 x) z q 0), (w64_outside p (le_store 8 x) z q 8), (w64_outside p (le_store 8 x) z q 16),
      (w64_outside p (le_store 8 x) z q 24), (w64_outside p (le_store 8 x) z q (n - 32)), (w64_outside p (le_store 8 x) z q (n - 16)),
      (w64_outside p (le_store 8 x) z q (n - 8)) by (rewrite ?Hs8; try reflexivity; unfold n in *; lia).
    rewrite (w64_hole p (le_store 8 x)) by (auto; unfold n in *; lia). now rewrite le_load_store.
Qed.

(** ** 32 bits: words through which the whole hash is a permutation *)
Lemma w32_hole p m q i : length m = 4%nat -> i = length p -> w32 (p ++ m ++ q) i = le_load m.
Proof.
  intros L ->. rewrite w32_right, Nat.sub_diag by lia. unfold w32. cbn [skipn].
  rewrite firstn_app, L, firstn_all2 by lia. now rewrite app_nil_r.
Qed.
Definition hole32 (n a : nat) : Prop :=
  (n = 12 /\ (a = 0 \/ a = 4 \/ a = 8) \/ 16 <= n <= 24 /\ a = 0 \/ n = 24 /\ a = 4 \/ 8 <= n <= 12 /\ a = 0)%nat.
Lemma hole32_perm p q seed : bytes_ok p -> bytes_ok q -> fits 32 seed -> hole32 (length p + 4 + length q) (length p) ->
  exists G, bijection_on (fits 32) G /\
    forall m, length m = 4%nat -> spec_hash32_seed (p ++ m ++ q) seed = G (le_load m).
Proof.
  intros Hp Hq Hseed H. set (n := (length p + 4 + length q)%nat) in *.
  set (z := repeat 0 4).
  assert (Ln : forall m : list N, length m = 4%nat -> length (p ++ m ++ q) = n) by (intros m E; rewrite !app_length; unfold n; lia).
  assert (Lz : length z = 4%nat) by reflexivity.
  set (s0 := p ++ z ++ q).
  destruct H as [[H0 H]|[[H0 H]|[[H0 H]|[H0 H]]]].
  - (* 12 bytes *)
    assert (C : forall m, length m = 4%nat -> spec_hash32_seed (p ++ m ++ q) seed = spec32_5to12 (p ++ m ++ q) seed).
    { intros m E. unfold spec_hash32_seed. cbv zeta. rewrite (Ln m E), H0. reflexivity. }
    destruct H as [H|[H|H]].
    + exists (fun x => S_fmix (xor seed (S_mur (add32 9 (w32 s0 4)) (S_mur (add32 60 (w32 s0 8)) (S_mur (add32 12 x) (add32 60 seed)))))).
      split.
      * pose proof (bij_comp _ _ _ (bij_add_l 32 12) (mur_bij_a (add32 60 seed) (addw_fits _ _ _))) as B.
        pose proof (bij_comp _ _ _ (bij_comp _ _ _ B (mur_bij_h (add32 60 (w32 s0 8)))) (mur_bij_h (add32 9 (w32 s0 4)))) as B1.
        exact (bij_comp _ _ _ (bij_comp _ _ _ B1 (bij_xor_l 32 seed Hseed)) fmix_bij).
      * intros m E. rewrite (C m E). unfold spec32_5to12. cbv zeta. rewrite (Ln m E), H0.
        change (12 - 4)%nat with 8%nat. change (if (8 <=? 12)%nat then 4 else 0)%nat with 4%nat. unfold s0.
        rewrite (w32_hole p m q 0), (w32_outside p m z q 4), (w32_outside p m z q 8) by (unfold n in *; lia). reflexivity.
    + exists (fun x => S_fmix (xor seed (S_mur (add32 9 x) (S_mur (add32 60 (w32 s0 8)) (S_mur (add32 12 (w32 s0 0)) (add32 60 seed)))))).
      split.
      * pose proof (bij_comp _ _ _ (bij_add_l 32 9) (mur_bij_a (S_mur (add32 60 (w32 s0 8)) (S_mur (add32 12 (w32 s0 0)) (add32 60 seed))) (mur_fits _ _))) as B.
        exact (bij_comp _ _ _ (bij_comp _ _ _ B (bij_xor_l 32 seed Hseed)) fmix_bij).
      * intros m E. rewrite (C m E). unfold spec32_5to12. cbv zeta. rewrite (Ln m E), H0.
        change (12 - 4)%nat with 8%nat. change (if (8 <=? 12)%nat then 4 else 0)%nat with 4%nat. unfold s0.
        rewrite (w32_hole p m q 4), (w32_outside p m z q 0), (w32_outside p m z q 8) by (unfold n in *; lia). reflexivity.
    + exists (fun x => S_fmix (xor seed (S_mur (add32 9 (w32 s0 4)) (S_mur (add32 60 x) (S_mur (add32 12 (w32 s0 0)) (add32 60 seed)))))).
      split.
      * pose proof (bij_comp _ _ _ (bij_add_l 32 60) (mur_bij_a (S_mur (add32 12 (w32 s0 0)) (add32 60 seed)) (mur_fits _ _))) as B.
        exact (bij_comp _ _ _ (bij_comp _ _ _ (bij_comp _ _ _ B (mur_bij_h (add32 9 (w32 s0 4)))) (bij_xor_l 32 seed Hseed)) fmix_bij).
      * intros m E. rewrite (C m E). unfold spec32_5to12. cbv zeta. rewrite (Ln m E), H0.
        change (12 - 4)%nat with 8%nat. change (if (8 <=? 12)%nat then 4 else 0)%nat with 4%nat. unfold s0.
        rewrite (w32_hole p m q 8), (w32_outside p m z q 0), (w32_outside p m z q 4) by (unfold n in *; lia). reflexivity.
  - (* 16 to 24 bytes, first word *)
    set (S' := mul32 seed C1).
    set (a0 := add32 (rotr32 (w32 s0 (n / 2 - 4)) 12) (w32 s0 (n - 4))).
    set (h0 := add32 (S_mur (w32 s0 (n - 8)) (add32 (add32 (mul32 (w32 s0 (n / 2)) C1) (len32 s0)) S')) a0).
    set (a1 := add32 (rotr32 a0 3) (w32 s0 (n - 8))).
    set (a2 := add32 (rotr32 (add32 a1 (w32 s0 (n - 4))) 12) (w32 s0 (n / 2))).
    exists (fun x => S_fmix (add32 (S_mur (xor (w32 s0 4) S') (add32 (S_mur x h0) a1)) a2)).
    split.
    + pose proof (bij_comp _ _ _ (mur_bij_a h0 (addw_fits _ _ _)) (bij_add 32 a1)) as B.
      exact (bij_comp _ _ _ (bij_comp _ _ _ (bij_comp _ _ _ B (mur_bij_h (xor (w32 s0 4) S'))) (bij_add 32 a2)) fmix_bij).
    + intros m E.
      assert (D : (8 <= n / 2)%nat) by (apply Nat.div_le_lower_bound; lia).
      unfold spec_hash32_seed. cbv zeta. rewrite (Ln m E).
      replace (n <=? 4)%nat with false by (symmetry; apply Nat.leb_gt; lia).
      replace (n <=? 12)%nat with false by (symmetry; apply Nat.leb_gt; lia).
      replace (n <=? 24)%nat with true by (symmetry; apply Nat.leb_le; lia).
      unfold spec32_13to24, len32. cbv zeta. rewrite (Ln m E).
      rewrite (w32_hole p m q 0), (w32_outside p m z q 4), (w32_outside p m z q (n / 2 - 4)), (w32_outside p m z q (n - 8)),
        (w32_outside p m z q (n / 2)), (w32_outside p m z q (n - 4)) by (unfold n in *; lia).
      fold s0. unfold a2, a1, h0, a0, len32, s0. rewrite (Ln z Lz). reflexivity.
  - (* 24 bytes, second word *)
    set (S' := mul32 seed C1).
    set (a0 := add32 (rotr32 (w32 s0 8) 12) (w32 s0 20)).
    set (h0 := add32 (S_mur (w32 s0 16) (add32 (add32 (mul32 (w32 s0 12) C1) (len32 s0)) S')) a0).
    set (a1 := add32 (rotr32 a0 3) (w32 s0 16)).
    set (a2 := add32 (rotr32 (add32 a1 (w32 s0 20)) 12) (w32 s0 12)).
    exists (fun x => S_fmix (add32 (S_mur (xor x S') (add32 (S_mur (w32 s0 0) h0) a1)) a2)).
    split.
    + pose proof (bij_comp _ _ _ (bij_xor 32 S' (mulw_fits _ _ _)) (mur_bij_a (add32 (S_mur (w32 s0 0) h0) a1) (addw_fits _ _ _))) as B.
      exact (bij_comp _ _ _ (bij_comp _ _ _ B (bij_add 32 a2)) fmix_bij).
    + intros m E. unfold spec_hash32_seed. cbv zeta. rewrite (Ln m E), H0. cbn [Nat.leb].
      unfold spec32_13to24, len32. cbv zeta. rewrite (Ln m E), H0.
      change (24 / 2 - 4)%nat with 8%nat. change (24 - 8)%nat with 16%nat. change (24 / 2)%nat with 12%nat. change (24 - 4)%nat with 20%nat.
      rewrite (w32_hole p m q 4), (w32_outside p m z q 0), (w32_outside p m z q 8), (w32_outside p m z q 16),
        (w32_outside p m z q 12), (w32_outside p m z q 20) by (unfold n in *; lia).
      fold s0. unfold a2, a1, h0, a0, len32, s0. rewrite (Ln z Lz), H0. reflexivity.
  - (* 8 to 12 bytes, first word *)
    set (c := N.of_nat n * 5).
    exists (fun x => S_fmix (xor seed (S_mur (add32 9 (w32 s0 4)) (S_mur (add32 c (w32 s0 (n - 4))) (S_mur (add32 (N.of_nat n) x) (add32 c seed)))))).
    split.
    + pose proof (bij_comp _ _ _ (bij_add_l 32 (N.of_nat n)) (mur_bij_a (add32 c seed) (addw_fits _ _ _))) as B.
      pose proof (bij_comp _ _ _ (bij_comp _ _ _ B (mur_bij_h (add32 c (w32 s0 (n - 4))))) (mur_bij_h (add32 9 (w32 s0 4)))) as B1.
      exact (bij_comp _ _ _ (bij_comp _ _ _ B1 (bij_xor_l 32 seed Hseed)) fmix_bij).
    + intros m E. unfold spec_hash32_seed. cbv zeta. rewrite (Ln m E).
      replace (n <=? 4)%nat with false by (symmetry; apply Nat.leb_gt; lia).
      replace (n <=? 12)%nat with true by (symmetry; apply Nat.leb_le; lia).
      unfold spec32_5to12. cbv zeta. rewrite (Ln m E).
      replace (8 <=? n)%nat with true by (symmetry; apply Nat.leb_le; lia). unfold s0.
      rewrite (w32_hole p m q 0), (w32_outside p m z q 4), (w32_outside p m z q (n - 4)) by (unfold n in *; lia). reflexivity.
Qed.
Lemma hole32_exactly_one p q seed h : bytes_ok p -> bytes_ok q -> fits 32 seed -> hole32 (length p + 4 + length q) (length p) -> fits 32 h ->
  exists m, (bytes_ok m /\ length m = 4%nat /\ spec_hash32_seed (p ++ m ++ q) seed = h) /\
    forall m', bytes_ok m' -> length m' = 4%nat -> spec_hash32_seed (p ++ m' ++ q) seed = h -> m' = m.
Proof.
  intros Hp Hq Hs H Hh. destruct (hole32_perm p q seed Hp Hq Hs H) as [G [B E]].
  destruct (bij_surj _ _ B h Hh) as [x [Hx Gx]]. exists (le_store 4 x). split.
  - split; [apply le_store_ok|]. split; [apply le_store_length|]. rewrite E by apply le_store_length.
    now rewrite le_load_store.
  - intros m' B' L' E'. rewrite E in E' by assumption. rewrite <- Gx in E'.
    apply (bij_inj _ _ B) in E'; auto.
    + rewrite <- E', <- L'. symmetry. now apply le_store_load.
    + apply le_load_fits; auto. rewrite L'. reflexivity.
Qed.
Lemma hash32_seed_0 s : (length s <= 24)%nat -> spec_hash32_seed s 0 = spec_hash32 s.
Proof.
  intros H. unfold spec_hash32_seed, spec_hash32. cbv zeta.
  destruct (length s <=? 4)%nat; [reflexivity|]. destruct (length s <=? 12)%nat; [reflexivity|].
  apply Nat.leb_le in H. rewrite H. reflexivity.
Qed.
(** Longer keys: seeding only acts on the hash of what follows the first 24 bytes. *)
Lemma hash32_seed_long s t seed : (24 < length s)%nat -> length s = length t -> firstn 24 s = firstn 24 t ->
  (spec_hash32_seed s seed = spec_hash32_seed t seed <-> spec_hash32 (skipn 24 s) = spec_hash32 (skipn 24 t)).
Proof.
  intros H L P. unfold spec_hash32_seed, len32. cbv zeta. rewrite <- L, <- P.
  replace (length s <=? 4)%nat with false by (symmetry; apply Nat.leb_gt; lia).
  replace (length s <=? 12)%nat with false by (symmetry; apply Nat.leb_gt; lia).
  replace (length s <=? 24)%nat with false by (symmetry; apply Nat.leb_gt; lia).
  match goal with |- S_mur _ ?h = _ <-> _ =>
    pose proof (bij_comp _ _ _ (bij_add 32 seed) (mur_bij_a h (fmix_fits _))) as B end.
  apply (bij_inj_iff _ _ (spec_hash32 (skipn 24 s)) (spec_hash32 (skipn 24 t)) B); apply spec_hash32_fits.
Qed.
