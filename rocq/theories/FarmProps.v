(** Properties C31 and C63-C67: package farm. *)
From Coq Require Import NArith ZArith List Arith Lia.
From Verif Require Import Words WordLemmas Bij Mem FarmModel FarmSpec FarmProofs FarmProofs2 FarmMore.
Import ListNotations.
Open Scope N_scope.

(** C31: whatever the key and the seeds, every entry point returns (no index is out
    of range, no loop runs on), and what it returns is the published function. *)
Theorem c31_farm_in_bounds s : bytes_ok s ->
  farm_hash32 s = Ok (spec_hash32 s) /\ farm_hash64 s = Ok (spec_hash64 s) /\ farm_hash128 s = Ok (spec_hash128 s) /\
  (forall seed, farm_hash32_with_seed s seed = Ok (spec_hash32_seed s seed)) /\
  (forall seed, farm_hash64_with_seed s seed = Ok (spec_hash64_seed s seed)) /\
  (forall a b, hash64_with_seeds s a b = Ok (spec_hash64_seeds s a b)) /\
  (forall a b, farm_hash128_with_seed s a b = Ok (spec_hash128_seed s a b)).
Proof.
  intros H.
  exact (conj (hash32_ok s H) (conj (hash64_ok s H) (conj (hash128_ok s H)
    (conj (fun a => hash32_seed_ok s a H) (conj (fun a => hash64_seed_ok s a H)
    (conj (fun a b => hash64_seeds_ok s a b H) (fun a b => hash128_seed_ok s a b H))))))).
Qed.
Print Assumptions c31_farm_in_bounds.
(** The results are machine words of the announced size. *)
Theorem c31_farm_ranges s : bytes_ok s ->
  (exists h, farm_hash32 s = Ok h /\ h < 2 ^ 32) /\ (exists h, farm_hash64 s = Ok h /\ h < 2 ^ 64) /\
  (exists lo hi, farm_hash128 s = Ok (lo, hi) /\ lo < 2 ^ 64 /\ hi < 2 ^ 64) /\
  (forall seed, exists h, farm_hash32_with_seed s seed = Ok h /\ h < 2 ^ 32) /\
  (forall seed, exists h, farm_hash64_with_seed s seed = Ok h /\ h < 2 ^ 64) /\
  (forall a b, exists h, hash64_with_seeds s a b = Ok h /\ h < 2 ^ 64) /\
  (forall a b, exists lo hi, farm_hash128_with_seed s a b = Ok (lo, hi) /\ lo < 2 ^ 64 /\ hi < 2 ^ 64).
Proof.
  intros H. destruct (c31_farm_in_bounds s H) as (E1 & E2 & E3 & E4 & E5 & E6 & E7).
  split; [exact (ex_intro _ _ (conj E1 (spec_hash32_fits s)))|]. split; [exact (ex_intro _ _ (conj E2 (spec_hash64_fits s)))|].
  split. { pose proof (hash128_fits s). destruct (spec_hash128 s) as [lo hi]. exists lo, hi. auto. }
  split; [intros a; exact (ex_intro _ _ (conj (E4 a) (spec_hash32_seed_fits s a)))|]. split; [intros a; exact (ex_intro _ _ (conj (E5 a) (spec_hash64_seed_fits s a)))|].
  split; [intros a b; exact (ex_intro _ _ (conj (E6 a b) (spec_hash64_seeds_fits s a b)))|].
  intros a b. pose proof (hash128_seed_fits s a b). specialize (E7 a b). destruct (spec_hash128_seed s a b) as [lo hi]. exists lo, hi. auto.
Qed.
Print Assumptions c31_farm_ranges.
Definition farm_key (n : nat) : list N := map (fun i => N.of_nat i * 7 mod 256) (seq 1 n).
Lemma farm_key_ok n : bytes_ok (farm_key n).
Proof. apply Forall_forall. intros x Hx. apply in_map_iff in Hx as [i [<- _]]. now apply N.mod_lt. Qed.
Example c31_nonvacuous : bytes_ok (farm_key 300) /\ (exists h, farm_hash64 (farm_key 300) = Ok h) /\
  farm_hash64 (farm_key 129) <> farm_hash64 (farm_key 128) /\ farm_hash128 (farm_key 300) <> farm_hash128 (farm_key 299).
Proof.
  pose proof (farm_key_ok 300) as B.
  split; [exact B|]. split; [eexists; apply (proj1 (proj2 (c31_farm_in_bounds _ B)))|].
  split; vm_compute; discriminate.
Qed.

(** C63: for keys of at most 64 bytes seeding never separates two keys that collide,
    and never makes two keys collide that did not: the collisions are the same for
    every seed. *)
Theorem c63_seed_independent_collisions s t : bytes_ok s -> bytes_ok t -> (length s <= 64)%nat -> (length t <= 64)%nat ->
  (forall seed, seed < 2 ^ 64 -> (farm_hash64_with_seed s seed = farm_hash64_with_seed t seed <-> farm_hash64 s = farm_hash64 t)) /\
  (forall a b, b < 2 ^ 64 -> (hash64_with_seeds s a b = hash64_with_seeds t a b <-> farm_hash64 s = farm_hash64 t)).
Proof.
  intros Hs Ht Ls Lt. rewrite (hash64_ok s Hs), (hash64_ok t Ht). split.
  - intros seed F. rewrite (hash64_seed_ok s seed Hs), (hash64_seed_ok t seed Ht).
    pose proof (seed_iff s t seed Ls Lt F) as I. split; intros E; f_equal; apply I; congruence.
  - intros a b F. rewrite (hash64_seeds_ok s a b Hs), (hash64_seeds_ok t a b Ht).
    pose proof (seeds_iff s t a b Ls Lt F) as I. split; intros E; f_equal; apply I; congruence.
Qed.
Print Assumptions c63_seed_independent_collisions.

(** C64: take a key of 32 bytes and let bytes 16-23 vary, or a key of 56 to 64 bytes
    and let the eight bytes that end 16 before the end vary: every 64 bit value is
    the Hash64 of exactly one of the keys. *)
Theorem c64_hash64_permutes_a_word p q h : bytes_ok p -> bytes_ok q -> h < 2 ^ 64 ->
  (length p = 16 /\ length q = 8 \/ 32 <= length p <= 40 /\ length q = 16)%nat ->
  exists m, (bytes_ok m /\ length m = 8%nat /\ farm_hash64 (p ++ m ++ q) = Ok h) /\
    forall m', bytes_ok m' -> length m' = 8%nat -> farm_hash64 (p ++ m' ++ q) = Ok h -> m' = m.
Proof.
  intros Hp Hq Hh L.
  assert (Hl : hole (length p + 8 + length q) (length p) (length p + 8)) by (unfold hole; lia).
  assert (B : forall m, bytes_ok m -> bytes_ok (p ++ m ++ q)).
  { intros m Hm. apply bytes_ok_app; split; auto. apply bytes_ok_app; auto. }
  destruct (hole_surjective p q h Hp Hq Hh Hl) as (m & Hm & Lm & E).
  exists m. split.
  - split; [assumption|]. split; [assumption|]. rewrite hash64_ok by auto. now rewrite E.
  - intros m' Hm' Lm' E'. rewrite hash64_ok in E' by auto.
    apply (hole_no_collision p m' m q); auto; try congruence.
    unfold hole in *. rewrite !app_length, Lm'. lia.
Qed.
Print Assumptions c64_hash64_permutes_a_word.
(** More generally two keys that differ only in such places never collide. *)
Theorem c64_no_collisions_in_hole p m m' q : bytes_ok p -> bytes_ok m -> bytes_ok m' -> bytes_ok q -> length m = length m' ->
  (let n := length p + length m + length q in
   24 < n <= 32 /\ 16 <= length p /\ 8 <= length q \/
   48 < n <= 64 /\ 32 <= length p /\ n <= length p + 24 /\ 16 <= length q)%nat ->
  farm_hash64 (p ++ m ++ q) = farm_hash64 (p ++ m' ++ q) -> m = m'.
Proof.
  intros Hp Hm Hm' Hq L H E.
  assert (B : forall m, bytes_ok m -> bytes_ok (p ++ m ++ q)).
  { intros x Hx. apply bytes_ok_app; split; auto. apply bytes_ok_app; auto. }
  rewrite !hash64_ok in E by auto. apply (hole_no_collision p m m' q); auto; try congruence.
  cbv zeta in H. unfold hole. rewrite !app_length. lia.
Qed.
Print Assumptions c64_no_collisions_in_hole.
(** Consequence: any key has a colliding partner with any chosen 16 first and 8 last
    bytes, and no seed separates them. *)
Theorem c63_collisions_everywhere s p q : bytes_ok s -> (length s <= 64)%nat -> bytes_ok p -> bytes_ok q -> length p = 16%nat -> length q = 8%nat ->
  exists m, bytes_ok m /\ length m = 8%nat /\
    farm_hash64 (p ++ m ++ q) = farm_hash64 s /\
    (forall seed, seed < 2 ^ 64 -> farm_hash64_with_seed (p ++ m ++ q) seed = farm_hash64_with_seed s seed) /\
    (forall a b, b < 2 ^ 64 -> hash64_with_seeds (p ++ m ++ q) a b = hash64_with_seeds s a b).
Proof.
  intros Hs Ls Hp Hq Lp Lq.
  destruct (c64_hash64_permutes_a_word p q (spec_hash64 s) Hp Hq (spec_hash64_fits s)) as (m & (Hm & Lm & E) & _); [lia|].
  rewrite <- (hash64_ok s Hs) in E. exists m.
  assert (Ht : bytes_ok (p ++ m ++ q)). { apply bytes_ok_app; split; auto. apply bytes_ok_app; auto. }
  assert (Lt : (length (p ++ m ++ q) <= 64)%nat) by (rewrite !app_length; lia).
  destruct (c63_seed_independent_collisions (p ++ m ++ q) s Ht Hs Lt Ls) as [I1 I2].
  split; [assumption|]. split; [assumption|]. split; [assumption|].
  split; [intros seed F; now apply I1|intros a b F; now apply I2].
Qed.
Print Assumptions c63_collisions_everywhere.
Example c63_nonvacuous : exists m, length m = 8%nat /\
  farm_hash64_with_seed (farm_key 16 ++ m ++ farm_key 8) 12345 = farm_hash64_with_seed [] 12345.
Proof.
  destruct (c63_collisions_everywhere [] (farm_key 16) (farm_key 8)) as (m & _ & L & _ & E & _);
    try apply farm_key_ok; try reflexivity; try (now constructor); try apply Nat.le_0_l.
  exists m. split; [assumption|]. now apply E.
Qed.
Example c64_nonvacuous : exists m, farm_hash64 (farm_key 36 ++ m ++ farm_key 16) = Ok 0x0123456789abcdef.
Proof.
  destruct (c64_hash64_permutes_a_word (farm_key 36) (farm_key 16) 0x0123456789abcdef) as (m & (_ & _ & E) & _);
    try apply farm_key_ok; try reflexivity.
  - right. split; [split; apply Nat.leb_le; reflexivity|reflexivity].
  - now exists m.
Qed.
Example c64_hole_nonvacuous :
  farm_hash64 (farm_key 20 ++ [1; 2] ++ farm_key 8) <> farm_hash64 (farm_key 20 ++ [1; 3] ++ farm_key 8) /\
  farm_hash64 (farm_key 36 ++ [1; 2] ++ farm_key 16) <> farm_hash64 (farm_key 36 ++ [2; 2] ++ farm_key 16).
Proof. split; vm_compute; discriminate. Qed.

(** C65: for a fixed key of at most 64 bytes and second seed, the first seed of
    Hash64WithSeeds is permuted: different first seeds give different hashes. *)
Theorem c65_first_seed_permuted s b : bytes_ok s -> (length s <= 64)%nat -> b < 2 ^ 64 ->
  exists f, bijection_on (fits 64) f /\ forall a, hash64_with_seeds s a b = Ok (f a).
Proof.
  intros Hs L Hb. exists (fun a => spec_hash64_seeds s a b). split; [now apply seed0_bij|].
  intros a. now apply hash64_seeds_ok.
Qed.
Print Assumptions c65_first_seed_permuted.
Example c65_nonvacuous : hash64_with_seeds (farm_key 40) 1 2 <> hash64_with_seeds (farm_key 40) 3 2.
Proof. vm_compute. discriminate. Qed.

(** C66: with the other bytes and the seed fixed, the 32 bit hash is a permutation
    of any of the three words of a 12 byte key, of the first word of a key of 8 to 12
    or 16 to 24 bytes, and of the second word of a 24 byte key. *)
Theorem c66_hash32_permutes_a_word p q seed h : bytes_ok p -> bytes_ok q -> seed < 2 ^ 32 -> h < 2 ^ 32 ->
  (let n := length p + 4 + length q in
   n = 12 /\ (length p = 0 \/ length p = 4 \/ length p = 8) \/ 16 <= n <= 24 /\ length p = 0 \/ n = 24 /\ length p = 4 \/ 8 <= n <= 12 /\ length p = 0)%nat ->
  exists m, (bytes_ok m /\ length m = 4%nat /\ farm_hash32_with_seed (p ++ m ++ q) seed = Ok h) /\
    forall m', bytes_ok m' -> length m' = 4%nat -> farm_hash32_with_seed (p ++ m' ++ q) seed = Ok h -> m' = m.
Proof.
  intros Hp Hq Hs Hh L.
  assert (B : forall m, bytes_ok m -> bytes_ok (p ++ m ++ q)).
  { intros x Hx. apply bytes_ok_app; split; auto. apply bytes_ok_app; auto. }
  destruct (hole32_exactly_one p q seed h Hp Hq Hs L Hh) as (m & (Hm & Lm & E) & U). exists m. split.
  - split; [assumption|]. split; [assumption|]. rewrite hash32_seed_ok by auto. now rewrite E.
  - intros m' Hm' Lm' E'. rewrite hash32_seed_ok in E' by auto. apply U; auto. congruence.
Qed.
Print Assumptions c66_hash32_permutes_a_word.
(** Up to 24 bytes Hash32 is Hash32WithSeed with seed 0, so the same holds of it. *)
Theorem c66_hash32_is_seed_0 s : bytes_ok s -> (length s <= 24)%nat -> farm_hash32 s = farm_hash32_with_seed s 0.
Proof. intros Hs L. rewrite hash32_ok, hash32_seed_ok by auto. now rewrite hash32_seed_0. Qed.
Print Assumptions c66_hash32_is_seed_0.
Theorem c66_hash32_is_seed_0_refuted : exists s, bytes_ok s /\ length s = 25%nat /\ farm_hash32 s <> farm_hash32_with_seed s 0.
Proof.
  exists (repeat 0 25). split; [repeat constructor|]. split; [reflexivity|]. vm_compute. discriminate.
Qed.
Print Assumptions c66_hash32_is_seed_0_refuted.
Example c66_nonvacuous : exists m, farm_hash32_with_seed (farm_key 4 ++ m ++ farm_key 4) 99 = Ok 0xdeadbeef.
Proof.
  destruct (c66_hash32_permutes_a_word (farm_key 4) (farm_key 4) 99 0xdeadbeef) as (m & (_ & _ & E) & _);
    try apply farm_key_ok; try reflexivity.
  - left. split; [reflexivity|]. right. left. reflexivity.
  - now exists m.
Qed.
Example c66_short_nonvacuous : exists m, farm_hash32_with_seed (m ++ farm_key 6) 99 = Ok 0xdeadbeef.
Proof.
  destruct (c66_hash32_permutes_a_word [] (farm_key 6) 99 0xdeadbeef) as (m & (_ & _ & E) & _);
    try apply farm_key_ok; try reflexivity; try (now constructor).
  - do 3 right. cbn. lia.
  - now exists m.
Qed.
Example c66_seed_0_nonvacuous : bytes_ok (farm_key 17) /\ farm_hash32 (farm_key 17) = farm_hash32_with_seed (farm_key 17) 0 /\
  farm_hash32 (farm_key 17) <> farm_hash32_with_seed (farm_key 17) 1.
Proof. split; [repeat constructor|split; vm_compute; [reflexivity|discriminate]]. Qed.

(** C67: keys of more than 24 bytes of the same length with the same first 24 bytes
    collide under Hash32WithSeed for one seed iff they do for every seed, namely iff
    the rests collide under the unseeded Hash32. *)
Theorem c67_hash32_seed_independent s t seed : bytes_ok s -> bytes_ok t -> (24 < length s)%nat -> length s = length t ->
  firstn 24 s = firstn 24 t ->
  (farm_hash32_with_seed s seed = farm_hash32_with_seed t seed <-> farm_hash32 (skipn 24 s) = farm_hash32 (skipn 24 t)).
Proof.
  intros Hs Ht H L P. rewrite !hash32_seed_ok, !hash32_ok by auto using bytes_ok_skipn.
  pose proof (hash32_seed_long s t seed H L P) as I. split; intros E; f_equal; apply I; congruence.
Qed.
Print Assumptions c67_hash32_seed_independent.
Example c67_nonvacuous :
  firstn 24 (farm_key 30) = firstn 24 (farm_key 24 ++ repeat 0 6) /\
  farm_hash32_with_seed (farm_key 30) 5 <> farm_hash32_with_seed (farm_key 24 ++ repeat 0 6) 5.
Proof. split; [reflexivity|vm_compute; discriminate]. Qed.
