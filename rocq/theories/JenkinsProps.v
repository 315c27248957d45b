(** Properties C20-C28 and C55-C60: package jenkins. *)
From Coq Require Import ZArith.
From Verif Require Import Words WordLemmas ListLemmas Blocks DigestSpec Bij Mem Mm3Spec
  JenkinsModel JenkinsSpec JenkinsProofs JenkinsProofs2 JenkinsProofs3 JenkinsProofs4 JenkinsProofs5 JenkinsProofs6.
Open Scope N_scope.

(** C20: every mixing and finalising function is a bijection of its register triple. *)
Theorem c20_mixers_bijective :
  bijection_on (tri_ok 32) mix32 /\ bijection_on (tri_ok 32) mix32a /\
  bijection_on (tri_ok 64) mix64 /\ bijection_on (tri_ok 64) mix64alt /\
  (bijection_on (tri_ok 64) mix64a /\ bijection_on (tri_ok 64) mix64b /\ bijection_on (tri_ok 64) mix64c /\
   bijection_on (tri_ok 64) mix64d /\ bijection_on (tri_ok 64) mix64e /\ bijection_on (tri_ok 64) mix64f) /\
  bijection_on (tri_ok 32) mix1 /\ bijection_on (tri_ok 32) mix2 /\
  bijection_on (tri_ok 32) final1 /\ bijection_on (tri_ok 32) final2 /\
  bijection_on (tri_ok 32) xmix /\ bijection_on (tri_ok 32) xfinal.
Proof.
  split; [exact mix32_bij|]. split; [exact (bij_ext _ _ _ (fun s _ => eq_sym (mix32a_eq s)) mix32_bij)|].
  split; [exact mix64_bij|]. split; [exact mix64alt_bij|].
  split; [exact (conj mix64a_bij (conj mix64b_bij (conj mix64c_bij (conj mix64d_bij (conj mix64e_bij mix64f_bij)))))|].
  split; [exact mix1_bij|]. split; [exact mix2_bij|]. split; [exact final1_bij|]. split; [exact final2_bij|].
  split; [exact (bij_ext _ _ _ (fun s _ => eq_sym (xmix_eq s)) mix12_bij)|].
  exact (bij_ext _ _ _ (fun s _ => eq_sym (xfinal_eq s)) final12_bij).
Qed.
Print Assumptions c20_mixers_bijective.
Example c20_nonvacuous : tri_ok 32 (1, 2, 3) /\ mix32 (1, 2, 3) <> mix32 (1, 2, 4) /\ tri_ok 64 (1, 2, 3) /\ final1 (1, 2, 3) <> (1, 2, 3).
Proof. repeat split; try reflexivity; vm_compute; discriminate. Qed.

(** C21: the variants of the mixers. *)
Theorem c21_mixer_variants_agree :
  (forall s, mix32a s = mix32 s) /\
  (forall s, mix64f (mix64e (mix64d (mix64c (mix64b (mix64a s))))) = mix64alt s) /\
  (forall s, xmix s = mix2 (mix1 s)) /\ (forall s, xfinal s = final2 (final1 s)).
Proof. exact (conj mix32a_eq (conj mix64alt_eq (conj xmix_eq xfinal_eq))). Qed.
Print Assumptions c21_mixer_variants_agree.
(** mix64 is not the mixer Hash264 uses. *)
Theorem c21_mix64_refuted : exists s, tri_ok 64 s /\ mix64 s <> mix64alt s.
Proof. exists (1, 0, 0). split; [repeat split; reflexivity|exact mix64_differs]. Qed.
Print Assumptions c21_mix64_refuted.
Example c21_nonvacuous : mix32a (1, 2, 3) = mix32 (1, 2, 3) /\ mix32 (1, 2, 3) <> (1, 2, 3) /\
  mix64alt (1, 2, 3) <> mix64 (1, 2, 3) /\ mix64alt (1, 2, 3) <> mix64a (1, 2, 3) /\
  xmix (1, 2, 3) = mix2 (mix1 (1, 2, 3)) /\ xmix (1, 2, 3) <> mix1 (mix2 (1, 2, 3)) /\
  xfinal (1, 2, 3) <> final1 (final2 (1, 2, 3)) /\ xfinal (1, 2, 3) <> xmix (1, 2, 3).
Proof. repeat split; vm_compute; first [reflexivity|discriminate]. Qed.

(** C22: after any whole number of blocks, a tail x :: r of at most ten bytes with
    x > 0 collides with the longer tail (x-1) :: r ++ [0], whatever the seed. *)
Theorem c22_hash232_collisions : forall p x r seed,
  bytes_ok (p ++ x :: r) -> fits 32 seed -> (length p mod 12 = 0)%nat -> (length r <= 9)%nat -> 1 <= x ->
  N.of_nat (length p) + 11 < 2 ^ 32 ->
  hash232 (p ++ x :: r) seed = hash232 (p ++ (x - 1) :: r ++ [0]) seed.
Proof. exact hash232_collide. Qed.
Print Assumptions c22_hash232_collisions.
Example c22_nonvacuous : hash232 [7] 5 = hash232 [6; 0] 5 /\ exists h, hash232 [7] 5 = Ok h /\ hash232 [8] 5 <> Ok h.
Proof. split; [exact (c22_hash232_collisions [] 7 [] 5 ltac:(repeat constructor) ltac:(reflexivity) eq_refl ltac:(cbn; lia) ltac:(lia) ltac:(reflexivity))|].
  eexists. split; vm_compute; [reflexivity|discriminate]. Qed.

(** C23: reading the key as a slice of words or byte by byte gives the same hash. *)
Theorem c23_fast_paths : forall k seed, bytes_ok k ->
  (fits 32 seed -> hash232_with true k seed = hash232_with false k seed) /\
  (fits 64 seed -> N.of_nat (length k) < 2 ^ 64 -> hash264_with true k seed = hash264_with false k seed).
Proof.
  intros k seed Hk. split; intros; [now rewrite !hash232_gen|now rewrite !hash264_gen].
Qed.
Print Assumptions c23_fast_paths.
(** Neither panics nor reads outside the key. *)
Theorem c23_total : forall k seed, bytes_ok k ->
  (fits 32 seed -> exists h, hash232 k seed = Ok h) /\
  (fits 64 seed -> N.of_nat (length k) < 2 ^ 64 -> exists h, hash264 k seed = Ok h).
Proof.
  intros k seed Hk. split; intros; unfold hash232, hash264; [rewrite hash232_gen by assumption|rewrite hash264_gen by assumption]; eauto.
Qed.
Print Assumptions c23_total.
Example c23_nonvacuous : exists h h', hash232_with true (repeat 200 25) 9 = Ok h /\ hash264_with false (repeat 200 49) 9 = Ok h'.
Proof. eexists. eexists. split; vm_compute; reflexivity. Qed.

(** C24: hashing words is hashing their little-endian bytes. *)
Theorem c24_words_as_bytes : forall ws seed len, Forall (fits 32) ws -> N.of_nat (length ws) < 2 ^ 32 ->
  exists h h', jenkins364 (wbytes ws) (Z.of_nat (length (wbytes ws))) seed 0 = Ok (h, h') /\
    hash_words332 ws seed = Ok h /\ xhash_words ws len seed = Ok h /\
    hash_words_len ws (Z.of_nat (length ws)) seed = Ok h.
Proof.
  intros ws seed len H Hl. rewrite jenkins364_full.
  - rewrite hash_words332_eq, xhash_words_eq, hash_words_len_eq, words_from_shift by (auto; lia).
    rewrite firstn_all, Nat.sub_diag, N.add_0_r.
    assert (E : lookup3 (wbytes ws) (seed mod 2 ^ 32) 0 = lookup3 (wbytes ws) seed 0).
    { rewrite !lookup3_from. now rewrite N.add_mod_idemp_r by apply pow2_nz. }
    rewrite E. destruct (lookup3 (wbytes ws) seed 0) as [h h']. exists h, h'. auto.
  - clear. unfold wbytes. induction ws; cbn [flat_map]; [constructor|]. apply bytes_ok_app. split; auto. apply le_store_ok.
Qed.
Print Assumptions c24_words_as_bytes.
Example c24_nonvacuous : hash_words332 [1; 2; 3; 4; 0xffffffff] 7 = xhash_words [1; 2; 3; 4; 0xffffffff] 99 7 /\
  (exists h, hash_words332 [1; 2; 3; 4; 0xffffffff] 7 = Ok h).
Proof. split; [|eexists]; vm_compute; reflexivity. Qed.

(** C25: an explicit length n hashes the first n bytes with initial value shifted by
    the number of bytes left out. *)
Theorem c25_explicit_length : forall k n pc pb, bytes_ok k -> (1 <= n <= length k)%nat ->
  exists r, jenkins364 k (Z.of_nat n) pc pb = Ok r /\
    jenkins364 (firstn n k) (Z.of_nat n) ((pc + N.of_nat (length k - n)) mod 2 ^ 32) pb = Ok r.
Proof.
  intros k n pc pb Hk Hn. eexists. split; [now apply jenkins364_explicit|].
  rewrite <- (jenkins364_full (firstn n k)) by now apply bytes_ok_firstn. now rewrite firstn_length_le by lia.
Qed.
Print Assumptions c25_explicit_length.
Theorem c25_explicit_length_words : forall k n seed, Forall (fits 32) k -> (n <= length k)%nat -> N.of_nat (length k) < 2 ^ 32 ->
  exists r, hash_words_len k (Z.of_nat n) seed = Ok r /\
    hash_words332 (firstn n k) ((seed + 4 * N.of_nat (length k - n)) mod 2 ^ 32) = Ok r.
Proof.
  intros k n seed Hk Hn Hl. eexists. split; [now apply hash_words_len_eq|]. rewrite words_from_shift by assumption.
  apply hash_words332_eq.
  - rewrite <- (firstn_skipn n k) in Hk. now apply Forall_app in Hk.
  - rewrite firstn_length_le by lia. lia.
Qed.
Print Assumptions c25_explicit_length_words.
Theorem c25_explicit_length_refuted : exists k n seed, bytes_ok k /\ (1 <= n < length k)%nat /\
  hash_bytes_length k (Z.of_nat n) seed <> hash_bytes_length (firstn n k) (Z.of_nat n) seed.
Proof. exists [1; 2; 3], 2%nat, 0. split; [repeat constructor|]. split; [cbn; lia|]. vm_compute. discriminate. Qed.
Print Assumptions c25_explicit_length_refuted.
Example c25_nonvacuous :
  jenkins364 [1; 2; 3; 4; 5] 3 7 9 = Ok (3165182476, 83811785) /\ jenkins364 [1; 2; 3] 3 (7 + 2) 9 = Ok (3165182476, 83811785) /\
  hash_words_len [1; 2; 3; 4; 5] 3 7 = Ok 2014002067 /\ hash_words332 [1; 2; 3] (7 + 4 * 2) = Ok 2014002067.
Proof. split; [vm_compute; reflexivity|]. split; [vm_compute; reflexivity|]. split; vm_compute; reflexivity. Qed.
(** Length zero means the whole slice. *)
Theorem c25_zero_length : forall k pc pb, jenkins364 k 0 pc pb = jenkins364 k (Z.of_nat (length k)) pc pb.
Proof. exact jenkins364_0. Qed.
Print Assumptions c25_zero_length.

(** C26: the first result of a lookup3 digest is that of the one-shot hash of the
    concatenation. *)
Theorem c26_first_sum : forall seed chunks, Forall bytes_ok chunks ->
  (exists h, jsum32 (concat chunks) seed = Ok h /\
     run_history_res write332 sum_332 sum32_332 reset332 (new332 seed) (map DWrite chunks ++ [DSum64]) =
       Ok (map (fun c => OWrote (length c)) chunks ++ [OWord h]) /\
     run_history_res write332 sum_332 sum32_332 reset332 (new332 seed) (map DWrite chunks ++ [DSum []]) =
       Ok (map (fun c => OWrote (length c)) chunks ++ [OBytes (be_store 4 h)])) /\
  (fits 64 seed -> exists h h', jenkins364 (concat chunks) (Z.of_nat (length (concat chunks))) (seed mod 2 ^ 32) (seed / 2 ^ 32) = Ok (h, h') /\
     run_history_res write364 sum_364 sum64_364 reset364 (new364 seed) (map DWrite chunks ++ [DSum64]) =
       Ok (map (fun c => OWrote (length c)) chunks ++ [OWord (h + 2 ^ 32 * h')])).
Proof.
  intros seed chunks Hc.
  assert (Hb : bytes_ok (concat chunks)).
  { clear seed. induction Hc; [constructor|]. cbn [concat]. apply bytes_ok_app. auto. }
  split.
  - unfold jsum32. rewrite jenkins364_full by assumption.
    rewrite !(run332_chain seed) by (try reflexivity; try constructor; now apply writes_ok).
    rewrite !chain_writes. cbn [new332 reset332 s332_tail s332_pc s332_pb s332_seed app chain_history fst snd].
    destruct (lookup3 (concat chunks) seed seed) as [h h']. cbn [rbind fst]. eauto.
  - intros Hs. rewrite jenkins364_full by assumption.
    rewrite !(run364_chain seed) by (try assumption; try reflexivity; try constructor; now apply writes_ok).
    rewrite !chain_writes. cbn [new364 reset364 s364_tail s364_pc s364_pb s364_seed app chain_history fst snd].
    rewrite wrap_mod. unfold shr. rewrite N.shiftr_div_pow2, wrap_small.
    2:{ unfold fits in *. apply N.div_lt_upper_bound; [discriminate|exact Hs]. }
    destruct (lookup3 _ _ _) as [h h']. exists h, h'. auto.
Qed.
Print Assumptions c26_first_sum.
Example c26_nonvacuous : exists h, jsum32 [1; 2; 3] 3 = Ok h /\ h <> 0 /\
  run_history_res write332 sum_332 sum32_332 reset332 (new332 3) [DWrite [1; 2]; DWrite []; DWrite [3]; DSum64] =
  Ok [OWrote 2; OWrote 0; OWrote 1; OWord h].
Proof. eexists. split; [vm_compute; reflexivity|]. split; [discriminate|vm_compute; reflexivity]. Qed.

(** C27: all histories of the lookup3 digests; every Sum starts from the result of
    the previous one. *)
Theorem c27_histories : forall seed ops, Forall dop_ok ops ->
  run_history_res write332 sum_332 sum32_332 reset332 (new332 seed) ops =
    Ok (chain_history (fun v => be_store 4 (fst v)) fst (seed, seed) [] (seed, seed) ops) /\
  (fits 64 seed ->
   run_history_res write364 sum_364 sum64_364 reset364 (new364 seed) ops =
    Ok (chain_history (fun v => be_store 8 (fst v)) word64_of (seed mod 2 ^ 32, seed / 2 ^ 32) []
          (seed mod 2 ^ 32, seed / 2 ^ 32) ops)).
Proof.
  intros seed ops Ho. split.
  - apply (run332_chain seed); auto. constructor.
  - intros Hs. rewrite (run364_chain seed) by (auto; constructor).
    cbn [new364 reset364 s364_tail s364_pc s364_pb s364_seed]. rewrite wrap_mod. unfold shr. rewrite N.shiftr_div_pow2, wrap_small; auto.
    unfold fits in *. apply N.div_lt_upper_bound; [discriminate|exact Hs].
Qed.
Print Assumptions c27_histories.
Example c27_nonvacuous : let ops := [DWrite [1; 2]; DSum64; DWrite [3]; DSum64; DSum64; DReset; DSum64] in
  Forall dop_ok ops /\ exists a b c d, NoDup [a; b; c; d] /\
  run_history_res write332 sum_332 sum32_332 reset332 (new332 3) ops = Ok [OWrote 2; OWord a; OWrote 1; OWord b; OWord c; OUnit; OWord d].
Proof.
  split; [repeat constructor|]. eexists _, _, _, _. split; [|vm_compute; reflexivity].
  repeat constructor; cbn; intuition discriminate.
Qed.
Theorem c27_sum_twice_refuted :
  (exists seed m h h', fits 32 seed /\ bytes_ok m /\ h <> h' /\
    run_history_res write332 sum_332 sum32_332 reset332 (new332 seed) [DWrite m; DSum64; DSum64] =
    Ok [OWrote (length m); OWord h; OWord h']) /\
  (exists seed m h h', fits 64 seed /\ bytes_ok m /\ h <> h' /\
    run_history_res write364 sum_364 sum64_364 reset364 (new364 seed) [DWrite m; DSum64; DSum64] =
    Ok [OWrote (length m); OWord h; OWord h']).
Proof.
  split; exists 0, [1; 2; 3]; eexists; eexists; (split; [reflexivity|]); (split; [repeat constructor|]);
    (split; [|vm_compute; reflexivity]); discriminate.
Qed.
Print Assumptions c27_sum_twice_refuted.

(** C28: Sum of the 64-bit digest appends four zero bytes and the low half of what
    Sum64 would have returned. *)
Theorem c28_sum_bytes : forall seed chunks inp, fits 64 seed -> Forall bytes_ok chunks ->
  exists h, run_history_res write364 sum_364 sum64_364 reset364 (new364 seed) (map DWrite chunks ++ [DSum64]) =
      Ok (map (fun c => OWrote (length c)) chunks ++ [OWord h]) /\
    run_history_res write364 sum_364 sum64_364 reset364 (new364 seed) (map DWrite chunks ++ [DSum inp]) =
      Ok (map (fun c => OWrote (length c)) chunks ++ [OBytes (inp ++ [0; 0; 0; 0] ++ be_store 4 (h mod 2 ^ 32))]).
Proof.
  intros seed chunks inp Hs Hc.
  rewrite !(run364_chain seed) by (try assumption; try reflexivity; try constructor; now apply writes_ok).
  rewrite !chain_writes. cbn [new364 reset364 s364_tail s364_pc s364_pb s364_seed app chain_history fst snd].
  match goal with |- context [lookup3 ?m ?a ?b] => pose proof (lookup3_ok m a b) as [F _]; destruct (lookup3 m a b) as [h h'] end.
  cbn [fst snd] in *. exists (word64_of (h, h')). split; [reflexivity|].
  replace (word64_of (h, h') mod 2 ^ 32) with h.
  - do 5 f_equal. unfold be_store. change (le_store 8 h) with (le_store 4 h ++ le_store 4 (N.shiftr (N.shiftr (N.shiftr (N.shiftr h 8) 8) 8) 8)).
    rewrite rev_app_distr. rewrite !N.shiftr_shiftr. replace (N.shiftr h (8 + (8 + (8 + 8)))) with 0; [reflexivity|].
    symmetry. rewrite N.shiftr_div_pow2. apply N.div_small. exact F.
  - unfold word64_of. cbn [fst snd]. rewrite N.mul_comm, N.mod_add by apply pow2_nz. symmetry. apply N.mod_small, F.
Qed.
Print Assumptions c28_sum_bytes.
Example c28_nonvacuous : exists h, 2 ^ 32 < h /\
  run_history_res write364 sum_364 sum64_364 reset364 (new364 3) [DWrite [1; 2]; DSum64] = Ok [OWrote 2; OWord h] /\
  run_history_res write364 sum_364 sum64_364 reset364 (new364 3) [DWrite [1; 2]; DSum [7]] = Ok [OWrote 2; OBytes ([7; 0; 0; 0; 0] ++ be_store 4 (h mod 2 ^ 32))].
Proof. eexists. split; [|split; vm_compute; reflexivity]. reflexivity. Qed.
Theorem c28_sum_bytes_refuted : exists m h, bytes_ok m /\
  run_history_res write364 sum_364 sum64_364 reset364 (new364 0) [DWrite m; DSum64] = Ok [OWrote (length m); OWord h] /\
  run_history_res write364 sum_364 sum64_364 reset364 (new364 0) [DWrite m; DSum []] <> Ok [OWrote (length m); OBytes (be_store 8 h)].
Proof. exists [1; 2; 3]. eexists. split; [repeat constructor|]. split; [vm_compute; reflexivity|]. vm_compute. discriminate. Qed.
Print Assumptions c28_sum_bytes_refuted.

(** C55: the byte hash is Jenkins' lookup3 (hashlittle2). *)
Theorem c55_lookup3_reference : forall m pc pb, bytes_ok m ->
  jenkins364 m (Z.of_nat (length m)) pc pb = Ok (lookup3 m pc pb) /\
  hash_string m pc pb = Ok (lookup3 m pc pb) /\
  jsum32 m pc = Ok (fst (lookup3 m pc pc)).
Proof.
  intros m pc pb Hm. unfold hash_string, jsum32. rewrite !jenkins364_full by assumption. cbn [rbind].
  destruct (lookup3 m pc pc). auto.
Qed.
Print Assumptions c55_lookup3_reference.
(** The test vectors of Jenkins' driver5 ("Four score and seven years ago" and the
    empty string). *)
Definition four_score : list N :=
  [70;111;117;114;32;115;99;111;114;101;32;97;110;100;32;115;101;118;101;110;32;121;101;97;114;115;32;97;103;111].
Example c55_vectors :
  hash_string [] 0 0 = Ok (0xdeadbeef, 0xdeadbeef) /\
  hash_string [] 0 0xdeadbeef = Ok (0xbd5b7dde, 0xdeadbeef) /\
  hash_string [] 0xdeadbeef 0xdeadbeef = Ok (0x9c093ccd, 0xbd5b7dde) /\
  hash_string four_score 0 0 = Ok (0x17770551, 0xce7226e6) /\
  hash_string four_score 0 1 = Ok (0xe3607cae, 0xbd371de4) /\
  hash_string four_score 1 0 = Ok (0xcd628161, 0x6cbea4b3).
Proof. repeat split; vm_compute; reflexivity. Qed.

(** C56: no explicit length up to len(k) makes the byte hash panic or read outside
    the slice; the word hash panics exactly beyond the slice. *)
Theorem c56_explicit_length_in_bounds : forall k z pc pb, bytes_ok k -> (z <= Z.of_nat (length k))%Z ->
  exists r, jenkins364 k z pc pb = Ok r.
Proof. exact jenkins364_total. Qed.
Print Assumptions c56_explicit_length_in_bounds.
Theorem c56_words_len_bounds : forall k z seed, Forall (fits 32) k -> N.of_nat (length k) < 2 ^ 32 ->
  (hash_words_len k z seed = Panics <-> (Z.of_nat (length k) < z)%Z) /\
  ((z <= Z.of_nat (length k))%Z -> exists r, hash_words_len k z seed = Ok r).
Proof.
  intros k z seed Hk Hl.
  assert (G : (z <= Z.of_nat (length k))%Z -> exists r, hash_words_len k z seed = Ok r).
  { intros Hz. destruct (Z.lt_ge_cases z 0) as [H|H].
    - unfold hash_words_len. replace (_ * 4 <? z)%Z with false by (symmetry; apply Z.ltb_ge; lia).
      replace (z <? 0)%Z with true by (symmetry; apply Z.ltb_lt; lia). destruct (words_init k seed) as [[? ?] ?]. eauto.
    - replace z with (Z.of_nat (Z.to_nat z)) by lia. rewrite hash_words_len_eq by (auto; lia). eauto. }
  split; auto. split.
  - intros E. destruct (Z.lt_ge_cases (Z.of_nat (length k)) z); auto. destruct G as [r R]; [lia|]. congruence.
  - apply hash_words_len_panics.
Qed.
Print Assumptions c56_words_len_bounds.
(** Beyond len(k) the exported byte hash can read outside the slice. *)
Theorem c56_in_bounds_refuted : exists k z, bytes_ok k /\ jenkins364 k z 0 0 = Overread.
Proof. exists [1; 2; 3; 4; 5; 6; 7; 8; 9], 12%Z. split; [repeat constructor|reflexivity]. Qed.
Print Assumptions c56_in_bounds_refuted.
(** Beyond len(k) it never returns a value that depends on the slice only.  It reads outside
    the slice exactly when the slice is not a whole number of 4-byte words and the length
    asked for is one, or lies past the 12-byte block in which the slice ends; it panics
    otherwise.  HashBytesLength panics for every such length. *)
Theorem c56_beyond : forall k z pc pb seed, (Z.of_nat (length k) < z)%Z ->
  let outside := (length k mod 4 <> 0)%nat /\ ((z mod 4 = 0)%Z \/ (12 * (Z.of_nat (length k) / 12 + 1) < z)%Z) in
  (jenkins364 k z pc pb = Overread <-> outside) /\
  (jenkins364 k z pc pb = Panics <-> ~ outside) /\
  hash_bytes_length k z seed = Panics.
Proof.
  intros k z pc pb seed H. cbv zeta. rewrite jenkins364_beyond by exact H.
  assert (E : (12 * Z.of_nat (length k / 12) + 12 = 12 * (Z.of_nat (length k) / 12 + 1))%Z)
    by (rewrite Nat2Z.inj_div; change (Z.of_nat 12) with 12%Z; lia).
  unfold beyond. rewrite E. unfold hash_bytes_length. replace (_ <? z)%Z with true by (symmetry; apply Z.ltb_lt; lia).
  destruct (Nat.eqb_spec (length k mod 4) 0), (Z.eqb_spec (z mod 4) 0),
    (Z.leb_spec z (12 * (Z.of_nat (length k) / 12 + 1))); cbn [orb andb negb];
    (split; [|split; [|reflexivity]]; split; intros; try discriminate; try reflexivity; try lia; exfalso; lia).
Qed.
Print Assumptions c56_beyond.
Example c56_nonvacuous : (exists r, jenkins364 [1; 2; 3] (-5) 0 0 = Ok r) /\ hash_words_len [1; 2] 3 0 = Panics /\
  jenkins364 [1; 2; 3] 14 0 0 = Overread /\ jenkins364 [1; 2; 3] 7 0 0 = Panics /\ jenkins364 [1; 2; 3; 4] 8 0 0 = Panics.
Proof. split; [eexists|repeat split]; vm_compute; reflexivity. Qed.

(** C57: what Hash232 and Hash264 compute. *)
Theorem c57_lookup2_variant : forall k seed, bytes_ok k ->
  (fits 32 seed -> N.of_nat (length k) < 2 ^ 32 -> hash232 k seed = Ok (lookup2_gen false false k seed)) /\
  (fits 64 seed -> N.of_nat (length k) < 2 ^ 64 -> hash264 k seed = Ok (lookup8v k seed)).
Proof. intros k seed Hk. split; intros; [now apply hash232_short|now apply hash264_gen]. Qed.
Print Assumptions c57_lookup2_variant.
(** It is not Jenkins' lookup2, for two reasons: byte 0 of the tail goes into the
    wrong register, and the length of the tail is added instead of that of the key. *)
Theorem c57_lookup2_refuted :
  (exists k, bytes_ok k /\ hash232 k 0 <> Ok (lookup2 k 0)) /\
  (exists k, bytes_ok k /\ hash232 k 0 <> Ok (lookup2_gen false true k 0)) /\
  (exists k, bytes_ok k /\ hash232 k 0 <> Ok (lookup2_gen true false k 0)).
Proof.
  split; [exists [1]|split; [exists [1]|exists (repeat 1 12)]]; (split; [repeat constructor|]); vm_compute; discriminate.
Qed.
Print Assumptions c57_lookup2_refuted.
Example c57_nonvacuous : hash232 [0; 5; 9] 3 = Ok (lookup2 [0; 5; 9] 3) /\ hash264 [1] 0 <> hash264 [2] 0.
Proof. split; vm_compute; [reflexivity|discriminate]. Qed.

(** C58: Hash232 only looks at len(k) mod 2^32 bytes. *)
Theorem c58_hash232_truncates : forall k seed, bytes_ok k -> fits 32 seed ->
  hash232 k seed = hash232 (firstn (N.to_nat (N.of_nat (length k) mod 2 ^ 32)) k) seed.
Proof. exact hash232_truncates. Qed.
Print Assumptions c58_hash232_truncates.
(** Every key of exactly 2^32 bytes has the hash of the empty key. *)
Theorem c58_four_gigabytes : forall k seed, bytes_ok k -> fits 32 seed -> N.of_nat (length k) = 2 ^ 32 ->
  hash232 k seed = hash232 [] seed.
Proof.
  intros k seed Hk Hs Hl. rewrite hash232_truncates by assumption. rewrite Hl, N.mod_same by apply pow2_nz. reflexivity.
Qed.
Print Assumptions c58_four_gigabytes.
Example c58_nonvacuous : exists k, bytes_ok k /\ N.of_nat (length k) = 2 ^ 32.
Proof.
  exists (repeat 7 (N.to_nat (2 ^ 32))). split.
  - apply Forall_forall. intros x Hx. apply repeat_spec in Hx. subst. reflexivity.
  - rewrite repeat_length. apply Nnat.N2Nat.id.
Qed.

(** C59: a lookup2 digest forgets its seed: whatever the seed given to New232, it
    shows the hash with seed 0 of the data since the last Reset. *)
Theorem c59_seed_lost : forall seed ops, Forall dop_ok ops ->
  exists h, (forall m, bytes_ok m -> hash232 m 0 = Ok (h m)) /\
    run_history_res write232 sum_232 sum32_232 reset232 (new232 seed) ops =
    Ok (spec_history (fun m => be_store 4 (h m)) h [] ops).
Proof.
  intros seed ops Ho. exists h2. split.
  - intros m Hm. unfold hash232. rewrite hash232_gen; auto using fits_0.
  - apply run232_spec; auto. constructor.
Qed.
Print Assumptions c59_seed_lost.
Theorem c59_seed_refuted : exists seed m h, fits 32 seed /\ bytes_ok m /\ hash232 m seed = Ok h /\
  run_history_res write232 sum_232 sum32_232 reset232 (new232 seed) [DWrite m; DSum64] <> Ok [OWrote (length m); OWord h].
Proof. exists 1, [1]. eexists. split; [reflexivity|]. split; [repeat constructor|]. split; [vm_compute; reflexivity|]. vm_compute. discriminate. Qed.
Print Assumptions c59_seed_refuted.
Example c59_nonvacuous : exists h, run_history_res write232 sum_232 sum32_232 reset232 (new232 77) [DWrite [1]; DSum64; DSum64] =
  Ok [OWrote 1; OWord h; OWord h].
Proof. eexists. vm_compute. reflexivity. Qed.

(** C60: the one-shot methods of a digest object. *)
Theorem c60_one_shot_methods :
  (forall d b seeds, bytes_ok b -> exists d', hash32_332 d b seeds = Ok (d', fst (lookup3 b 0 0))) /\
  (forall d b seed, bytes_ok b -> fits 64 seed ->
     exists d', hash64s_364 d b seed = Ok (d', word64_of (lookup3 b (seed mod 2 ^ 32) (seed / 2 ^ 32))) /\
                hash64_364 d b [seed] = Ok (d', word64_of (lookup3 b (seed mod 2 ^ 32) (seed / 2 ^ 32)))) /\
  (forall d b seeds, reach232 d -> bytes_ok b -> exists d' h, hash232 b 0 = Ok h /\ hash32_232 d b seeds = Ok (d', h)).
Proof.
  split; [exact hash32_332_eq|]. split; [exact hash64s_364_eq|].
  intros d b seeds Hd Hb. destruct (hash32_232_eq d b seeds Hd Hb) as [d' E]. exists d', (h2 b). split; auto.
  unfold hash232. rewrite hash232_gen; auto using fits_0.
Qed.
Print Assumptions c60_one_shot_methods.
(** With two seeds Hash64 uses them as the two initial values; Write64 is Write of
    the eight big-endian bytes. *)
Theorem c60_two_seeds_and_write64 :
  (forall d b s0 s1, bytes_ok b ->
     exists d', hash64_364 d b [s0; s1] = Ok (d', word64_of (lookup3 b (s0 mod 2 ^ 32) (s1 mod 2 ^ 32)))) /\
  (forall d h, write64_364 d h = fst (write364 d (be_store 8 h))).
Proof.
  split; [|reflexivity]. intros d b s0 s1 Hb. unfold hash64_364. rewrite jenkins364_full by assumption. cbn [rbind].
  rewrite !wrap_mod. pose proof (lookup3_ok b (s0 mod 2 ^ 32) (s1 mod 2 ^ 32)) as [F G].
  destruct (lookup3 b (s0 mod 2 ^ 32) (s1 mod 2 ^ 32)) as [pc pb]. cbn [fst snd] in *. rewrite lor_halves by assumption. eauto.
Qed.
Print Assumptions c60_two_seeds_and_write64.
(** Without a seed argument Hash64 depends on what the object did before. *)
Theorem c60_hash64_without_seed_refuted : exists d b d1 d2 h1 h2, bytes_ok b /\ d = new364 0 /\
  hash64_364 d b [] = Ok (d1, h1) /\ hash64_364 d1 b [] = Ok (d2, h2) /\ h1 <> h2.
Proof.
  exists (new364 0), [1]. do 4 eexists. split; [repeat constructor|]. split; [reflexivity|].
  split; [vm_compute; reflexivity|]. split; [vm_compute; reflexivity|]. discriminate.
Qed.
Print Assumptions c60_hash64_without_seed_refuted.
Example c60_nonvacuous : reach232 (fst (write232 (new232 5) [1; 2])) /\ hash32_332 (new332 1) [1] [5] <> Panics.
Proof. split; [apply r232_write, r232_new|vm_compute; discriminate]. Qed.
