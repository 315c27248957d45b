(** C101: hash functions that give every value equally often. *)
From Coq Require Import NArith ZArith List Arith Lia.
From Verif Require Import Words WordLemmas Mem Bij BlockInj HashTableModel HashTableSpec Mm3Model Mm3Spec Mm3Proofs Mm3Props
  GomapModel GomapProps FarmModel FarmProps MetroModel MetroProps JenkinsModel JenkinsSpec JenkinsProofs JenkinsProofs2 JenkinsProps
  UniformSpec UniformProofs UniformProofs2.
Import ListNotations.
Open Scope N_scope.

Definition got {A} (r : res A) : option A := match r with Ok x => Some x | _ => None end.

Lemma even_ext n W h h' : (forall b, length b = n -> bytes_ok b -> h b = h' b) -> even n W h -> even n W h'.
Proof.
  intros E H v Hv. rewrite <- (H v Hv). f_equal. unfold number. f_equal. f_equal. apply filter_ext_in.
  intros b Hb. apply in_all_keys in Hb. now rewrite E by tauto.
Qed.

(** The Jenkins hashes, over the last whole block.  Each of the 2^64 values of Jenkins364 is that
    of exactly 2^32 of the 12-byte blocks after any whole blocks, each value of Hash232 of 2^64
    and each of Hash264 of 2^128 of the 24-byte blocks. *)
Theorem c101_jenkins p pc pb seed : bytes_ok p -> N.of_nat (length p) + 24 < 2 ^ 32 -> fits 64 seed ->
  ((length p mod 12 = 0)%nat ->
     even 12 64 (fun b => option_map word64_of (got (hash_string (p ++ b) pc pb))) /\
     even 12 32 (fun b => got (hash232 (p ++ b) (seed mod 2 ^ 32)))) /\
  ((length p mod 24 = 0)%nat -> even 24 64 (fun b => got (hash264 (p ++ b) seed))).
Proof.
  intros Hp Hl Hs.
  assert (O : forall b, bytes_ok b -> bytes_ok (p ++ b)) by (intros b Hb; apply bytes_ok_app; auto).
  split; [intros Hm; split|intros Hm].
  - refine (even_ext _ _ _ _ _ (even_lookup3 p pc pb Hp Hm)). intros b _ Hb. unfold hash_string. rewrite jenkins364_full by auto. reflexivity.
  - refine (even_ext _ _ _ _ _ (even_lookup2 false false p (seed mod 2 ^ 32) Hp Hm _)).
    + intros b Lb Hb. destruct (c57_lookup2_variant (p ++ b) (seed mod 2 ^ 32) (O b Hb)) as [E _]. rewrite E; [reflexivity|apply N.mod_lt; discriminate|].
      rewrite app_length, Nat2N.inj_add. lia.
    + apply N.mod_lt. discriminate.
  - refine (even_ext _ _ _ _ _ (even_lookup8v p seed Hp Hm Hs)). intros b Lb Hb.
    destruct (c57_lookup2_variant (p ++ b) seed (O b Hb)) as [_ E]. rewrite E; [reflexivity|exact Hs|].
    rewrite app_length, Nat2N.inj_add. change (2 ^ 64) with (2 ^ 32 * 2 ^ 32). change (2 ^ 32) with 4294967296 in *. lia.
Qed.
Print Assumptions c101_jenkins.

(** Murmur3, over any aligned block. *)
Lemma xsr_fits W k x : fits W x -> fits W (xsr k x).
Proof. intros H. unfold xsr. rewrite <- N.shiftr_div_pow2. apply xor_fits'; [exact H|]. now apply shr_fits. Qed.
Lemma one_block B p q b b' : (0 < B)%nat -> (length p mod B = 0)%nat -> length b = B -> length b' = B -> b <> b' ->
  differ_in_block B (length p / B) (p ++ b ++ q) (p ++ b' ++ q).
Proof.
  intros HB Hm Hb Hb' Ne. split; [|split].
  - rewrite !app_length. lia.
  - intros E. apply app_inv_head, app_inv_tail in E. contradiction.
  - intros j Hj. pose proof (Nat.div_mod (length p) B ltac:(lia)) as D. rewrite Hm, Nat.add_0_r in D.
    destruct (Nat.lt_ge_cases j (length p)) as [C|C]; [now rewrite !nth_error_app1 by exact C|].
    destruct (Nat.lt_ge_cases j (length p + B)) as [C'|C'].
    + exfalso. apply Hj. symmetry. apply (Nat.div_unique j B (length p / B) (j - length p)); [lia|]. rewrite <- D. lia.
    + rewrite !nth_error_app2 by lia. rewrite Hb, Hb'. reflexivity.
Qed.
Theorem c101_murmur p q : bytes_ok p -> bytes_ok q ->
  ((length p mod 4 = 0)%nat -> even 4 32 (fun b => Some (mm_sum32 (p ++ b ++ q)))) /\
  ((length p mod 16 = 0)%nat -> even 16 128 (fun b => let '(h1, h2) := mm_sum128 (p ++ b ++ q) in Some (h1 + 2 ^ 64 * h2))).
Proof.
  intros Hp Hq.
  assert (O : forall b, bytes_ok b -> bytes_ok (p ++ b ++ q)) by (intros b Hb; unfold bytes_ok; rewrite !Forall_app; auto).
  assert (F1 : forall m, bytes_ok m -> fits 32 (mm_sum32 m)).
  { intros m Hm. destruct (c52_reference m Hm) as [-> _]. unfold murmur3_x86_32. destruct (blocks 4 m). apply xsr_fits, N.mod_lt. discriminate. }
  assert (F2 : forall m, bytes_ok m -> fits 64 (fst (mm_sum128 m)) /\ fits 64 (snd (mm_sum128 m))).
  { intros m Hm. destruct (c52_reference m Hm) as [_ ->]. unfold murmur3_x64_128. destruct (blocks 16 m). destruct (fold_left _ _ _).
    split; apply N.mod_lt; discriminate. }
  split; intros Hm.
  - apply (even_inj 4).
    + intros b _ Hb. exists (mm_sum32 (p ++ b ++ q)). split; [now apply F1, O|reflexivity].
    + intros b b' L L' Hb Hb' E. injection E as E. destruct (list_eq_dec N.eq_dec b b') as [->|Ne]; [reflexivity|exfalso].
      destruct (c53_no_single_block_collision _ _ (length p / 4) (O b Hb) (O b' Hb')) as [C _]. apply C; [|exact E].
      apply one_block; auto with arith.
  - apply (even_inj 16).
    + intros b _ Hb. destruct (F2 _ (O b Hb)) as [A B]. destruct (mm_sum128 _) as [h1 h2]. exists (h1 + 2 ^ 64 * h2). split; [|reflexivity].
      cbn [fst snd] in *. unfold fits in *. change (8 * N.of_nat 16) with (64 + 64). rewrite N.pow_add_r. change (2 ^ 64) with 18446744073709551616 in *. lia.
    + intros b b' L L' Hb Hb' E. destruct (list_eq_dec N.eq_dec b b') as [->|Ne]; [reflexivity|exfalso].
      destruct (c53_no_single_block_collision _ _ (length p / 16) (O b Hb) (O b' Hb')) as [_ C]. apply C; [apply one_block; auto; lia|].
      destruct (F2 _ (O b Hb)) as [A1 A2]. destruct (F2 _ (O b' Hb')) as [B1 B2].
      destruct (mm_sum128 (p ++ b ++ q)) as [x y], (mm_sum128 (p ++ b' ++ q)) as [x' y']. cbn [fst snd] in A1, A2, B1, B2.
      assert (E' : x + 2 ^ 64 * y = x' + 2 ^ 64 * y') by (revert E; generalize (x + 2 ^ 64 * y), (x' + 2 ^ 64 * y'); intros; congruence).
      clear E. unfold fits in *. change (2 ^ 64) with 18446744073709551616 in *. f_equal; lia.
Qed.
Print Assumptions c101_murmur.

(** gomap over 4- and 8-byte keys, FarmHash over one word of the key. *)
Theorem c101_gomap seed : fits 64 seed ->
  even 4 32 (fun b => got (Hash32 b (seed mod 2 ^ 32))) /\ even 8 64 (fun b => got (Hash64 b seed)).
Proof.
  intros Hs. assert (Hs' : fits 32 (seed mod 2 ^ 32)) by (apply N.mod_lt; discriminate). split.
  - apply (even_inj 4).
    + intros b L Hb. destruct (c41_hash32_seeds b Hb) as (g & G & E); [lia|]. rewrite E. exists (g (seed mod 2 ^ 32)).
      split; [now apply G|reflexivity].
    + intros b b' L L' Hb Hb' E. apply (c41_hash32_short_keys b b' (seed mod 2 ^ 32)); auto; try lia.
      destruct (c41_hash32_seeds b Hb) as (g & G & E1); [lia|]. destruct (c41_hash32_seeds b' Hb') as (g' & G' & E2); [lia|].
      rewrite E1, E2 in E |- *. cbn [got] in E. congruence.
  - apply (even_inj 8).
    + intros b L Hb. destruct (c41_hash64_seeds b Hb) as (g & G & E); [lia|]. rewrite E. exists (g seed).
      split; [now apply G|reflexivity].
    + intros b b' L L' Hb Hb' E. apply (c41_hash64_short_keys b b' seed); auto; try lia.
      destruct (c41_hash64_seeds b Hb) as (g & G & E1); [lia|]. destruct (c41_hash64_seeds b' Hb') as (g' & G' & E2); [lia|].
      rewrite E1, E2 in E |- *. cbn [got] in E. congruence.
Qed.
Print Assumptions c101_gomap.
Theorem c101_farm p q seed : bytes_ok p -> bytes_ok q -> seed < 2 ^ 32 ->
  ((length p = 16 /\ length q = 8 \/ 32 <= length p <= 40 /\ length q = 16)%nat ->
     even 8 64 (fun b => got (farm_hash64 (p ++ b ++ q)))) /\
  ((let n := length p + 4 + length q in
    n = 12 /\ (length p = 0 \/ length p = 4 \/ length p = 8) \/ 16 <= n <= 24 /\ length p = 0 \/ n = 24 /\ length p = 4 \/ 8 <= n <= 12 /\ length p = 0)%nat ->
     even 4 32 (fun b => got (farm_hash32_with_seed (p ++ b ++ q) seed))).
Proof.
  intros Hp Hq Hs. split; intros L.
  - apply (even_param 8 0); [reflexivity|]. intros v Hv.
    destruct (c64_hash64_permutes_a_word p q v Hp Hq Hv L) as (m & (M1 & M2 & M3) & U). exists (fun _ => m). split; [|split].
    + intros _ _. split; [now apply in_all_keys|now rewrite M3].
    + cbn. intros x y [<-|[]] [<-|[]] _. reflexivity.
    + intros b Hb E. apply in_all_keys in Hb. exists []. split; [now left|]. symmetry. apply U; try tauto.
      destruct (farm_hash64 (p ++ b ++ q)); cbn [got] in E; congruence.
  - apply (even_param 4 0); [reflexivity|]. intros v Hv.
    destruct (c66_hash32_permutes_a_word p q seed v Hp Hq Hs Hv L) as (m & (M1 & M2 & M3) & U). exists (fun _ => m). split; [|split].
    + intros _ _. split; [now apply in_all_keys|now rewrite M3].
    + cbn. intros x y [<-|[]] [<-|[]] _. reflexivity.
    + intros b Hb E. apply in_all_keys in Hb. exists []. split; [now left|]. symmetry. apply U; try tauto.
      destruct (farm_hash32_with_seed (p ++ b ++ q) seed); cbn [got] in E; congruence.
Qed.
Print Assumptions c101_farm.

(** The low bits of an even hash are even, and so are the high ones. *)
Theorem c101_halves n W j h : even n (W + j) h ->
  even n W (fun b => option_map (fun x => x mod 2 ^ W) (h b)) /\ even n j (fun b => option_map (fun x => x / 2 ^ W) (h b)).
Proof.
  intros E. split; intros v Hv.
  - pose proof (number_values n (W + j) h (fun x => x mod 2 ^ W =? v) E) as C. rewrite residues in C by exact Hv.
    replace (2 ^ (W + j) + 2 ^ W - 1 - v) with (2 ^ j * 2 ^ W + (2 ^ W - 1 - v)) in C by (rewrite N.pow_add_r; lia).
    rewrite N.div_add_l, N.div_small, N.add_0_r in C by (try apply pow2_nz; lia). rewrite N.pow_add_r in C.
    apply (N.mul_cancel_r _ _ (2 ^ j)); [apply pow2_nz|].
    replace (number n (setb h (fun x => x mod 2 ^ W =? v))) with
      (number n (fun b => match option_map (fun x => x mod 2 ^ W) (h b) with Some x => x =? v | None => false end)) in C.
    { rewrite N.mul_assoc in C. rewrite C. apply N.mul_comm. }
    unfold number. f_equal. f_equal. apply filter_ext. intros b. unfold setb. destruct (h b); reflexivity.
  - pose proof (number_values n (W + j) h (fun x => x / 2 ^ W =? v) E) as C.
    assert (Q : N.of_nat (length (filter (fun x => x / 2 ^ W =? v) (range (2 ^ (W + j))))) = 2 ^ W).
    { assert (P : Permutation.Permutation (filter (fun x => x / 2 ^ W =? v) (range (2 ^ (W + j)))) (map (fun u => v * 2 ^ W + u) (range (2 ^ W)))).
      { apply Permutation.NoDup_Permutation.
        - apply NoDup_filter, range_nodup.
        - apply FinFun.Injective_map_NoDup; [|apply range_nodup]. intros x y. lia.
        - intros x. rewrite filter_In, in_range, N.eqb_eq, in_map_iff. split.
          + intros [_ <-]. exists (x mod 2 ^ W). split; [pose proof (N.div_mod x (2 ^ W) (pow2_nz _)); lia|]. apply in_range, N.mod_lt, pow2_nz.
          + intros (u & <- & Hu). apply in_range in Hu. rewrite N.div_add_l, N.div_small by (try apply pow2_nz; exact Hu).
            rewrite N.pow_add_r, N.add_0_r. split; [nia|reflexivity]. }
      apply Permutation.Permutation_length in P. now rewrite P, map_length, range_length. }
    rewrite Q, N.pow_add_r in C. apply (N.mul_cancel_r _ _ (2 ^ W)); [apply pow2_nz|].
    replace (number n (setb h (fun x => x / 2 ^ W =? v))) with
      (number n (fun b => match option_map (fun x => x / 2 ^ W) (h b) with Some x => x =? v | None => false end)) in C.
    { rewrite (N.mul_comm (2 ^ W) (2 ^ j)), N.mul_assoc in C. rewrite C. apply N.mul_comm. }
    unfold number. f_equal. f_equal. apply filter_ext. intros b. unfold setb. destruct (h b); reflexivity.
Qed.
Print Assumptions c101_halves.

(** The hash table: with an even hash of at least as many bits, a table whose size is a power of
    two gives every bucket the same number of keys; a table of another size, which takes
    remainders, gives bucket [i] the share of [i] among the remainders. *)
Lemma index_mod t x : table_shape t -> is_prime t = true \/ (exists k, size t = 2 ^ k) -> index_of t x = x mod size t.
Proof.
  intros (S1 & _ & _ & M) [P|[k K]]; unfold index_of; [now rewrite P|]. destruct (is_prime t); [reflexivity|].
  rewrite M, K. rewrite <- N.pred_sub. rewrite <- N.land_ones. f_equal. symmetry. apply N.ones_equiv.
Qed.
Theorem c101_buckets n W h t i : even n W h -> table_shape t -> is_prime t = true \/ (exists k, size t = 2 ^ k) -> i < size t ->
  number n (fun b => match h b with Some x => index_of t x =? i | None => false end) * 2 ^ W =
    256 ^ N.of_nat n * ((2 ^ W + size t - 1 - i) / size t) /\
  (forall k, size t = 2 ^ k -> k <= W ->
     number n (fun b => match h b with Some x => index_of t x =? i | None => false end) * size t = 256 ^ N.of_nat n).
Proof.
  intros E T S Hi. pose proof (number_values n W h (fun x => index_of t x =? i) E) as C.
  change (number n (setb h (fun x => index_of t x =? i))) with
    (number n (fun b => match h b with Some x => index_of t x =? i | None => false end)) in C.
  assert (R : N.of_nat (length (filter (fun x => index_of t x =? i) (range (2 ^ W)))) = (2 ^ W + size t - 1 - i) / size t).
  { rewrite <- residues by exact Hi. f_equal. f_equal. apply filter_ext. intros x. now rewrite (index_mod t x T S). }
  rewrite R in C. split; [rewrite C; apply N.mul_comm|]. intros k K Hk.
  rewrite K in C |- *. rewrite K in Hi. replace (2 ^ W) with (2 ^ (W - k) * 2 ^ k) in C by (rewrite <- N.pow_add_r; f_equal; lia).
  replace (2 ^ (W - k) * 2 ^ k + 2 ^ k - 1 - i) with (2 ^ (W - k) * 2 ^ k + (2 ^ k - 1 - i)) in C by lia.
  rewrite N.div_add_l, N.div_small, N.add_0_r in C by (try apply pow2_nz; lia).
  apply (N.mul_cancel_r _ _ (2 ^ (W - k))); [apply pow2_nz|]. rewrite <- N.mul_assoc, (N.mul_comm (2 ^ k)), C. apply N.mul_comm.
Qed.
Print Assumptions c101_buckets.

(** MetroHash64 is even over no place of any key, for any number of bytes. *)
Theorem c101_metro_refuted n p q seed :
  ~ even n 64 (fun b => got (hash64_1 (p ++ b ++ q) seed)) /\ ~ even n 64 (fun b => got (hash64_2 (p ++ b ++ q) seed)).
Proof.
  split; intros E; specialize (E 1 ltac:(reflexivity)).
  - replace (number n _) with 0 in E; [symmetry in E; revert E; apply N.pow_nonzero; discriminate|]. symmetry. unfold number.
    replace (filter _ _) with (@nil (list N)); [reflexivity|]. symmetry. induction (all_keys n) as [|b l IH]; [reflexivity|].
    cbn [filter]. destruct (c62_onto_refuted (p ++ b ++ q) seed) as [G _].
    destruct (hash64_1 _ _) as [x| | |]; cbn [got]; try exact IH. destruct (N.eqb_spec x 1) as [->|_]; [congruence|exact IH].
  - replace (number n _) with 0 in E; [symmetry in E; revert E; apply N.pow_nonzero; discriminate|]. symmetry. unfold number.
    replace (filter _ _) with (@nil (list N)); [reflexivity|]. symmetry. induction (all_keys n) as [|b l IH]; [reflexivity|].
    cbn [filter]. destruct (c62_onto_refuted (p ++ b ++ q) seed) as [_ G].
    destruct (hash64_2 _ _) as [x| | |]; cbn [got]; try exact IH. destruct (N.eqb_spec x 1) as [->|_]; [congruence|exact IH].
Qed.
Print Assumptions c101_metro_refuted.
Example c101_nonvacuous :
  hash_string [5; 65; 82; 33; 5; 65; 82; 33; 5; 65; 82; 33] 0 0 = Ok (0, 0) /\
  hash_string [5; 139; 83; 107; 5; 129; 82; 35; 134; 65; 83; 115] 0 0 = Ok (0, 0) /\
  even 1 8 (fun b => Some (hd 0 b)) /\ ~ even 1 8 (fun b => Some (hd 0 b / 2)) /\
  (exists t, table_shape t /\ size t = 2 ^ 3 /\ index_of t 29 = 5).
Proof.
  split; [vm_compute; reflexivity|]. split; [vm_compute; reflexivity|]. split; [|split].
  - apply (even_inj 1).
    + intros [|x [|]] L Hb; try discriminate. inversion Hb; subst. exists x. auto.
    + intros [|x [|]] [|y [|]] L L' _ _ E; try discriminate. cbn in E. congruence.
  - intros E. specialize (E 0 ltac:(reflexivity)). vm_compute in E. discriminate.
  - exists (new_table (fun x => x) 8 0 false false). vm_compute. repeat split; discriminate.
Qed.
(** Each of the hashes with a prefix or a seed that meets the hypotheses, down to the buckets of a table of eight. *)
Example c101_instances :
  even 12 32 (fun b => got (hash232 (repeat 7 24 ++ b) 9)) /\ even 24 64 (fun b => got (hash264 (repeat 7 24 ++ b) 9)) /\
  even 4 32 (fun b => Some (mm_sum32 (repeat 1 8 ++ b ++ [2; 3]))) /\
  even 8 64 (fun b => got (farm_hash64 (repeat 1 16 ++ b ++ repeat 2 8))) /\
  even 4 32 (fun b => got (farm_hash32_with_seed (repeat 1 4 ++ b ++ repeat 2 4) 9)) /\
  even 8 32 (fun b => option_map (fun x => x mod 2 ^ 32) (got (Hash64 b 5))) /\
  let t := new_table (fun x => x) 8 0 false false in
  number 8 (fun b => match got (Hash64 b 5) with Some x => index_of t x =? 3 | None => false end) * 8 = 256 ^ 8.
Proof.
  assert (B : forall x n, x < 256 -> bytes_ok (repeat x n)) by (intros x n H; apply Forall_forall; intros y Y; apply repeat_spec in Y; now subst).
  assert (J : fits 64 9) by reflexivity. destruct (c101_jenkins (repeat 7 24) 0 0 9 (B 7 24%nat eq_refl) eq_refl J) as [J1 J2].
  split; [exact (proj2 (J1 eq_refl))|]. split; [exact (J2 eq_refl)|].
  split; [exact (proj1 (c101_murmur (repeat 1 8) [2; 3] (B 1 8%nat eq_refl) ltac:(repeat constructor)) eq_refl)|].
  split; [exact (proj1 (c101_farm (repeat 1 16) (repeat 2 8) 9 (B 1 16%nat eq_refl) (B 2 8%nat eq_refl) eq_refl) ltac:(left; split; reflexivity))|].
  split; [exact (proj2 (c101_farm (repeat 1 4) (repeat 2 4) 9 (B 1 4%nat eq_refl) (B 2 4%nat eq_refl) eq_refl) ltac:(left; split; [reflexivity|right; left; reflexivity]))|].
  pose proof (proj2 (c101_gomap 5 eq_refl)) as G. split; [exact (proj1 (c101_halves 8 32 32 _ G))|].
  intros t. assert (T : table_shape t) by (vm_compute; repeat split; discriminate).
  exact (proj2 (c101_buckets 8 64 _ t 3 G T ltac:(right; exists 3; reflexivity) eq_refl) 3 eq_refl ltac:(discriminate)).
Qed.
