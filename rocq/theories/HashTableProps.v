(** Property theorems C01-C09 (hash table).  Only statements; proofs elsewhere. *)
From Verif Require Import Words WordLemmas HashTableModel HashTableSpec HashTableProofs HashTableOA HashTableOA2 HashTableMore.
From Coq Require Import ZArith QArith Permutation.
Open Scope N_scope.

(** Test material for the examples: a hash with many collisions, and keys. *)
Definition ex_hash (k : key) : N := match k with [] => 7 | b :: _ => b end.
Definition ex_keys : list key := [[1]; [5; 2]; [9]; [5; 3]; [1]; []].
Definition ex_np (x : N) : N := if x =? 8 then 11 else x.

(** C01.  Chaining: after any insertions (none of which panics), bucket [i] holds
    exactly the inserted keys whose hash selects [i], in insertion order. *)
Theorem c01_chained_contents : forall nextprime sz extra prime (hf : key -> N) ks,
  let t0 := new_table nextprime sz extra false prime in
  1 <= size t0 -> fits 64 (size t0) ->
  exists t, insert_all hf t0 ks = Ret t /\
    size t = size t0 /\ length (buckets t) = N.to_nat (size t0) /\
    forall i, i < size t0 ->
      nth_error (buckets t) (N.to_nat i) =
      Some (filter (fun k => home prime (size t0) (hf k) =? i) ks).
Proof. exact chained_contents_lemma. Qed.
Print Assumptions c01_chained_contents.
Example c01_nonvacuous :
  size (new_table ex_np 4 1 false true) = 11 /\ size (new_table ex_np 4 0 false false) = 4 /\
  option_map buckets (match insert_all ex_hash (new_table ex_np 4 0 false false) ex_keys with Ret t => Some t | _ => None end)
  = Some [[]; [[1]; [5; 2]; [9]; [5; 3]; [1]]; []; [[]]].
Proof. vm_compute. auto. Qed.

(** C02.  Open addressing: no slot holds two keys, the stored keys are exactly
    the inserted ones with multiplicity, each can be reached from its home slot
    over occupied slots only, so a linear-probe lookup finds exactly the
    inserted keys. *)
Theorem c02_oa_contents : forall nextprime sz extra prime (hf : key -> N) ks,
  let t0 := new_table nextprime sz extra true prime in
  1 <= size t0 -> fits 64 (size t0) -> N.of_nat (length ks) <= size t0 ->
  exists t, insert_all hf t0 ks = Ret t /\ size t = size t0 /\
    length (buckets t) = N.to_nat (size t0) /\
    Forall (fun b => length b <= 1)%nat (buckets t) /\
    Permutation (concat (buckets t)) ks /\
    (forall k, In k ks -> reachable t (home prime (size t) (hf k)) k) /\
    (forall k, lookup (N.to_nat (size t)) t (home prime (size t) (hf k)) k = true <-> In k ks).
Proof. exact oa_contents_lemma. Qed.
Print Assumptions c02_oa_contents.
Example c02_nonvacuous :
  option_map buckets (match insert_all ex_hash (new_table ex_np 8 0 true false) ex_keys with Ret t => Some t | _ => None end)
  = Some [[]; [[1]]; [[9]]; [[1]]; []; [[5; 2]]; [[5; 3]]; [[]]].
Proof. vm_compute. reflexivity. Qed.

(** C03.  Open addressing, from any table state whatsoever of the right shape:
    [Insert] returns iff a slot is free, panics iff none is, always terminates,
    and on return has put the key in a slot that was free and changed no other. *)
Theorem c03_oa_insert_total : forall (hf : key -> N) t k,
  table_shape t -> is_oa t = true ->
  ((exists i, i < size t /\ free_slot t i) <-> exists t', insert hf t k = Ret t') /\
  (insert hf t k = Panic <-> forall i, i < size t -> occupied t i) /\
  insert hf t k <> OutOfFuel /\
  (forall t', insert hf t k = Ret t' ->
     exists i, i < size t /\ free_slot t i /\
       nth_error (buckets t') (N.to_nat i) = Some [k] /\
       forall j, j <> i -> nth_error (buckets t') (N.to_nat j) = nth_error (buckets t) (N.to_nat j)).
Proof. exact oa_insert_iff. Qed.
Print Assumptions c03_oa_insert_total.

(** C03, whole histories: as many insertions as there are buckets succeed and
    the next one panics. *)
Theorem c03_oa_history : forall nextprime sz extra prime (hf : key -> N) ks,
  let t0 := new_table nextprime sz extra true prime in
  1 <= size t0 -> fits 64 (size t0) ->
  ((exists t, insert_all hf t0 ks = Ret t) <-> N.of_nat (length ks) <= size t0) /\
  (insert_all hf t0 ks = Panic <-> size t0 < N.of_nat (length ks)).
Proof. exact oa_history_lemma. Qed.
Print Assumptions c03_oa_history.
Example c03_nonvacuous :
  table_shape (new_table ex_np 2 0 true false) /\
  (exists t, insert_all ex_hash (new_table ex_np 2 0 true false) [[1]; [1]] = Ret t) /\
  insert_all ex_hash (new_table ex_np 2 0 true false) [[1]; [1]; [1]] = Panic.
Proof. repeat split; try (vm_compute; congruence). eexists; vm_compute; reflexivity. Qed.

(** C04.  Counters agree with the contents. *)
Theorem c04_stats_chained : forall nextprime sz extra prime (hf : key -> N) ks t,
  let t0 := new_table nextprime sz extra false prime in
  1 <= size t0 -> fits 64 (size t0) -> insert_all hf t0 ks = Ret t ->
  inserts (st t) = N.of_nat (length ks) /\
  heads (st t) = used_buckets t /\
  heads (st t) + nbuckets (st t) = inserts (st t) /\
  probes (st t) = inserts (st t) /\ cols (st t) = 0.
Proof. exact stats_chained_lemma. Qed.
Print Assumptions c04_stats_chained.
Theorem c04_stats_oa : forall nextprime sz extra prime (hf : key -> N) ks t,
  let t0 := new_table nextprime sz extra true prime in
  1 <= size t0 -> fits 64 (size t0) -> insert_all hf t0 ks = Ret t ->
  inserts (st t) = N.of_nat (length ks) /\
  heads (st t) = inserts (st t) /\ used_buckets t = inserts (st t) /\
  nbuckets (st t) = 0 /\
  (* distance of every stored key from its home slot *)
  let ds := displacements prime (size t0) hf 0 (buckets t) in
  probes (st t) = inserts (st t) + N.of_nat (length (filter (fun d => negb (d =? 0)) ds)) /\
  cols (st t) = sum_N (map (fun d => d - 1) ds).
Proof. exact stats_oa_lemma. Qed.
Print Assumptions c04_stats_oa.
Example c04_nonvacuous :
  option_map st (match insert_all ex_hash (new_table ex_np 8 0 true false) ex_keys with Ret t => Some t | _ => None end)
  = Some (mkStats 6 1 9 6 2 0 0) /\
  option_map st (match insert_all ex_hash (new_table ex_np 4 0 false false) ex_keys with Ret t => Some t | _ => None end)
  = Some (mkStats 6 0 6 2 2 4 5).
Proof. vm_compute. auto. Qed.

(** C05.  [Dups] is the number of pairs of insertions with equal full hash, in
    either mode, whatever the table size. *)
Theorem c05_dups : forall nextprime sz extra oa prime (hf : key -> N) ks t,
  let t0 := new_table nextprime sz extra oa prime in
  1 <= size t0 -> fits 64 (size t0) -> insert_all hf t0 ks = Ret t ->
  dups (st t) = equal_hash_pairs hf ks.
Proof. exact dups_lemma. Qed.
Print Assumptions c05_dups.
Example c05_nonvacuous : equal_hash_pairs ex_hash ex_keys = 2.
Proof. vm_compute. reflexivity. Qed.

(** C06.  [LongestChain]. *)
Theorem c06_longest_chain : forall nextprime sz extra prime (hf : key -> N) ks t,
  let t0 := new_table nextprime sz extra false prime in
  1 <= size t0 -> fits 64 (size t0) -> insert_all hf t0 ks = Ret t ->
  longest (st t) = if (2 <=? longest_bucket t)%nat then N.of_nat (longest_bucket t) else 0.
Proof. exact longest_chained_lemma. Qed.
Print Assumptions c06_longest_chain.
Theorem c06_longest_oa : forall nextprime sz extra prime (hf : key -> N) ks t,
  let t0 := new_table nextprime sz extra true prime in
  1 <= size t0 -> fits 64 (size t0) -> insert_all hf t0 ks = Ret t ->
  longest (st t) = 0.
Proof. exact longest_oa_lemma. Qed.
Print Assumptions c06_longest_oa.
(** ... so it is not simply the longest chain. *)
Theorem c06_longest_refuted : exists sz extra hf ks t,
  insert_all hf (new_table ex_np sz extra false false) ks = Ret t /\
  longest (st t) <> N.of_nat (longest_bucket t).
Proof. exact longest_refuted_lemma. Qed.
Print Assumptions c06_longest_refuted.
Example c06_nonvacuous : exists t,
  insert_all ex_hash (new_table ex_np 4 0 false false) ex_keys = Ret t /\
  longest_bucket t = 5%nat /\ longest (st t) = 5.
Proof. eexists. vm_compute. auto. Qed.
Example c06_oa_nonvacuous : exists t,
  insert_all ex_hash (new_table ex_np 8 0 true false) ex_keys = Ret t /\ longest (st t) = 0 /\ cols (st t) = 1.
Proof. eexists. split; [vm_compute; reflexivity|]. split; vm_compute; reflexivity. Qed.

(** C07.  NextLog2 is the ceiling of log2. *)
Theorem c07_next_log2 : forall x, 2 <= x -> x < 2 ^ 32 ->
  x <= 2 ^ next_log2 x /\ forall m, x <= 2 ^ m -> next_log2 x <= m.
Proof. exact next_log2_least. Qed.
Print Assumptions c07_next_log2.
Theorem c07_next_log2_small : next_log2 0 = 0 /\ next_log2 1 = 1.
Proof. exact (conj eq_refl eq_refl). Qed.
Print Assumptions c07_next_log2_small.
Example c07_nonvacuous : next_log2 65537 = 17 /\ next_log2 65536 = 16 /\ next_log2 4294967295 = 32.
Proof. vm_compute. auto. Qed.

(** C08.  Sizing. *)
Theorem c08_pow2_size : forall nextprime sz extra oa,
  (0 < sz < 2 ^ 32)%Z -> (0 <= extra)%Z -> (Z.of_N (next_log2 (Z.to_N sz)) + extra < 64)%Z ->
  let t := new_table nextprime sz extra oa false in
  exists k, size t = 2 ^ k /\ k < 64 /\ size_log2 t = k /\
            Z.to_N sz * 2 ^ Z.to_N extra <= size t /\
            (forall m, Z.to_N sz <= 2 ^ m -> 2 <= Z.to_N sz -> size t <= 2 ^ (m + Z.to_N extra)).
Proof. exact table_size_pow2. Qed.
Print Assumptions c08_pow2_size.
(** Size zero gives 2^extra buckets, size one twice as many; and only the low 32 bits of a
    size count, so that a table for 2^32 + 1 keys is as small as one for a single key. *)
Theorem c08_small_and_huge_sizes : forall nextprime sz extra oa prime, (0 <= sz)%Z ->
  ((0 <= extra < 63)%Z -> size (new_table nextprime 0 extra oa false) = 2 ^ Z.to_N extra /\
                          size (new_table nextprime 1 extra oa false) = 2 ^ (Z.to_N extra + 1)) /\
  new_table nextprime (sz + 2 ^ 32) extra oa prime = new_table nextprime sz extra oa prime.
Proof.
  intros nextprime sz extra oa prime Hsz. split.
  - intros He. assert (X : int_to_u32 extra = Z.to_N extra).
    { unfold int_to_u32. rewrite Z.mod_small by lia. reflexivity. }
    split; unfold new_table, table_size; cbn [Z.ltb Z.compare]; cbv zeta; rewrite X.
    + change (next_log2 (int_to_u32 0)) with 0. unfold add32, addw. rewrite N.add_0_l, wrap_small.
      2:{ unfold fits. change (2 ^ 32) with 4294967296. lia. }
      cbn [size]. unfold shl64, shlw. rewrite N.shiftl_mul_pow2, N.mul_1_l. apply wrap_small. apply N.pow_lt_mono_r; lia.
    + change (next_log2 (int_to_u32 1)) with 1. unfold add32, addw. rewrite wrap_small.
      2:{ unfold fits. change (2 ^ 32) with 4294967296. lia. }
      cbn [size]. unfold shl64, shlw. rewrite N.shiftl_mul_pow2, N.mul_1_l, (N.add_comm 1). apply wrap_small. apply N.pow_lt_mono_r; lia.
  - unfold new_table, table_size. replace (sz + 2 ^ 32 <? 0)%Z with false by (symmetry; apply Z.ltb_ge; lia).
    replace (sz <? 0)%Z with false by (symmetry; apply Z.ltb_ge; lia).
    replace (int_to_u32 (sz + 2 ^ 32)) with (int_to_u32 sz); [reflexivity|].
    unfold int_to_u32. replace (sz + 2 ^ 32)%Z with (sz + 1 * 2 ^ 32)%Z by lia. now rewrite Z.mod_add.
Qed.
Print Assumptions c08_small_and_huge_sizes.
Theorem c08_negative_size : forall nextprime sz extra oa, (- 2 ^ 63 <= sz < 0)%Z ->
  size (new_table nextprime sz extra oa false) = Z.to_N (- sz).
Proof. exact table_size_neg. Qed.
Print Assumptions c08_negative_size.
(** With the prime flag the size is NextPrime of the size without the flag. *)
Theorem c08_prime_size : forall nextprime np' sz extra oa oa',
  size (new_table nextprime sz extra oa true) = nextprime (size (new_table np' sz extra oa' false)).
Proof. exact table_size_prime. Qed.
Print Assumptions c08_prime_size.
Theorem c08_index_in_range : forall t h, table_shape t -> index_of t h < size t.
Proof. exact index_in_range_lemma. Qed.
Print Assumptions c08_index_in_range.
(** With a mask, a size that is not a power of two leaves a bucket no hash can
    select; with a power of two every bucket is selected by some hash. *)
Theorem c08_unreachable_bucket : forall t, table_shape t -> is_prime t = false ->
  ((exists i, i < size t /\ forall h, index_of t h <> i) <-> (forall k, size t <> 2 ^ k)).
Proof. exact unreachable_bucket_lemma. Qed.
Print Assumptions c08_unreachable_bucket.
(** An oversized [extra] makes a table with no bucket at all; every insert panics. *)
Theorem c08_empty_table_panics : forall (hf : key -> N) t k, buckets t = [] -> insert hf t k = Panic.
Proof. exact insert_empty_table. Qed.
Print Assumptions c08_empty_table_panics.
Example c08_nonvacuous :
  size (new_table ex_np 5 2 false false) = 32 /\ size (new_table ex_np (-6) 2 false false) = 6 /\
  table_shape (new_table ex_np (-6) 2 false false) /\
  buckets (new_table ex_np 4 62 false false) = [].
Proof. repeat split; vm_compute; congruence. Qed.
Example c08_unreachable_nonvacuous : let t := new_table ex_np (-6) 2 false false in
  size t = 6 /\ is_prime t = false /\ map (index_of t) [0; 1; 2; 3; 4; 5; 6; 7] = [0; 1; 0; 1; 4; 5; 4; 5].
Proof. vm_compute. auto. Qed.

(** C09.  The quality metric. *)
Theorem c09_hash_quality : forall nextprime sz extra prime (hf : key -> N) ks t,
  let t0 := new_table nextprime sz extra false prime in
  1 <= size t0 -> fits 64 (size t0) -> ks <> [] ->
  insert_all hf t0 ks = Ret t ->
  let n := Z.of_nat (length ks) in
  let m := Z.of_N (size t0) in
  (hash_quality t ==
   inject_Z (m * 2 * (n + Z.of_N (same_bucket_pairs prime (size t0) hf ks)))
   / inject_Z (n * (n + 2 * m - 1)))%Q.
Proof. exact quality_lemma. Qed.
Print Assumptions c09_hash_quality.
Example c09_nonvacuous : exists t,
  insert_all ex_hash (new_table ex_np 4 0 false false) ex_keys = Ret t /\
  (hash_quality t == 128 # 78)%Q.
Proof. eexists. vm_compute. auto. Qed.

(** C50.  The bit counting helper never panics and counts ones and zeros. *)
Theorem c50_diff : forall d, diff d = Some (64 - popcount 64 d, popcount 64 d).
Proof. exact diff_lemma. Qed.
Print Assumptions c50_diff.
Example c50_nonvacuous : diff 18446744073709551614 = Some (1, 63).
Proof. vm_compute. reflexivity. Qed.
