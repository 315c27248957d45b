(** Property theorems C114 (byte order of the machine). *)
From Coq Require Import ZArith List Arith Lia.
From Verif Require Import Words WordLemmas ListLemmas DigestSpec Mem Blocks BlockInj SipModel Mm3Model Mm3Proofs Mm3More JenkinsModel SmallModel SpookyModel
  EndianModel EndianSpec EndianProofs.
Import ListNotations.
Open Scope nat_scope.

(** What [turned] does to every byte. *)
Theorem c114_turned_bytes : forall w n k i, 0 < w -> w * n <= length k -> i < length k ->
  length (turned w n k) = length k /\
  nth i (turned w n k) 0%N = if i <? w * n then nth (w * (i / w) + (w - 1 - i mod w)) k 0%N else nth i k 0%N.
Proof.
  intros w n k i Hw Hn Hi. split; [apply turned_length|].
  destruct (Nat.ltb_spec i (w * n)) as [L|L].
  - assert (D : i / w < n) by (apply Nat.div_lt_upper_bound; lia).
    pose proof (Nat.div_mod i w ltac:(lia)) as E. pose proof (Nat.mod_upper_bound i w ltac:(lia)) as U.
    pose proof (turned_word w n (i / w) k D Hn) as W.
    assert (X : nth (i mod w) (firstn w (skipn (w * (i / w)) (turned w n k))) 0%N = nth i (turned w n k) 0%N).
    { rewrite nth_firstn_lt by assumption. rewrite nth_skipn. f_equal. lia. }
    rewrite <- X, W. rewrite rev_nth by (rewrite firstn_length, skipn_length; nia).
    rewrite firstn_length, skipn_length. replace (Nat.min w (length k - w * (i / w))) with w by nia.
    rewrite nth_firstn_lt by lia. rewrite nth_skipn. f_equal. lia.
  - replace i with (w * n + (i - w * n)) by lia. rewrite <- !nth_skipn. now rewrite turned_rest.
Qed.
Print Assumptions c114_turned_bytes.
Example c114_turned_nonvacuous : turned 4 2 [1; 2; 3; 4; 5; 6; 7; 8; 9; 10]%N = [4; 3; 2; 1; 8; 7; 6; 5; 9; 10]%N.
Proof. reflexivity. Qed.

(** On a little-endian machine these are the functions of the other properties. *)
Theorem c114_little : forall k seed h1 h2 pc pb z cr dr dbl key fast,
  mm_sum32_m Little k = mm_sum32 k /\ mm_sum128_m Little k = mm_sum128 k /\ mm_sum64_m Little k = mm_sum64 k /\
  jenkins364_m Little k z pc pb = jenkins364 k z pc pb /\
  hash232_m Little fast k seed = hash232_with fast k seed /\ hash264_m Little fast k seed = hash264_with fast k seed /\
  CrapWow_m Little k seed = CrapWow k seed /\ pg_siphash_m Little k key cr dr dbl = pg_siphash k key cr dr dbl /\
  SpookyHash128_m Little k h1 h2 = SpookyHash128 k h1 h2.
Proof.
  intros. repeat split.
  - apply jenkins364_little.
  - apply hash232_little.
  - apply hash264_little.
  - apply spooky_little.
Qed.
Print Assumptions c114_little.

(** On a big-endian machine each is the little-endian hash of the key with the
    words that are read as words turned, and the other bytes left alone. *)
Theorem c114_big_murmur3 : forall k,
  mm_sum32_m Big k = mm_sum32 (turned 4 (length k / 4) k) /\
  mm_sum128_m Big k = mm_sum128 (turned 8 (2 * (length k / 16)) k) /\
  mm_sum64_m Big k = mm_sum64 (turned 8 (2 * (length k / 16)) k).
Proof.
  intros k. split; [apply mm_sum32_big|]. split; [apply mm_sum128_big|]. unfold mm_sum64_m. now rewrite mm_sum128_big.
Qed.
Print Assumptions c114_big_murmur3.
Theorem c114_big_lookup3 : forall k n pc pb,
  (1 <= n <= length k -> jenkins364_m Big k (Z.of_nat n) pc pb = jenkins364 (turned 4 (n / 4) k) (Z.of_nat n) pc pb) /\
  jenkins364_m Big k 0 pc pb = jenkins364 (turned 4 (length k / 4) k) 0 pc pb.
Proof. intros k n pc pb. split; [apply jenkins364_big|apply jenkins364_big_all]. Qed.
Print Assumptions c114_big_lookup3.
Theorem c114_big_lookup2 : forall k seed,
  hash232_m Big true k seed = hash232 (turned 4 (3 * (N.to_nat (N.of_nat (length k) mod 2 ^ 32) / 12)) k) seed /\
  hash264_m Big true k seed = hash264 (turned 8 (3 * (N.to_nat (N.of_nat (length k) mod 2 ^ 64) / 24)) k) seed /\
  hash232_m Big false k seed = hash232_with false k seed /\ hash264_m Big false k seed = hash264_with false k seed.
Proof.
  intros k seed. split; [|split; [|split; reflexivity]].
  - rewrite hash232_big, wrap_mod. reflexivity.
  - rewrite hash264_big, wrap_mod. reflexivity.
Qed.
Print Assumptions c114_big_lookup2.
Theorem c114_big_crapwow : forall k seed, CrapWow_m Big k seed = CrapWow (turned 4 (length k / 4) k) seed.
Proof. exact crapwow_big. Qed.
Print Assumptions c114_big_crapwow.
Theorem c114_big_siphashpg : forall inp key cr dr dbl,
  pg_siphash_m Big inp key cr dr dbl = pg_siphash (turned 8 (length inp / 8) inp) key cr dr dbl.
Proof. exact pg_big. Qed.
Print Assumptions c114_big_siphashpg.
(** spooky: nothing changes below 192 bytes; a longer key is hashed as its padded
    blocks, and on a big-endian machine as its padded blocks turned (the padding
    and the length byte too, so the result need not be the hash of any key). *)
Theorem c114_big_spooky : 
  (forall k h1 h2, length k < 192 -> SpookyHash128_m Big k h1 h2 = SpookyHash128 k h1 h2) /\
  exists F, forall k h1 h2, 192 <= length k ->
    SpookyHash128 k h1 h2 = F (padded k) h1 h2 /\
    SpookyHash128_m Big k h1 h2 = F (turned 8 (length (padded k) / 8) (padded k)) h1 h2.
Proof. split; [intros; now apply spooky_short|]. exists spooky_blocks. exact spooky_long. Qed.
Print Assumptions c114_big_spooky.
Definition up (n : nat) : list N := map N.of_nat (seq 0 n).
Example c114_big_nonvacuous :
  mm_sum32_m Big (up 6) = mm_sum32 [3; 2; 1; 0; 4; 5]%N /\
  mm_sum128_m Big (up 17) = mm_sum128 [7; 6; 5; 4; 3; 2; 1; 0; 15; 14; 13; 12; 11; 10; 9; 8; 16]%N /\
  jenkins364_m Big (up 13) 0 1 2 = jenkins364 [3; 2; 1; 0; 7; 6; 5; 4; 11; 10; 9; 8; 12]%N 0 1 2 /\
  jenkins364_m Big (up 13) 7 1 2 = jenkins364 [3; 2; 1; 0; 4; 5; 6; 7; 8; 9; 10; 11; 12]%N 7 1 2 /\
  hash232_m Big true (up 23) 5 = hash232 ([3; 2; 1; 0; 7; 6; 5; 4; 11; 10; 9; 8]%N ++ skipn 12 (up 23)) 5 /\
  CrapWow_m Big (up 7) 5 = CrapWow [3; 2; 1; 0; 4; 5; 6]%N 5 /\
  pg_siphash_m Big (up 9) (up 16) 2 4 true = pg_siphash [7; 6; 5; 4; 3; 2; 1; 0; 8]%N (up 16) 2 4 true /\
  length (padded (up 200)) = 288 /\ nth 207 (turned 8 36 (padded (up 200))) 7%N = 0%N /\
  nth 280 (turned 8 36 (padded (up 200))) 0%N = 8%N.
Proof. vm_compute. repeat split. Qed.

(** Hence the two machines agree on the keys without a whole word (or block), and
    on the keys whose words read the same in both directions. *)
Theorem c114_short_keys : forall k seed pc pb cr dr dbl key,
  (length k < 4 -> mm_sum32_m Big k = mm_sum32 k /\ jenkins364_m Big k 0 pc pb = jenkins364 k 0 pc pb /\
     CrapWow_m Big k seed = CrapWow k seed) /\
  (length k < 8 -> pg_siphash_m Big k key cr dr dbl = pg_siphash k key cr dr dbl) /\
  (length k < 12 -> hash232_m Big true k seed = hash232 k seed) /\
  (length k < 16 -> mm_sum128_m Big k = mm_sum128 k /\ mm_sum64_m Big k = mm_sum64 k) /\
  (length k < 24 -> hash264_m Big true k seed = hash264 k seed).
Proof.
  intros. split; [|split; [|split; [|split]]]; intros H.
  - rewrite mm_sum32_big, jenkins364_big_all, crapwow_big, Nat.div_small by assumption. auto.
  - rewrite pg_big, Nat.div_small by assumption. reflexivity.
  - rewrite hash232_big, Nat.div_small; [reflexivity|]. rewrite wrap_mod.
    pose proof (N.mod_le (N.of_nat (length k)) (2 ^ 32) ltac:(discriminate)). lia.
  - destruct (c114_big_murmur3 k) as (_ & -> & ->). rewrite Nat.div_small by assumption. auto.
  - rewrite hash264_big, Nat.div_small; [reflexivity|]. rewrite wrap_mod.
    pose proof (N.mod_le (N.of_nat (length k)) (2 ^ 64) ltac:(discriminate)). lia.
Qed.
Print Assumptions c114_short_keys.
Theorem c114_palindromes : forall k seed pc pb cr dr dbl key,
  (palindromes 4 (length k / 4) k -> mm_sum32_m Big k = mm_sum32 k /\ jenkins364_m Big k 0 pc pb = jenkins364 k 0 pc pb /\
     CrapWow_m Big k seed = CrapWow k seed /\ ((N.of_nat (length k) < 2 ^ 32)%N -> hash232_m Big true k seed = hash232 k seed)) /\
  (palindromes 8 (length k / 8) k -> pg_siphash_m Big k key cr dr dbl = pg_siphash k key cr dr dbl /\
     mm_sum128_m Big k = mm_sum128 k /\ ((N.of_nat (length k) < 2 ^ 64)%N -> hash264_m Big true k seed = hash264 k seed)).
Proof.
  intros. assert (W : forall w n n' , palindromes w n k -> n' <= n -> w * n <= length k -> turned w n' k = k).
  { intros w n n' P L M. apply palindromes_turned; [nia|]. intros i Hi. apply P. lia. }
  split; intros P.
  - pose proof (Nat.mul_div_le (length k) 4 ltac:(lia)) as M.
    assert (D : 3 * (length k / 12) <= length k / 4)
      by (apply Nat.div_le_lower_bound; [lia|]; pose proof (Nat.mul_div_le (length k) 12 ltac:(lia)); lia).
    rewrite mm_sum32_big, jenkins364_big_all, crapwow_big, (W 4 _ _ P) by lia. repeat split.
    intros L. rewrite hash232_big, wrap_mod, N.mod_small, Nat2N.id, (W 4 _ _ P) by (first [assumption|lia]). reflexivity.
  - pose proof (Nat.mul_div_le (length k) 8 ltac:(lia)) as M.
    assert (D : 3 * (length k / 24) <= length k / 8)
      by (apply Nat.div_le_lower_bound; [lia|]; pose proof (Nat.mul_div_le (length k) 24 ltac:(lia)); lia).
    assert (D2 : 2 * (length k / 16) <= length k / 8)
      by (apply Nat.div_le_lower_bound; [lia|]; pose proof (Nat.mul_div_le (length k) 16 ltac:(lia)); lia).
    rewrite pg_big, mm_sum128_big, !(W 8 _ _ P) by lia. repeat split.
    intros L. rewrite hash264_big, wrap_mod, N.mod_small, Nat2N.id, (W 8 _ _ P) by (first [assumption|lia]). reflexivity.
Qed.
Print Assumptions c114_palindromes.
Example c114_palindromes_nonvacuous :
  palindromes 4 2 [1; 2; 2; 1; 0; 9; 9; 0; 5; 6]%N /\ palindromes 8 1 [1; 2; 3; 4; 4; 3; 2; 1; 8; 7]%N /\ ~ palindromes 4 1 (up 4).
Proof.
  split; [|split].
  - intros [|[|i]] H; [reflexivity|reflexivity|lia].
  - intros [|i] H; [reflexivity|lia].
  - intros H. specialize (H 0 ltac:(lia)). discriminate H.
Qed.

(** For murmur3 the converse: the machines disagree whenever the turned key
    differs from the key inside one block only; so for a key with one whole word
    (block) they agree exactly when it reads the same in both directions. *)
Theorem c114_murmur3_one_word : forall k, bytes_ok k ->
  (forall i, differ_in_block 4 i k (turned 4 (length k / 4) k) -> mm_sum32_m Big k <> mm_sum32 k) /\
  (forall i, differ_in_block 16 i k (turned 8 (2 * (length k / 16)) k) -> mm_sum128_m Big k <> mm_sum128 k) /\
  (4 <= length k < 8 -> (mm_sum32_m Big k = mm_sum32 k <-> palindromes 4 1 k)) /\
  (16 <= length k < 32 -> (mm_sum128_m Big k = mm_sum128 k <-> palindromes 8 2 k)).
Proof.
  intros k Hk.
  assert (A : forall i, differ_in_block 4 i k (turned 4 (length k / 4) k) -> mm_sum32_m Big k <> mm_sum32 k).
  { intros i D E. rewrite mm_sum32_big in E. symmetry in E. revert E. eapply mm_sum32_no_collision; eauto using turned_bytes. }
  assert (B : forall i, differ_in_block 16 i k (turned 8 (2 * (length k / 16)) k) -> mm_sum128_m Big k <> mm_sum128 k).
  { intros i D E. rewrite mm_sum128_big in E. symmetry in E. revert E. eapply mm_sum128_no_collision; eauto using turned_bytes. }
  assert (O : forall w n j, w * n <= length k -> w * n <= j -> nth_error k j = nth_error (turned w n k) j).
  { intros w n j L J. replace j with (w * n + (j - w * n)) by lia. rewrite <- !nth_error_skipn. now rewrite turned_rest. }
  split; [exact A|]. split; [exact B|]. split; intros L.
  - assert (D : length k / 4 = 1) by (replace (length k) with (1 * 4 + (length k - 4)) by lia; rewrite Nat.div_add_l, Nat.div_small; lia).
    rewrite D in *. split; intros E.
    + apply palindromes_turned; [lia|]. destruct (list_eq_dec N.eq_dec k (turned 4 1 k)) as [e|n]; [now symmetry|].
      exfalso. apply (A 0); [|assumption]. split; [symmetry; apply turned_length|]. split; [assumption|].
      intros j J. apply O; [lia|]. destruct (le_lt_dec (4 * 1) j); [assumption|]. exfalso. apply J. apply Nat.div_small. lia.
    + rewrite mm_sum32_big, D. apply palindromes_turned in E; [now rewrite E|lia].
  - assert (D : length k / 16 = 1) by (replace (length k) with (1 * 16 + (length k - 16)) by lia; rewrite Nat.div_add_l, Nat.div_small; lia).
    rewrite D in *. change (2 * 1) with 2 in *. split; intros E.
    + apply palindromes_turned; [lia|]. destruct (list_eq_dec N.eq_dec k (turned 8 2 k)) as [e|n]; [now symmetry|].
      exfalso. apply (B 0); [|assumption]. split; [symmetry; apply turned_length|]. split; [assumption|].
      intros j J. apply O; [lia|]. destruct (le_lt_dec (8 * 2) j); [assumption|]. exfalso. apply J. apply Nat.div_small. lia.
    + rewrite mm_sum128_big, D. apply palindromes_turned in E; [|lia]. change (2 * 1) with 2. now rewrite E.
Qed.
Print Assumptions c114_murmur3_one_word.
Example c114_one_word_nonvacuous : mm_sum32_m Big [1; 2; 2; 1; 7]%N = mm_sum32 [1; 2; 2; 1; 7]%N /\ mm_sum32_m Big [1; 2; 1; 2; 7]%N <> mm_sum32 [1; 2; 1; 2; 7]%N.
Proof. split; [reflexivity|]. vm_compute. discriminate. Qed.

(** "The hash of a key does not depend on the machine" is false of every one of
    them, from the first length at which a word is read. *)
Theorem c114_machine_independent_refuted :
  (exists k, bytes_ok k /\ length k = 4 /\ mm_sum32_m Big k <> mm_sum32_m Little k) /\
  (exists k, bytes_ok k /\ length k = 16 /\ mm_sum128_m Big k <> mm_sum128_m Little k /\ mm_sum64_m Big k <> mm_sum64_m Little k) /\
  (exists k, bytes_ok k /\ length k = 4 /\ jenkins364_m Big k 0 0 0 <> jenkins364_m Little k 0 0 0) /\
  (exists k, bytes_ok k /\ length k = 12 /\ hash232_m Big true k 0 <> hash232_m Little true k 0) /\
  (exists k, bytes_ok k /\ length k = 24 /\ hash264_m Big true k 0 <> hash264_m Little true k 0) /\
  (exists k, bytes_ok k /\ length k = 4 /\ CrapWow_m Big k 0 <> CrapWow_m Little k 0) /\
  (exists k key, bytes_ok k /\ length k = 8 /\ length key = 16 /\
     pg_siphash_m Big k key 2 4 false <> pg_siphash_m Little k key 2 4 false) /\
  (exists k, bytes_ok k /\ length k = 192 /\ SpookyHash128_m Big k 0 0 <> SpookyHash128_m Little k 0 0).
Proof.
  assert (U : forall n, n <= 256 -> bytes_ok (up n)).
  { intros n H. apply Forall_forall. intros x Hx. apply in_map_iff in Hx. destruct Hx as (i & <- & Hi). apply in_seq in Hi.
    unfold byte_ok. lia. }
  split; [|split; [|split; [|split; [|split; [|split; [|split]]]]]].
  - exists (up 4). split; [apply U; lia|]. split; [reflexivity|]. vm_compute. discriminate.
  - exists (up 16). split; [apply U; lia|]. split; [reflexivity|]. split; vm_compute; discriminate.
  - exists (up 4). split; [apply U; lia|]. split; [reflexivity|]. vm_compute. discriminate.
  - exists (up 12). split; [apply U; lia|]. split; [reflexivity|]. vm_compute. discriminate.
  - exists (up 24). split; [apply U; lia|]. split; [reflexivity|]. vm_compute. discriminate.
  - exists (up 4). split; [apply U; lia|]. split; [reflexivity|]. vm_compute. discriminate.
  - exists (up 8), (up 16). split; [apply U; lia|]. split; [reflexivity|]. split; [reflexivity|]. vm_compute. discriminate.
  - exists (up 192). split; [apply U; lia|]. split; [reflexivity|]. vm_compute. discriminate.
Qed.
Print Assumptions c114_machine_independent_refuted.

(** On a big-endian machine the two loops of Hash232 and of Hash264 disagree, and
    siphashpg disagrees with siphash. *)
Theorem c114_paths_refuted :
  (exists k, bytes_ok k /\ hash232_m Big true k 0 <> hash232_m Big false k 0) /\
  (exists k, bytes_ok k /\ hash264_m Big true k 0 <> hash264_m Big false k 0) /\
  (exists k key, bytes_ok k /\ length key = 16 /\ pg_siphash_m Big k key 2 4 false <> Some (sip_hash (le_load (firstn 8 key)) (le_load (skipn 8 key)) k, 0%N)).
Proof.
  assert (U : forall n, n <= 256 -> bytes_ok (up n)).
  { intros n H. apply Forall_forall. intros x Hx. apply in_map_iff in Hx. destruct Hx as (i & <- & Hi). apply in_seq in Hi.
    unfold byte_ok. lia. }
  split; [|split].
  - exists (up 12). split; [apply U; lia|]. vm_compute. discriminate.
  - exists (up 24). split; [apply U; lia|]. vm_compute. discriminate.
  - exists (up 8), (up 16). split; [apply U; lia|]. split; [reflexivity|]. vm_compute. discriminate.
Qed.
Print Assumptions c114_paths_refuted.

(** The digests of murmur3 still hash the concatenation of what was written, on
    either machine, whatever the history. *)
Theorem c114_streams : forall m ops, Forall dop_ok ops ->
  run_history (mm_write32_m m) (fun d i => (d, mm_sum_bytes32 d i)) (fun d => (d, mm_dsum32 d)) (mm_reset 0%N) mm_new32 ops =
    spec_history (fun x => be_store 4 (fst (absorb 4 (mm32_block_m m) 0%N x))) (mm_sum32_m m) [] ops /\
  run_history (mm_write128_m m) (fun d i => (d, mm_sum_bytes128 d i)) (fun d => (d, mm_dsum128 d)) (mm_reset (0%N, 0%N)) mm_new128 ops =
    spec_history (fun x => let h := fst (absorb 16 (mm128_block_m m) (0%N, 0%N) x) in be_store 8 (fst h) ++ be_store 8 (snd h))
      (mm_sum128_m m) [] ops.
Proof.
  intros m ops H. split.
  - apply (run_history_correct _ _ _ _ _ _ (MmInv 4 (mm32_block_m m) 0%N) true); auto.
    + intros. apply mm_write_inv; [lia|assumption].
    + intros d x i Hi. cbn. split; [assumption|]. unfold mm_sum_bytes32. destruct Hi as (_ & _ & _ & ->). reflexivity.
    + intros _ d x Hi. cbn. split; [assumption|]. destruct Hi as (H1 & _ & _ & H4). unfold mm_dsum32, mm_sum32_m. now rewrite H4, H1.
    + intros. eapply mm_reset_inv; eauto; lia.
    + apply mm_new_inv. lia.
  - apply (run_history_correct _ _ _ _ _ _ (MmInv 16 (mm128_block_m m) (0%N, 0%N)) true); auto.
    + intros. apply mm_write_inv; [lia|assumption].
    + intros d x i Hi. cbn [fst snd]. split; [assumption|]. unfold mm_sum_bytes128. destruct Hi as (_ & _ & _ & ->). cbn [fst]. now destruct (mh d).
    + intros _ d x Hi. cbn [fst snd]. split; [assumption|]. destruct Hi as (H1 & _ & _ & H4). unfold mm_dsum128, mm_sum128_m. now rewrite H4, H1.
    + intros. eapply mm_reset_inv; eauto; lia.
    + apply mm_new_inv. lia.
Qed.
Print Assumptions c114_streams.
Example c114_streams_nonvacuous :
  run_history (mm_write32_m Big) (fun d i => (d, mm_sum_bytes32 d i)) (fun d => (d, mm_dsum32 d)) (mm_reset 0%N) mm_new32
    [DWrite (up 3); DWrite (skipn 3 (up 9)); DSum64] = [OWrote 3; OWrote 6; OWord (mm_sum32 [3; 2; 1; 0; 7; 6; 5; 4; 8]%N)].
Proof. reflexivity. Qed.
