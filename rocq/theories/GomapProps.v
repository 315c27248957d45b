(** Property C41: package gomap. *)
From Coq Require Import NArith List Arith Lia.
From Verif Require Import Words WordLemmas ListLemmas Mem Bij WordBij Mm3Spec Mm3Proofs GomapModel GomapSpec GomapProofs.
Open Scope N_scope.

(** The functions read only bytes of the key and return the described value. *)
Theorem c41_hash32_value key seed : bytes_ok key -> key <> [] -> Hash32 key seed = Ok (gomap32 key seed).
Proof. apply Hash32_ok. Qed.
Theorem c41_hash64_value key seed : bytes_ok key -> key <> [] -> Hash64 key seed = Ok (gomap64 key seed).
Proof. apply Hash64_ok. Qed.
Theorem c41_empty_key_panics seed : Hash32 [] seed = Panics /\ Hash64 [] seed = Panics.
Proof. split; reflexivity. Qed.
(** Keys up to 16 (32) bytes: the hash is a permutation of the seeds. *)
Theorem c41_hash32_seeds key : bytes_ok key -> (1 <= length key <= 16)%nat ->
  exists g, bijection_on (fits 32) g /\ forall seed, Hash32 key seed = Ok (g seed).
Proof.
  intros H L. exists (gomap32 key). split; [apply bij_gomap32; lia|]. intros seed. apply Hash32_ok; [assumption|]. intros ->. cbn in L. lia.
Qed.
Theorem c41_hash64_seeds key : bytes_ok key -> (1 <= length key <= 32)%nat ->
  exists g, bijection_on (fits 64) g /\ forall seed, Hash64 key seed = Ok (g seed).
Proof.
  intros H L. exists (gomap64 key). split; [apply bij_gomap64; lia|]. intros seed. apply Hash64_ok; [assumption|]. intros ->. cbn in L. lia.
Qed.
(** Keys of one length up to 4 (8) bytes do not collide. *)
Theorem c41_hash32_short_keys k k' seed : bytes_ok k -> bytes_ok k' -> length k = length k' -> (1 <= length k <= 4)%nat -> fits 32 seed ->
  Hash32 k seed = Hash32 k' seed -> k = k'.
Proof.
  intros H H' L B Hs E. assert (k <> [] /\ k' <> []) as [N1 N2] by (split; intros ->; cbn in *; lia).
  rewrite !Hash32_ok in E by assumption. injection E as E. now apply (gomap32_short k k' seed).
Qed.
Theorem c41_hash64_short_keys k k' seed : bytes_ok k -> bytes_ok k' -> length k = length k' -> (1 <= length k <= 8)%nat -> fits 64 seed ->
  Hash64 k seed = Hash64 k' seed -> k = k'.
Proof.
  intros H H' L B Hs E. assert (k <> [] /\ k' <> []) as [N1 N2] by (split; intros ->; cbn in *; lia).
  rewrite !Hash64_ok in E by assumption. injection E as E. now apply (gomap64_short k k' seed).
Qed.
(** Every value is the hash of a key of 4 (8) bytes, so every key of another length
    collides with one of them, whatever the seed. *)
Lemma inject_onto V h v : N.odd (m1 V) = true -> 0 < W V -> fits (W V) h -> fits (W V) v -> exists w, fits (W V) w /\ inject V h w = v.
Proof.
  intros Ho HW Hh Hv. destruct (bij_surj _ _ (bij_mulmod (W V) (m1 V) Ho HW) (N.lxor h v)) as (w & Hw & E); [now apply xor_fits|].
  exists w. split; [assumption|]. unfold inject. rewrite E, <- N.lxor_assoc, N.lxor_nilpotent. apply N.lxor_0_l.
Qed.
Theorem c41_hash32_onto seed v : fits 32 v -> exists k, length k = 4%nat /\ bytes_ok k /\ Hash32 k seed = Ok v.
Proof.
  intros Hv. destruct (bij_surj _ _ bij_finish32 v Hv) as (u & Hu & Eu).
  set (h := (seed + 4) mod 2 ^ 32). destruct (inject_onto v32 h u eq_refl eq_refl (mod_fits 32 _) Hu) as (w & Hw & Ew).
  assert (L : length (le_store 4 w) = 4%nat) by apply le_store_length.
  exists (le_store 4 w). split; [exact L|]. split; [apply le_store_ok|].
  rewrite Hash32_ok; [|apply le_store_ok|intros Z; rewrite Z in L; discriminate L]. f_equal. rewrite <- Eu, <- Ew. unfold gomap32. f_equal.
  unfold body, start, rest32. rewrite L. change (4 <=? 4 * nb v32)%nat with true. cbv beta iota. change (4 =? 0)%nat with false. change (4 <? 4)%nat with false. change (4 =? 4)%nat with true.
  cbv beta iota. cbn [inject_all]. change (N.of_nat 4) with 4. fold h. f_equal. unfold at_. cbn [skipn]. rewrite firstn_all2 by lia.
  rewrite le_int_load by apply le_store_ok. now apply le_load_store.
Qed.
Theorem c41_hash64_onto seed v : fits 64 v -> exists k, length k = 8%nat /\ bytes_ok k /\ Hash64 k seed = Ok v.
Proof.
  intros Hv. destruct (bij_surj _ _ bij_finish64 v Hv) as (u & Hu & Eu).
  set (h := (seed + 8) mod 2 ^ 64). destruct (inject_onto v64 h u eq_refl eq_refl (mod_fits 64 _) Hu) as (w & Hw & Ew).
  set (lo := w mod 2 ^ 32). set (hi := w / 2 ^ 32).
  assert (Fl : fits 32 lo) by apply mod_fits.
  assert (Fh : fits 32 hi) by (unfold fits, hi in *; apply N.div_lt_upper_bound; [discriminate|]; change (2 ^ 32 * 2 ^ 32) with (2 ^ 64); exact Hw).
  set (k := le_store 4 lo ++ le_store 4 hi).
  assert (L4 : forall x, length (le_store 4 x) = 4%nat) by (intros; apply le_store_length).
  assert (L : length k = 8%nat) by (unfold k; now rewrite app_length, !L4).
  assert (Bk : bytes_ok k) by (apply Forall_app; split; apply le_store_ok).
  exists k. split; [exact L|]. split; [exact Bk|].
  rewrite Hash64_ok; [|exact Bk|intros Z; rewrite Z in L; discriminate L]. f_equal. rewrite <- Eu, <- Ew. unfold gomap64. f_equal.
  unfold body, start, rest64. rewrite L. change (8 <=? 4 * nb v64)%nat with true. cbv beta iota. change (8 =? 0)%nat with false. change (8 <? 4)%nat with false. change (8 <=? 8)%nat with true.
  cbv beta iota. cbn [inject_all]. change (N.of_nat 8) with 8. fold h. f_equal. unfold at_. change (8 - 4)%nat with 4%nat. change (skipn 0 k) with k.
  unfold k. rewrite (skipn_app_exact 4) by apply L4. rewrite (firstn_app_exact 4) by apply L4. rewrite (firstn_all2 (n := 4) (le_store 4 hi)) by (rewrite L4; lia).
  rewrite !le_int_load by apply le_store_ok. rewrite !le_load_store by assumption. unfold lo, hi. rewrite N.add_comm. symmetry. apply N.div_mod. discriminate.
Qed.
(** The reads of unaligned2.go (other machines) give the same words as the little-endian
    loads of unaligned1.go. *)
Theorem c41_portable_reads b p w32 w64 : bytes_ok b ->
  (readUnaligned32 b p = Ok w32 -> portable32 (firstn 4 (skipn p b)) = w32) /\ (readUnaligned64 b p = Ok w64 -> portable64 (firstn 8 (skipn p b)) = w64).
Proof.
  intros H. unfold readUnaligned32, readUnaligned64, deref. split.
  - destruct (Nat.leb_spec (p + 4) (length b)); cbn [rbind]; [|discriminate]. intros E. rewrite <- (f_equal (fun r => match r with Ok x => x | _ => 0 end) E). apply portable32_ok; [now apply bytes_ok_firstn, bytes_ok_skipn|].
    rewrite firstn_length, skipn_length. lia.
  - destruct (Nat.leb_spec (p + 8) (length b)); cbn [rbind]; [|discriminate]. intros E. rewrite <- (f_equal (fun r => match r with Ok x => x | _ => 0 end) E). apply portable64_ok; [now apply bytes_ok_firstn, bytes_ok_skipn|].
    rewrite firstn_length, skipn_length. lia.
Qed.
Example c41_nonvacuous :
  exists h, Hash64 (map N.of_nat (seq 1 77)) 5 = Ok h /\ h = gomap64 (map N.of_nat (seq 1 77)) 5 /\ fits 64 h /\
    Hash32 [1; 2; 3] 7 <> Hash32 [1; 2; 4] 7 /\ Hash64 [1; 2; 3; 4; 5] 7 <> Hash64 [1; 2; 3; 4; 5] 8.
Proof. eexists. split; [vm_compute; reflexivity|]. vm_compute. repeat split; discriminate. Qed.
Example c41_seeds_nonvacuous : Hash32 (repeat 3 16) 7 <> Hash32 (repeat 3 16) 8 /\ Hash64 (repeat 3 32) 7 <> Hash64 (repeat 3 32) 8.
Proof. split; vm_compute; discriminate. Qed.
Example c41_portable_nonvacuous : readUnaligned32 [1; 2; 3; 4; 5] 1 = Ok 0x05040302 /\ portable32 [2; 3; 4; 5] = 0x05040302 /\
  readUnaligned64 [1; 2; 3; 4; 5; 6; 7; 8; 9] 1 = Ok 0x0908070605040302 /\ portable64 [2; 3; 4; 5; 6; 7; 8; 9] = 0x0908070605040302.
Proof. vm_compute. auto. Qed.

Print Assumptions c41_hash32_value.
Print Assumptions c41_hash64_value.
Print Assumptions c41_empty_key_panics.
Print Assumptions c41_hash32_seeds.
Print Assumptions c41_hash64_seeds.
Print Assumptions c41_hash32_short_keys.
Print Assumptions c41_hash64_short_keys.
Print Assumptions c41_hash32_onto.
Print Assumptions c41_hash64_onto.
Print Assumptions c41_portable_reads.
