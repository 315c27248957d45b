(** Property theorems C16-C19, C52-C54 (murmur3).  Only statements; proofs elsewhere. *)
From Verif Require Import Words WordLemmas DigestSpec Blocks BlockInj Bij Mm3Model Mm3Spec Mm3Proofs Mm3More.
Open Scope N_scope.

(** C16.  Streaming equals one-shot, whatever the sequence of Write, Sum,
    Sum32/64/128 and Reset calls before: the word results are those of the
    package functions on the bytes written since the last Reset. *)
Theorem c16_stream32 : forall chunks, Forall bytes_ok chunks ->
  mm_history32 mm_new32 (map DWrite chunks ++ [DSum64]) =
  map (fun p => OWrote (length p)) chunks ++ [OWord (mm_sum32 (concat chunks))].
Proof. exact mm_stream32. Qed.
Print Assumptions c16_stream32.
Theorem c16_stream64 : forall chunks, Forall bytes_ok chunks ->
  mm_history64 mm_new64 (map DWrite chunks ++ [DSum64]) =
  map (fun p => OWrote (length p)) chunks ++ [OWord (mm_sum64 (concat chunks))].
Proof. exact mm_stream64. Qed.
Print Assumptions c16_stream64.
Theorem c16_stream128 : forall chunks, Forall bytes_ok chunks ->
  mm_history128 mm_new128 (map DWrite chunks ++ [DSum64]) =
  map (fun p => OWrote (length p)) chunks ++ [OWord (mm_sum128 (concat chunks))].
Proof. exact mm_stream128. Qed.
Print Assumptions c16_stream128.
Theorem c16_history : forall ops, Forall dop_ok ops ->
  mm_history32 mm_new32 ops =
    spec_history (fun m => be_store 4 (mm_regs32 m)) mm_sum32 [] ops /\
  mm_history64 mm_new64 ops =
    spec_history (fun m => be_store 8 (fst (mm_regs128 m))) mm_sum64 [] ops /\
  mm_history128 mm_new128 ops =
    spec_history (fun m => be_store 8 (fst (mm_regs128 m)) ++ be_store 8 (snd (mm_regs128 m))) mm_sum128 [] ops.
Proof. exact mm_histories. Qed.
Print Assumptions c16_history.
Definition hello_world : list N := [104; 101; 108; 108; 111; 44; 32; 119; 111; 114; 108; 100].
Example c16_nonvacuous :
  mm_history32 mm_new32 [DWrite [104; 101]; DWrite []; DWrite [108; 108; 111; 44; 32; 119; 111; 114; 108; 100]; DSum64; DReset; DSum64] =
  [OWrote 2; OWrote 0; OWrote 10; OWord 0x149bbb7f; OUnit; OWord 0] /\
  mm_history64 mm_new64 [DWrite [1]; DReset; DWrite (firstn 5 hello_world); DSum64; DWrite (skipn 5 hello_world); DSum64] =
  [OWrote 1; OUnit; OWrote 5; OWord 0xcbd8a7b341bd9b02; OWrote 7; OWord 0x342fac623a5ebc8e] /\
  mm_history128 mm_new128 (map DWrite [repeat 7 17; repeat 7 15; repeat 7 40] ++ [DSum64]) =
  [OWrote 17; OWrote 15; OWrote 40; OWord (mm_sum128 (repeat 7 72))].
Proof. vm_compute. auto. Qed.

(** C17.  Sum(b) should append the big-endian bytes of the hash.  It appends the
    registers after the full blocks only: for every stream. *)
Theorem c17_sum_is_the_hash_refuted :
  (exists m inp, bytes_ok m /\
     mm_history32 mm_new32 [DWrite m; DSum inp] <> [OWrote (length m); OBytes (inp ++ be_store 4 (mm_sum32 m))]) /\
  (exists m inp, bytes_ok m /\
     mm_history64 mm_new64 [DWrite m; DSum inp] <> [OWrote (length m); OBytes (inp ++ be_store 8 (mm_sum64 m))]) /\
  (exists m inp, bytes_ok m /\
     mm_history128 mm_new128 [DWrite m; DSum inp] <>
     [OWrote (length m); OBytes (inp ++ be_store 8 (fst (mm_sum128 m)) ++ be_store 8 (snd (mm_sum128 m)))]).
Proof. exact mm_sum_refuted. Qed.
Print Assumptions c17_sum_is_the_hash_refuted.
(** Two streams that agree on their full blocks have the same Sum, whatever their
    tails and lengths (the tail is ignored). *)
Theorem c17_sum_ignores_tail : forall a t t' inp, bytes_ok a -> bytes_ok t -> bytes_ok t' ->
  ((length a mod 4 = 0)%nat -> (length t < 4)%nat -> (length t' < 4)%nat ->
   mm_sum_bytes32 (fst (mm_write32 mm_new32 (a ++ t))) inp = mm_sum_bytes32 (fst (mm_write32 mm_new32 (a ++ t'))) inp) /\
  ((length a mod 16 = 0)%nat -> (length t < 16)%nat -> (length t' < 16)%nat ->
   mm_sum_bytes64 (fst (mm_write128 mm_new64 (a ++ t))) inp = mm_sum_bytes64 (fst (mm_write128 mm_new64 (a ++ t'))) inp /\
   mm_sum_bytes128 (fst (mm_write128 mm_new128 (a ++ t))) inp = mm_sum_bytes128 (fst (mm_write128 mm_new128 (a ++ t'))) inp).
Proof. exact mm_sum_ignores_tail. Qed.
Print Assumptions c17_sum_ignores_tail.
Example c17_nonvacuous :
  mm_sum_bytes128 (fst (mm_write128 mm_new128 hello_world)) [] = repeat 0 16 /\
  mm_sum_bytes32 (fst (mm_write32 mm_new32 hello_world)) [] <> repeat 0 4 /\
  mm_sum_bytes32 (fst (mm_write32 mm_new32 (hello_world ++ [1]))) [] =
  mm_sum_bytes32 (fst (mm_write32 mm_new32 (hello_world ++ [2; 3]))) [].
Proof. vm_compute. repeat split; discriminate. Qed.

(** C18. *)
Theorem c18_finalisers_bijective :
  bijection_on (fits 32) mm32_fmix /\ bijection_on (fits 64) fmix64.
Proof. exact (conj mm32_fmix_bij fmix64_bij). Qed.
Print Assumptions c18_finalisers_bijective.
(** The whole 128-bit end of Sum128 (length, additions, two finalisers). *)
Theorem c18_final128_bijective : forall n, bijection_on pair_ok (fun h => mm128_final h n).
Proof. exact mm128_final_bij. Qed.
Print Assumptions c18_final128_bijective.
Example c18_nonvacuous : fits 32 0x12345678 /\ mm32_fmix 0x12345678 = 0xe37cd1bc /\ fits 64 1 /\ fmix64 1 = 0xb456bcfc34c2cb2c.
Proof. vm_compute. auto. Qed.

(** C19. *)
Theorem c19_sum64_is_half_of_sum128 :
  (forall m, mm_sum64 m = fst (mm_sum128 m)) /\
  (forall chunks, Forall bytes_ok chunks ->
     exists h1 h2,
     mm_history128 mm_new128 (map DWrite chunks ++ [DSum64]) = map (fun p => OWrote (length p)) chunks ++ [OWord (h1, h2)] /\
     mm_history64 mm_new64 (map DWrite chunks ++ [DSum64]) = map (fun p => OWrote (length p)) chunks ++ [OWord h1]).
Proof. exact mm_sum64_half. Qed.
Print Assumptions c19_sum64_is_half_of_sum128.
Example c19_nonvacuous : mm_sum64 hello_world = 0x342fac623a5ebc8e /\ mm_sum128 hello_world = (0x342fac623a5ebc8e, 0x4cdcbc079642414d).
Proof. vm_compute. auto. Qed.

(** C52.  The package functions are the published algorithms. *)
Theorem c52_reference : forall m, bytes_ok m ->
  mm_sum32 m = murmur3_x86_32 m /\ mm_sum128 m = murmur3_x64_128 m.
Proof. exact (fun m H => conj (mm_sum32_reference m H) (mm_sum128_reference m H)). Qed.
Print Assumptions c52_reference.
Example c52_nonvacuous : murmur3_x86_32 hello_world = 0x149bbb7f /\ murmur3_x64_128 hello_world = (0x342fac623a5ebc8e, 0x4cdcbc079642414d).
Proof. vm_compute. auto. Qed.

(** C53.  No collisions inside one aligned block. *)
Theorem c53_no_single_block_collision : forall m m' i, bytes_ok m -> bytes_ok m' ->
  (differ_in_block 4 i m m' -> mm_sum32 m <> mm_sum32 m') /\
  (differ_in_block 16 i m m' -> mm_sum128 m <> mm_sum128 m').
Proof. exact (fun m m' i H H' => conj (mm_sum32_no_collision m m' i H H') (mm_sum128_no_collision m m' i H H')). Qed.
Print Assumptions c53_no_single_block_collision.
(** The hypothesis is met by changing bytes 5 and 7 of a 10-byte message, or one
    byte of its tail; without the one-block restriction the claim would be false. *)
Example c53_nonvacuous :
  differ_in_block 4 1 [1; 2; 3; 4; 5; 6; 7; 8; 9; 10] [1; 2; 3; 4; 5; 60; 7; 80; 9; 10] /\
  differ_in_block 4 2 [1; 2; 3; 4; 5; 6; 7; 8; 9; 10] [1; 2; 3; 4; 5; 6; 7; 8; 9; 11].
Proof.
  split; (split; [reflexivity|]; split; [discriminate|]); intros j Hj;
  do 12 (destruct j as [|j]; [try reflexivity; exfalso; apply Hj; reflexivity|]); reflexivity.
Qed.

(** C54.  Size() and the number of bytes Sum appends. *)
Theorem c54_size : forall ops d32 d128 inp,
  d32 = fold_left (fun d p => fst (mm_write32 d p)) ops mm_new32 ->
  d128 = fold_left (fun d p => fst (mm_write128 d p)) ops mm_new128 ->
  length (mm_sum_bytes32 d32 inp) = (length inp + mm_size32 d32)%nat /\
  length (mm_sum_bytes128 d128 inp) = (length inp + mm_size128 d128)%nat /\
  length (mm_sum_bytes64 d128 inp) = (length inp + 8)%nat.
Proof. exact mm_sizes. Qed.
Print Assumptions c54_size.
Theorem c54_new64_size_refuted : forall inp,
  length (mm_sum_bytes64 mm_new64 inp) <> (length inp + mm_size64 mm_new64)%nat.
Proof. exact mm_size64_refuted. Qed.
Print Assumptions c54_new64_size_refuted.
Example c54_nonvacuous :
  length (mm_sum_bytes64 (fst (mm_write128 mm_new64 hello_world)) [1]) = 9%nat /\ mm_size64 mm_new64 = 16%nat.
Proof. vm_compute. auto. Qed.

(** Test vectors of murmur3/murmur_test.go:9-20 (tests of the transcription). *)
Example mm3_vectors :
  map (fun m => (mm_sum32 m, mm_sum64 m, mm_sum128 m))
    [[]; [104; 101; 108; 108; 111]; hello_world;
     [49; 57; 32; 74; 97; 110; 32; 50; 48; 51; 56; 32; 97; 116; 32; 51; 58; 49; 52; 58; 48; 55; 32; 65; 77];
     [84; 104; 101; 32; 113; 117; 105; 99; 107; 32; 98; 114; 111; 119; 110; 32; 102; 111; 120; 32; 106; 117; 109; 112; 115; 32;
      111; 118; 101; 114; 32; 116; 104; 101; 32; 108; 97; 122; 121; 32; 100; 111; 103; 46]] =
  map (fun '(a, b, c) => (a, b, (b, c)))
    [(0, 0, 0); (0x248bfa47, 0xcbd8a7b341bd9b02, 0x5b1e906a48ae1d19); (0x149bbb7f, 0x342fac623a5ebc8e, 0x4cdcbc079642414d);
     (0xe31e8a70, 0xb89e5988b737affc, 0x664fc2950231b2cb); (0xd5c48bfc, 0xcd99481f9ee902c9, 0x695da1a38987b6e7)].
Proof. vm_compute. reflexivity. Qed.
