(** Theorems about /repo/smhasher/smhasher.go: bit flips, sparse keys and the
    families of keys that the tests hash (C49, C78). *)
From Coq Require Import NArith ZArith List Arith String Bool Lia.
From Verif Require Import Words WordLemmas ListLemmas HashTableModel HtModel SmhModel SmhSpec SmhProofs SmhBits SmhKeys SmhKeys2 SmhFlip.
Import ListNotations.
Open Scope N_scope.
Open Scope list_scope.

(** ** C49: flipping and setting bits *)
(** A key is hashed as a byte string: the bytes themselves, or the number in
    little-endian order. *)
Theorem c49_hashed_bytes : forall hf k, key_hash hf k =
  hf (match k with BytesKey b => b | Int32Key x => number_bytes 4 x | Int64Key x => number_bytes 8 x end) 0.
Proof. intros hf k. apply key_hash_bytes. Qed.
(** Flipping bit [i] changes bit [i] of the hashed bytes and no other. *)
Theorem c49_flip : forall k i, key_ok k -> (i < bits k)%nat ->
  exists k', flipBit i k = Some k' /\ key_ok k' /\ flipped i (key_bytes k) (key_bytes k').
Proof. intros k i O H. destruct (flipBit_spec k i O H) as (k' & A & B & _ & C). eauto. Qed.
Theorem c49_flip_twice : forall k i, key_ok k -> (i < bits k)%nat ->
  exists k', flipBit i k = Some k' /\ k' <> k /\ flipBit i k' = Some k.
Proof.
  intros k i O H. destruct (flipBit_spec k i O H) as (k' & A & B & _ & C). exists k'. split; [exact A|].
  split; [|now apply flipBit_twice]. intros ->. destruct C as (_ & _ & C). specialize (C i). rewrite Nat.eqb_refl in C.
  now destruct (bit (key_bytes k) i).
Qed.
(** Beyond the last bit: byte keys panic, numbers stay as they are. *)
Theorem c49_flip_outside : forall k i, key_ok k -> (bits k <= i)%nat ->
  flipBit i k = match k with BytesKey _ => None | _ => Some k end.
Proof. exact flipBit_outside. Qed.
Example c49_flip_nonvacuous : key_ok (BytesKey [3; 128]) /\ (15 < bits (BytesKey [3%N; 128%N]))%nat /\
  flipBit 15 (BytesKey [3; 128]) = Some (BytesKey [3; 0]) /\ flipBit 31 (Int32Key 5) = Some (Int32Key 2147483653) /\
  flipBit 16 (BytesKey [3; 128]) = None /\ flipBit 32 (Int32Key 5) = Some (Int32Key 5) /\
  flipBit 40 (Int64Key 5) = Some (Int64Key 1099511627781).
Proof. repeat split; try reflexivity; repeat constructor. Qed.

(** The sparse keys: on a buffer without set bits from [i] on, each string that
    agrees with the buffer before [i] and has at most [k] set bits from [i] on
    is hashed exactly once, and the buffer ends up as it was. *)
Theorem c49_sparse : forall k b i, byte_string b -> zero_from i b -> (i <= 8 * List.length b)%nat ->
  enumerates (fst (setbits k b i)) (fun y => List.length y = List.length b /\ byte_string y /\ same_below i b y /\
                                             (List.length (ones_from i y) <= k)%nat) /\
  snd (setbits k b i) = b.
Proof.
  intros k b i B Z L. rewrite setbits_eq by assumption. cbn [fst snd]. split; [|reflexivity].
  split; [now apply sparse_nodup|]. intros y. now apply sparse_in.
Qed.
(** From an empty buffer: all strings with at most [k] set bits. *)
Theorem c49_sparse_all : forall n k, enumerates (sparse_keys (8 * n) k)
  (fun y => List.length y = n /\ byte_string y /\ (List.length (ones_from 0 y) <= k)%nat).
Proof.
  intros n k. unfold sparse_keys. rewrite Nat.mul_comm, Nat.div_mul by lia.
  assert (Z : zero_from 0 (repeat 0 n)) by (intros j _; unfold bit; fold (HtKeys.zeros n); rewrite HtKeys.nth_zeros; apply N.bits_0).
  destruct (c49_sparse k (repeat 0 n) 0 (zeros_bytes n) Z) as [[A B] _]; [lia|]. split; [exact A|].
  intros y. rewrite B, repeat_length. unfold same_below. intuition lia.
Qed.
(** A set bit in the way is cleared: the buffer is not always left as found. *)
Theorem c49_sparse_restores_refuted : exists b, byte_string b /\ snd (setbits 1 b 0) <> b.
Proof. exists [1]. split; [repeat constructor|]. vm_compute. discriminate. Qed.
Example c49_sparse_nonvacuous : byte_string [1; 0] /\ zero_from 1 [1; 0] /\
  List.length (fst (setbits 2 [1; 0] 1)) = 121%nat /\ sparse_keys 8 1 = [[0]; [1]; [2]; [4]; [8]; [16]; [32]; [64]; [128]].
Proof.
  split; [repeat constructor|]. split; [|vm_compute; auto]. intros [|[|j]] H; [lia|reflexivity|].
  unfold bit. destruct (S (S j) / 8)%nat as [|[|q]] eqn:E; cbn [nth].
  - assert (S (S j) < 8)%nat by (apply Nat.div_small_iff in E; lia). rewrite Nat.mod_small by assumption.
    do 6 (destruct j as [|j]; [reflexivity|]). lia.
  - apply N.bits_0.
  - destruct q; apply N.bits_0.
Qed.

(** ** C78: the families of keys *)
Theorem c78_small_keys : enumerates (small_keys 256 Short) (fun k => byte_string k /\ (1 <= List.length k <= 3)%nat).
Proof. exact small_enum. Qed.
(** The comment says "all 0-3 byte strings": the empty string is left out. *)
Theorem c78_small_keys_refuted : ~ enumerates (small_keys 256 Short) (fun k => byte_string k /\ (List.length k <= 3)%nat).
Proof.
  intros [_ H]. assert (I : In [] (small_keys 256 Short)) by (apply (proj2 (H [])); split; [constructor|cbn; lia]).
  destruct (proj1 (proj2 small_enum []) I) as [_ J]. cbn in J. lia.
Qed.
Example c78_small_nonvacuous : In [7; 0; 255] (small_keys 256 Short) /\ small_keys 2 false =
  [[0]; [0; 0]; [0; 0; 0]; [0; 0; 1]; [0; 1]; [0; 1; 0]; [0; 1; 1]; [1]; [1; 0]; [1; 0; 0]; [1; 0; 1]; [1; 1]; [1; 1; 0]; [1; 1; 1]].
Proof. split; [apply (proj2 (proj2 small_enum [7; 0; 255])); split; [repeat constructor|cbn; lia]|reflexivity]. Qed.

Theorem c78_appended : forall s, enumerates (appended_keys s) (fun k => exists t, s = k ++ t).
Proof. exact appended_enum. Qed.
Theorem c78_zeros : forall n, enumerates (zeros_keys n) (fun k => exists m, (m <= n)%nat /\ k = repeat 0 m).
Proof. exact zeros_enum. Qed.
Example c78_appended_nonvacuous : appended_keys [5; 6] = [[]; [5]; [5; 6]] /\ zeros_keys 2 = [[]; [0]; [0; 0]].
Proof. split; reflexivity. Qed.

(** Strings of length [n] with at most two bytes that are not zero, each once;
    the buffer ends up zero. *)
Theorem c78_two_nonzero : forall n, enumerates (fst (twoNonZero n))
    (fun k => List.length k = n /\ byte_string k /\ (List.length (nonzero k) <= 2)%nat) /\
  snd (twoNonZero n) = repeat 0 n.
Proof. intros n. split; [apply twoNonZero_enum|]. now rewrite twoNonZero_eq. Qed.
Example c78_two_nonvacuous : In [0; 9; 0; 255] (fst (twoNonZero 4)) /\ ~ In [1; 1; 1] (fst (twoNonZero 3)) /\
  N.of_nat (List.length (fst (twoNonZero 2))) = 65536.
Proof.
  split; [|split].
  - apply (proj2 (proj2 (proj1 (c78_two_nonzero 4)) _)). split; [reflexivity|]. split; [repeat constructor|cbn; lia].
  - intros H. apply (proj1 (proj2 (proj1 (c78_two_nonzero 3)) _)) in H. destruct H as (_ & _ & H). cbn in H. lia.
  - rewrite twoNonZero_eq. vm_compute. reflexivity.
Qed.

(** The keys of the cyclic test: eight copies of four bytes that depend on the
    counter followed by random bytes; different for all 1000000 counters,
    whatever the random bytes. *)
Theorem c78_cyclic : forall n rb count, (4 <= n)%nat -> (forall i, List.length (rb i) = (n - 4)%nat) ->
  N.of_nat count <= 97 * 137 * 197 * 251 ->
  NoDup (cyclic_keys n rb count) /\ List.length (cyclic_keys n rb count) = count /\
  forall i, (i < count)%nat -> let c := N.of_nat i in
    nth i (cyclic_keys n rb count) [] = cycled 8 ([c * 79 mod 97; c * 43 mod 137; c * 151 mod 197; c * 199 mod 251] ++ rb i).
Proof.
  intros n rb count Hn Hr Hc. split; [now apply cyclic_nodup|]. rewrite cyclic_eq by assumption.
  split; [now rewrite map_length, seq_length|]. intros i Hi c.
  set (f := fun i => cycled 8 (head4 i ++ rb i)).
  rewrite (nth_indep (map f (seq 0 count)) [] (f 0%nat)) by now rewrite map_length, seq_length.
  rewrite (map_nth f), seq_nth by exact Hi. reflexivity.
Qed.
Example c78_cyclic_nonvacuous : cyclic_keys 5 (fun i => [N.of_nat i + 7]) 2 =
    [[0; 0; 0; 0; 7; 0; 0; 0; 0; 7; 0; 0; 0; 0; 7; 0; 0; 0; 0; 7; 0; 0; 0; 0; 7; 0; 0; 0; 0; 7; 0; 0; 0; 0; 7; 0; 0; 0; 0; 7];
     [79; 43; 151; 199; 8; 79; 43; 151; 199; 8; 79; 43; 151; 199; 8; 79; 43; 151; 199; 8; 79; 43; 151; 199; 8;
      79; 43; 151; 199; 8; 79; 43; 151; 199; 8; 79; 43; 151; 199; 8]] /\
  N.of_nat (N.to_nat 1000000) <= 97 * 137 * 197 * 251.
Proof. split; [reflexivity|]. rewrite N2Nat.id. vm_compute. discriminate. Qed.

(** All sequences of at most [n] blocks from [s], each once. *)
Theorem c78_permutation : forall s n, NoDup s -> Forall (fun v => v < 2 ^ 32) s ->
  enumerates (permutation_keys s n) (fun k => exists vs, (List.length vs <= n)%nat /\ incl vs s /\ k = flat_map block vs).
Proof. intros. now apply permutation_enum. Qed.
(** The buffer must have whole blocks: otherwise a write is out of range. *)
Theorem c78_permutation_total : forall s n m, exists r, genPerm m (repeat 0 (n + m * 4)) s n = Some r.
Proof.
  intros s n m. destruct (genPerm_eq m (repeat 0 (n + m * 4)) s n) as (b' & E & _); [rewrite repeat_length; lia|]. eauto.
Qed.
Example c78_permutation_nonvacuous : permutation_keys [0; 2147483649] 1 = [[]; [0; 0; 0; 0]; [1; 0; 0; 128]] /\
  List.length (permutation_keys [0; 1; 2] 4) = 121%nat /\ genPerm 2 [0; 0; 0; 0; 0; 0] [1] 0 = None.
Proof. repeat split. Qed.

(** Prefix, four letters, suffix: each once. *)
Theorem c78_text : forall p q, enumerates (text_keys alphabet p q)
  (fun k => exists m, List.length m = 4%nat /\ incl m alphabet /\ k = p ++ m ++ q).
Proof. intros p q. apply text_enum. apply nodupb_ok. vm_compute. reflexivity. Qed.
(** The comment says letters [A-Za-z0-9]: twelve letters are left out. *)
Theorem c78_text_refuted : ~ enumerates (text_keys alphabet [] []) (fun k => List.length k = 4%nat /\
  Forall (fun c => 48 <= c <= 57 \/ 65 <= c <= 90 \/ 97 <= c <= 122) k).
Proof.
  intros [_ H]. assert (I : In [90; 65; 65; 65] (text_keys alphabet [] [])).
  { apply (proj2 (H _)). split; [reflexivity|]. apply Forall_forall. intros c Hc. cbn in Hc. intuition lia. }
  apply (proj1 (proj2 (c78_text [] []) _)) in I. destruct I as (m & _ & J & E). rewrite app_nil_r in E. cbn [app] in E. subst m.
  assert (Q : In 90 alphabet) by (apply J; now left). vm_compute in Q. repeat (destruct Q as [Q|Q]; [discriminate|]). exact Q.
Qed.
Theorem c78_text_letters : forall c, In c alphabet <-> 65 <= c <= 84 \/ 97 <= c <= 116 \/ 48 <= c <= 57.
Proof.
  intros c. change alphabet with (map N.of_nat (seq 65 20 ++ seq 97 20 ++ seq 48 10)). rewrite in_map_iff. split.
  - intros (i & <- & H). rewrite !in_app_iff, !in_seq in H. lia.
  - intros H. exists (N.to_nat c). split; [apply N2Nat.id|]. rewrite !in_app_iff, !in_seq. lia.
Qed.
Example c78_text_nonvacuous : In [70; 48; 116; 65; 65; 66] (text_keys alphabet [70] [66]) /\
  text_keys [1; 2] [9] [] = map (fun m => 9 :: m) [[1;1;1;1]; [1;1;1;2]; [1;1;2;1]; [1;1;2;2]; [1;2;1;1]; [1;2;1;2]; [1;2;2;1]; [1;2;2;2];
    [2;1;1;1]; [2;1;1;2]; [2;1;2;1]; [2;1;2;2]; [2;2;1;1]; [2;2;1;2]; [2;2;2;1]; [2;2;2;2]].
Proof.
  split; [|reflexivity]. apply (proj2 (proj2 (c78_text [70] [66]) _)). exists [48; 116; 65; 65]. split; [reflexivity|]. split; [|reflexivity].
  intros x H. apply c78_text_letters. cbn in H. intuition lia.
Qed.

(** The windowed keys for rotation [r]: pattern [i] gives [i] rotated, all
    different, for keys of 16 bits or more. *)
Theorem c78_windowed : forall k r count, key_ok k -> (16 <= bits k)%nat -> (r < bits k)%nat -> (count <= 2 ^ 16)%nat ->
  exists ks, window_keys r count k = Some ks /\ List.length ks = count /\
    (forall i, (i < count)%nat -> rotation (bits k) r i (key_bytes (nth i ks (Int32Key 0)))) /\ NoDup (map key_bytes ks).
Proof. exact window_keys_spec. Qed.
Theorem c78_windowed_short_refuted : exists k ks, key_ok k /\ window_keys 0 258 k = Some ks /\ ~ NoDup (map key_bytes ks).
Proof.
  exists (BytesKey [0]). eexists. split; [repeat constructor|]. split; [vm_compute; reflexivity|].
  intros H. apply (NoDup_nth _ []) with (i := 0%nat) (j := 257%nat) in H; [discriminate|vm_compute; repeat constructor|vm_compute; repeat constructor|reflexivity].
Qed.
Example c78_windowed_nonvacuous : key_ok (Int32Key 77) /\ window_keys 31 4 (Int32Key 77) =
  Some [Int32Key 0; Int32Key 2147483648; Int32Key 1; Int32Key 2147483649] /\ key_bytes (Int32Key 2147483649) = [1; 0; 0; 128].
Proof. repeat split. Qed.

Print Assumptions c49_hashed_bytes.
Print Assumptions c49_flip.
Print Assumptions c49_flip_twice.
Print Assumptions c49_flip_outside.
Print Assumptions c49_sparse.
Print Assumptions c49_sparse_all.
Print Assumptions c49_sparse_restores_refuted.
Print Assumptions c78_small_keys.
Print Assumptions c78_small_keys_refuted.
Print Assumptions c78_appended.
Print Assumptions c78_zeros.
Print Assumptions c78_two_nonzero.
Print Assumptions c78_cyclic.
Print Assumptions c78_permutation.
Print Assumptions c78_permutation_total.
Print Assumptions c78_text.
Print Assumptions c78_text_refuted.
Print Assumptions c78_text_letters.
Print Assumptions c78_windowed.
Print Assumptions c78_windowed_short_refuted.
