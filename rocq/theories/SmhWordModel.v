(** Model of /repo/smhasher/smhasher.go on a machine whose words (uintptr) have [word] bits, 32
    or 64; SmhModel.v is the case of 64.  As there the hash under test is a parameter, and Go's int
    is unbounded: no count here reaches 2^31. *)
From Coq Require Import NArith ZArith Bool String List.
From Verif Require Import Words HashTableModel HtModel SmhModel F64 FloatModel.
Import ListNotations.
Open Scope N_scope.

(** smhasher.go:635 [hashSize]: 32 + int(^uintptr(0)>>63<<5). *)
Definition hashSize (word : N) : N := 32 + shlw word (shr (notw word 0) 63) 5.
(** smhasher.go:96-100 [BytesHash], 102-109 [StringHash]: uint64(aseed), then uintptr(h). *)
Definition BytesHash_on (word : N) (hf : list N -> N -> N) (b : list N) (aseed : N) : N := wrap word (hf b aseed).
(** smhasher.go:111-129 [Int32Hash], [Int64Hash]. *)
Definition Int32Hash_on (word : N) (hf : list N -> N -> N) (i aseed : N) : N := wrap word (Int32Hash hf i aseed).
Definition Int64Hash_on (word : N) (hf : list N -> N -> N) (i aseed : N) : N := wrap word (Int64Hash hf i aseed).
(** smhasher.go:186-199 [check], with float64 as in FloatModel.v; the power of two is math.Pow(2.0,
    float64(hashSize)). *)
Definition check_on (word : N) (s : HashSet) : bool :=
  let collisions := (hs_n s - Z.of_nat (List.length (hs_m s)))%Z in
  let pairs := (wrap_int64 (hs_n s * (hs_n s - 1)) ÷ 2)%Z in
  let expected := fdiv (fofZ pairs) (fofZ (2 ^ Z.of_N (hashSize word))) in
  let stddev := fsqrt expected in
  fltb (fadd expected (fmul (fofZ 30) stddev)) (fofZ collisions).
(** smhasher.go:170-200: a set filled with the hashes of the given keys, and its verdict. *)
Definition verdict_on (word : N) (hf : list N -> N -> N) (ks : list (list N)) : bool :=
  check_on word (set_of (map (fun k => BytesHash_on word hf k 0) ks)).
(** smhasher.go:202-209, 212-230, 247-256, 339-344 (one of [pairs]), 387-392 (one of [Permutations]). *)
Definition appended_on (word : N) hf : bool := verdict_on word hf (appended_keys (str "hello"%string ++ repeat 0 256)).
Definition small_on (word : N) hf : bool := verdict_on word hf (small_keys 256 Short).
Definition two_on (word : N) hf : bool := verdict_on word hf (flat_map (fun n => fst (twoNonZero n)) (seq 2 15)).
Definition sparse_on (word : N) hf (n k : nat) : bool := verdict_on word hf (sparse_keys n k).
Definition permutation_on (word : N) hf (n : nat) (s : list N) : bool := verdict_on word hf (permutation_keys s n).
(** smhasher.go:298-316: one length [n] of [TestSmhasherCyclic]; 598-621 [text]. *)
Definition cyclic_on (word : N) hf (n : nat) (rb : nat -> list N) : bool :=
  verdict_on word hf (cyclic_keys n rb (N.to_nat 1000000)).
Definition text_on (word : N) hf (prefix suffix : list N) : bool := verdict_on word hf (text_keys alphabet prefix suffix).
(** smhasher.go:624-632 [TestSmhasherSeed]: the seed is a uintptr. *)
Definition seed_on (word : N) (hf : list N -> N -> N) : bool :=
  check_on word (set_of (map (fun i => BytesHash_on word hf (str "hello"%string) (wrap word (N.of_nat i))) (seq 0 (N.to_nat 100000)))).
(** smhasher.go:434-436, 457-459, 480-482 [hash]; 571-585: one rotation [r] of [windowed]. *)
Definition key_hash_on (word : N) (hf : list N -> N -> N) (k : skey) : N :=
  match k with
  | BytesKey b => BytesHash_on word hf b 0
  | Int32Key i => Int32Hash_on word hf i 0
  | Int64Key i => Int64Hash_on word hf i 0
  end.
Definition windowed_on (word : N) (hf : list N -> N -> N) (r : nat) (k : skey) : option bool :=
  option_map (fun ks => check_on word (set_of (map (key_hash_on word hf) ks))) (window_keys r (N.to_nat 65536) k).
