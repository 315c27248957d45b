(** Model of /repo/smhasher/smhasher.go: the port of the SMHasher tests.  Byte
    strings are lists of bytes; the hash under test is a parameter [hf], a
    function of the bytes and the seed (hash functions with state are left
    out).  A function that adds keys to a hash set while it writes into a shared
    buffer is modelled by the list of keys it adds, in order, and the buffer it
    leaves.  Random bytes are parameters.  Timing, progress lines and the
    benchmarks are not modelled; a complaint is one printed line of the form
    "unexpected number of collisions" or "hash depends on bytes outside key". *)
From Coq Require Import NArith ZArith List Arith Ascii String Bool.
From Verif Require Import Words HashTableModel HtModel.
Import ListNotations.
Open Scope N_scope.
Open Scope list_scope.

(** A [for] loop over [l] whose body adds keys and changes the buffer
    (as at smhasher.go:347-360, 605-620). *)
Fixpoint each {A} (f : A -> list N -> list (list N) * list N) (l : list A) (b : list N)
    : list (list N) * list N :=
  match l with
  | [] => ([], b)
  | x :: r => let '(k1, b1) := f x b in let '(k2, b2) := each f r b1 in (k1 ++ k2, b2)
  end.
(** The same with a body that may panic (as at smhasher.go:381-404). *)
Fixpoint each_opt {A} (f : A -> list N -> option (list (list N) * list N)) (l : list A) (b : list N)
    : option (list (list N) * list N) :=
  match l with
  | [] => Some ([], b)
  | x :: r => match f x b with
              | None => None
              | Some (k1, b1) => option_map (fun '(k2, b2) => (k1 ++ k2, b2)) (each_opt f r b1)
              end
  end.
(** Go string literals (as at smhasher.go:592-600). *)
Definition str (s : string) : list N := map N_of_ascii (list_ascii_of_string s).

(** smhasher.go:17-23 [HaveGoodHash] is unused by its callers; [Short]. *)
Definition Short : bool := false.

(** smhasher.go:96-100 [BytesHash], 102-109 [StringHash]: on a copy. *)
Definition BytesHash (hf : list N -> N -> N) (b : list N) (aseed : N) : N := hf b aseed.
Definition StringHash (hf : list N -> N -> N) (s : list N) (aseed : N) : N := hf s aseed.
(** smhasher.go:111-118 [Int32Hash], 120-129 [Int64Hash]. *)
Definition Int32Hash (hf : list N -> N -> N) (i aseed : N) : N :=
  hf (map (fun k => N.land (shr i k) 255) [0; 8; 16; 24]) aseed.
Definition Int64Hash (hf : list N -> N -> N) (i aseed : N) : N :=
  hf (map (fun k => N.land (shr i k) 255) [0; 8; 16; 24; 32; 40; 48; 56]) aseed.

(** smhasher.go:141-163 [TestSmhasherSanity]: the random contents of the two
    176-byte arrays in round (k, n, i) are parameters. *)
Definition sanity_round (hf : list N -> N -> N) (b c : list N) (n i : nat) : bool :=
  let c := firstn (16 + i) c ++ firstn n (skipn 16 b) ++ skipn (16 + i + n) c in
  negb (BytesHash hf (firstn n (skipn 16 b)) 0 =? BytesHash hf (firstn n (skipn (16 + i) c)) 0).
Definition sanity_rounds : list (nat * nat * nat) :=
  flat_map (fun k => flat_map (fun n => map (fun i => (k, n, i)) (seq 0 16)) (seq 0 128)) (seq 0 10).
Definition TestSmhasherSanity (hf : list N -> N -> N) (rb rc : nat -> nat -> nat -> list N) : bool * nat :=
  let bad := filter (fun '(k, n, i) => sanity_round hf (rb k n i) (rc k n i) n i) sanity_rounds in
  (negb (Nat.eqb (List.length bad) 0), List.length bad).

(** smhasher.go:165-176 [HashSet], [newHashSet], [add]; the Go map as a list
    without duplicates. *)
Record HashSet := mkHashSet { hs_m : list N; hs_n : Z }.
Definition newHashSet : HashSet := mkHashSet [] 0.
Definition add (s : HashSet) (h : N) : HashSet := mkHashSet (mem_add h (hs_m s)) (hs_n s + 1).

(** smhasher.go:186-199 [check] with 64-bit [hashSize] (:635): with
    expected = pairs/2^64, the test [collisions > expected + 30*sqrt(expected)]
    is written without fractions and square roots.  Simplified: exact
    arithmetic instead of float64, and no overflow of [n*(n-1)]. *)
Definition check (s : HashSet) : bool :=
  let collisions := (hs_n s - Z.of_nat (List.length (hs_m s)))%Z in
  let pairs := (hs_n s * (hs_n s - 1) / 2)%Z in
  let excess := (collisions * 2 ^ 64 - pairs)%Z in
  ((0 <? excess)%Z && (900 * pairs * 2 ^ 64 <? excess * excess)%Z)%bool.
(** A set filled with the given hashes, in order, and its verdict (smhasher.go:170-200). *)
Definition set_of (hs : list N) : HashSet := fold_left add hs newHashSet.
Definition verdict (hf : list N -> N -> N) (ks : list (list N)) : bool :=
  check (set_of (map (fun k => BytesHash hf k 0) ks)).
Definition complaints (l : list bool) : nat := List.length (filter (fun b => b) l).

(** smhasher.go:202-209 [TestSmhasherAppendedZeros]. *)
Definition appended_keys (s : list N) : list (list N) :=
  map (fun i => firstn i s) (seq 0 (S (List.length s))).
Definition TestSmhasherAppendedZeros (hf : list N -> N -> N) : bool :=
  verdict hf (appended_keys (str "hello" ++ repeat 0 256)).

(** smhasher.go:212-230 [TestSmhasherSmallKeys]; [n] = 256. *)
Definition small_keys (n : nat) (short : bool) : list (list N) :=
  fst (each (fun i b =>
    let b := set_nth 0 (wrap 8 (N.of_nat i)) b in
    let '(ks, b) := each (fun j b =>
      let b := set_nth 1 (wrap 8 (N.of_nat j)) b in
      let '(ks, b') := if short then ([], b) else
        each (fun k b => let b := set_nth 2 (wrap 8 (N.of_nat k)) b in ([firstn 3 b], b)) (seq 0 n) b in
      (firstn 2 b :: ks, b')) (seq 0 n) b in
    (firstn 1 b :: ks, b)) (seq 0 n) [0; 0; 0]).
Definition TestSmhasherSmallKeys (hf : list N -> N -> N) : bool := verdict hf (small_keys 256 Short).

(** smhasher.go:233-244 [TestSmhasherZeros]. *)
Definition zeros_keys (n : nat) : list (list N) := map (fun i => firstn i (repeat 0 n)) (seq 0 (S n)).
Definition TestSmhasherZeros (hf : list N -> N -> N) : bool :=
  verdict hf (zeros_keys (N.to_nat (if Short then 1024 else 256 * 1024))).

(** smhasher.go:257-286 [twoNonZero] (first loop: 264-270, second: 273-285): the keys and the buffer afterwards. *)
Definition one_pass (n : nat) (b : list N) : list (list N) * list N :=
  each (fun i b => each (fun x b =>
    let b := set_nth i (wrap 8 (N.of_nat x)) b in ([b], set_nth i 0 b)) (seq 1 255) b) (seq 0 n) b.
Definition two_pass (n : nat) (b : list N) : list (list N) * list N :=
  each (fun i b => each (fun x b =>
    let b := set_nth i (wrap 8 (N.of_nat x)) b in
    let '(ks, b) := each (fun j b => each (fun y b =>
      let b := set_nth j (wrap 8 (N.of_nat y)) b in ([b], set_nth j 0 b)) (seq 1 255) b)
      (seq (i + 1) (n - (i + 1))) b in
    (ks, set_nth i 0 b)) (seq 1 255) b) (seq 0 n) b.
Definition twoNonZero (n : nat) : list (list N) * list N :=
  let b := repeat 0 n in
  let '(k1, b1) := one_pass n b in
  let '(k2, b2) := two_pass n b1 in
  (b :: k1 ++ k2, b2).
(** smhasher.go:247-256 [TestSmhasherTwoNonzero]. *)
Definition TestSmhasherTwoNonzero (hf : list N -> N -> N) : bool :=
  verdict hf (flat_map (fun n => fst (twoNonZero n)) (seq 2 15)).

(** smhasher.go:303-311: one step of the loop of [TestSmhasherCyclic] for
    length [n], counter [i] and random bytes [rb]. *)
Definition cyclic_step (n : nat) (rb : list N) (i : nat) (b : list N) : list N :=
  let i := N.of_nat i in
  let b := set_nth 0 (wrap 8 (i * 79 mod 97)) b in
  let b := set_nth 1 (wrap 8 (i * 43 mod 137)) b in
  let b := set_nth 2 (wrap 8 (i * 151 mod 197)) b in
  let b := set_nth 3 (wrap 8 (i * 199 mod 251)) b in
  let b := firstn 4 b ++ firstn (n - 4) rb ++ skipn n b in
  fold_left (fun b j => set_nth j (nth (j - n) b 0) b) (seq n (n * 8 - n)) b.
Definition cyclic_keys (n : nat) (rb : nat -> list N) (count : nat) : list (list N) :=
  fst (each (fun i b => let b := cyclic_step n (rb i) i b in ([b], b)) (seq 0 count) (repeat 0 (8 * n))).
(** smhasher.go:289-318 [TestSmhasherCyclic]; [rb n i] are the [n-4] random bytes. *)
Definition TestSmhasherCyclic (hf : list N -> N -> N) (rb : nat -> nat -> list N) : bool * nat :=
  let l := map (fun n => verdict hf (cyclic_keys n (rb n) (N.to_nat 1000000))) (seq 4 9) in
  (existsb (fun b => b) l, complaints l).

(** smhasher.go:325 [pairs]. *)
Definition sparse_pairs : list (nat * nat) :=
  [(32, 6); (40, 6); (48, 5); (56, 5); (64, 5); (96, 4); (256, 3); (2048, 2)]%nat.
(** smhasher.go:347-357 [setbits] for [k] that is not negative. *)
Fixpoint setbits (k : nat) (b : list N) (i : nat) : list (list N) * list N :=
  match k with
  | O => ([b], b)
  | S k' =>
      let '(ks, b') := each (fun j b =>
        let b := set_nth (j / 8) (N.lor (nth (j / 8) b 0) (shlw 8 1 (N.land (N.of_nat j) 7))) b in
        let '(ks, b) := setbits k' b (j + 1) in
        (ks, set_nth (j / 8) (N.land (nth (j / 8) b 0) (notw 8 (shlw 8 1 (N.land (N.of_nat j) 7)))) b))
        (seq i (List.length b * 8 - i)) b in
      (b :: ks, b')
  end.
(** smhasher.go:339-344 [sparse], 328-338 [TestSmhasherSparse]. *)
Definition sparse_keys (n k : nat) : list (list N) := fst (setbits k (repeat 0 (n / 8)) 0).
Definition TestSmhasherSparse (hf : list N -> N -> N) : bool * nat :=
  let l := map (fun '(n, k) => verdict hf (sparse_keys n k)) sparse_pairs in
  (existsb (fun b => b) l, complaints l).

(** smhasher.go:364-370 [Permutations]. *)
Definition Permutations : list (nat * list N) :=
  [(8%nat, [0; 1; 2; 3; 4; 5; 6; 7]);
   (8%nat, map (fun x => N.shiftl x 29) [0; 1; 2; 3; 4; 5; 6; 7]);
   (20%nat, [0; 1]);
   (20%nat, [0; N.shiftl 1 31]);
   (6%nat, [0; 1; 2; 3; 4; 5; 6; 7] ++ map (fun x => N.shiftl x 29) [1; 2; 3; 4; 5; 6; 7])].
(** smhasher.go:393-405 [genPerm]; [fuel] is the number of blocks left.  [None]
    when a write is outside the buffer. *)
Fixpoint genPerm (fuel : nat) (b : list N) (s : list N) (n : nat) : option (list (list N) * list N) :=
  if Nat.eqb n (List.length b) then Some ([firstn n b], b)
  else match fuel with
       | O => None
       | S f =>
           option_map (fun '(ks, b') => (firstn n b :: ks, b')) (each_opt (fun v b =>
             if Nat.leb (n + 4) (List.length b) then
               let b := set_nth n (wrap 8 v) b in
               let b := set_nth (n + 1) (wrap 8 (shr v 8)) b in
               let b := set_nth (n + 2) (wrap 8 (shr v 16)) b in
               let b := set_nth (n + 3) (wrap 8 (shr v 24)) b in
               genPerm f b s (n + 4)
             else None) s b)
       end.
(** smhasher.go:387-392 [permutation], 374-386 [TestSmhasherPermutation]. *)
Definition permutation_keys (s : list N) (n : nat) : list (list N) :=
  match genPerm n (repeat 0 (n * 4)) s 0 with Some (ks, _) => ks | None => [] end.
Definition TestSmhasherPermutation (hf : list N -> N -> N) : bool * nat :=
  (false, complaints (map (fun '(n, s) => verdict hf (permutation_keys s n)) Permutations)).

(** smhasher.go:407-485: the [Key] interface and its three implementations. *)
Inductive skey := BytesKey (b : list N) | Int32Key (i : N) | Int64Key (i : N).
(** smhasher.go:420-424, 445-447, 468-470 [clear]. *)
Definition clear (k : skey) : skey :=
  match k with
  | BytesKey b => BytesKey (repeat 0 (List.length b))
  | Int32Key _ => Int32Key 0
  | Int64Key _ => Int64Key 0
  end.
(** smhasher.go:428-430, 451-453, 474-476 [bits]. *)
Definition bits (k : skey) : nat :=
  match k with BytesKey b => List.length b * 8 | Int32Key _ => 32 | Int64Key _ => 64 end%nat.
(** smhasher.go:431-433, 454-456, 477-479 [flipBit] for [i] that is not
    negative; [None] is an index outside the slice. *)
Definition flipBit (i : nat) (k : skey) : option skey :=
  match k with
  | BytesKey b =>
      if Nat.ltb (i / 8) (List.length b)
      then Some (BytesKey (set_nth (i / 8) (N.lxor (nth (i / 8) b 0) (shlw 8 1 (N.land (N.of_nat i) 7))) b))
      else None
  | Int32Key x => Some (Int32Key (N.lxor x (shl32 1 (N.of_nat i))))
  | Int64Key x => Some (Int64Key (N.lxor x (shl64 1 (N.of_nat i))))
  end.
(** smhasher.go:434-436, 457-459, 480-482 [hash]. *)
Definition key_hash (hf : list N -> N -> N) (k : skey) : N :=
  match k with
  | BytesKey b => BytesHash hf b 0
  | Int32Key i => Int32Hash hf i 0
  | Int64Key i => Int64Hash hf i 0
  end.

(** smhasher.go:526-531: recording the effect of one flip. *)
Definition record (g : list nat) (d : N) : list nat :=
  map (fun j => (nth j g 0 + N.to_nat (N.land (shr d (N.of_nat j)) 1))%nat) (seq 0 64).
(** smhasher.go:520-532: the loop over the bits of one key; the key and the
    grid afterwards. *)
Fixpoint flips (hf : list N -> N -> N) (h : N) (is : list nat) (k : skey) (grid : list (list nat))
    : option (skey * list (list nat)) :=
  match is with
  | [] => Some (k, grid)
  | i :: r =>
      match flipBit i k with
      | None => None
      | Some k1 =>
          let d := N.lxor h (key_hash hf k1) in
          match flipBit i k1 with
          | None => None
          | Some k2 => flips hf h r k2 (set_nth i (record (nth i grid []) d) grid)
          end
      end
  end.
(** smhasher.go:505-533 [avalancheTest1] up to the grid; the random keys are a
    parameter.  The rest of the function compares the grid to bounds and drops
    the result; see [avalanche_bounds] and [out_of_bounds] in FloatModel.v. *)
Fixpoint avalanche (hf : list N -> N -> N) (n : nat) (ks : list skey) (grid : list (list nat))
    : option (list (list nat)) :=
  match ks with
  | [] => Some grid
  | k :: r => match flips hf (key_hash hf k) (seq 0 n) k grid with
              | None => None
              | Some (_, grid) => avalanche hf n r grid
              end
  end.
Definition avalanche_grid (hf : list N -> N -> N) (n : nat) (ks : list skey) : option (list (list nat)) :=
  avalanche hf n ks (repeat (repeat 0%nat 64) n).
(** smhasher.go:488-504 [TestSmhasherAvalanche]: never complains. *)
Definition TestSmhasherAvalanche (hf : list N -> N -> N) : bool * nat := (false, 0%nat).

(** smhasher.go:576-581: the key of [windowed] for rotation [r] and pattern [i]. *)
Fixpoint window_flips (r i : nat) (js : list nat) (k : skey) : option skey :=
  match js with
  | [] => Some k
  | j :: l => if N.testbit (N.of_nat i) (N.of_nat j)
              then match flipBit ((j + r) mod bits k) k with Some k => window_flips r i l k | None => None end
              else window_flips r i l k
  end.
Definition window_key (r i : nat) (k : skey) : option skey := window_flips r i (seq 0 16) (clear k).
(** smhasher.go:567-586 [windowed]: the keys hashed for rotation [r]. *)
Fixpoint window_loop (r : nat) (is : list nat) (k : skey) : option (list skey) :=
  match is with
  | [] => Some []
  | i :: l => match window_key r i k with
              | None => None
              | Some k => option_map (cons k) (window_loop r l k)
              end
  end.
Definition window_keys (r count : nat) (k : skey) : option (list skey) := window_loop r (seq 0 count) k.
Definition windowed (hf : list N -> N -> N) (k : skey) : list bool :=
  map (fun r => match window_keys r (N.to_nat 65536) k with
                | Some ks => check (set_of (map (key_hash hf) ks))
                | None => false
                end) (seq 0 (bits k)).
(** smhasher.go:561-566 [TestSmhasherWindowed]. *)
Definition TestSmhasherWindowed (hf : list N -> N -> N) : bool * nat :=
  (false, complaints (windowed hf (Int32Key 0) ++ windowed hf (Int64Key 0) ++ windowed hf (BytesKey (repeat 0 128)))).

(** smhasher.go:600 [S]. *)
Definition alphabet : list N := str "ABCDEFGHIJKLMNOPQRSTabcdefghijklmnopqrst0123456789".
(** Go's [copy(b[off:], src)] (smhasher.go:603-604). *)
Definition copy_at (off : nat) (src b : list N) : list N :=
  let src := firstn (List.length b - off) src in
  firstn off b ++ src ++ skipn (off + List.length src) b.
(** smhasher.go:598-621 [text]: the keys. *)
Definition text_keys (S0 : list N) (prefix suffix : list N) : list (list N) :=
  let p := List.length prefix in
  let b := repeat 0 (p + 4 + List.length suffix) in
  let b := copy_at 0 prefix b in
  let b := copy_at (p + 4) suffix b in
  fst (each (fun i b => let b := set_nth p i b in
       each (fun j b => let b := set_nth (p + 1) j b in
       each (fun k b => let b := set_nth (p + 2) k b in
       each (fun x b => let b := set_nth (p + 3) x b in ([b], b)) S0 b) S0 b) S0 b) S0 b).
(** smhasher.go:589-597 [TestSmhasherText]. *)
Definition TestSmhasherText (hf : list N -> N -> N) : bool * nat :=
  (false, complaints [verdict hf (text_keys alphabet (str "Foo") (str "Bar"));
                      verdict hf (text_keys alphabet (str "FooBar") []);
                      verdict hf (text_keys alphabet [] (str "FooBar"))]).

(** smhasher.go:624-632 [TestSmhasherSeed]. *)
Definition TestSmhasherSeed (hf : list N -> N -> N) : bool :=
  check (set_of (map (fun i => StringHash hf (str "hello") (N.of_nat i)) (seq 0 (N.to_nat 100000)))).

(** smhasher.go:660-677: the functions and [Tests], with the printed names. *)
Inductive stest := SSanity | SSeed | SText | SWindowed | SAvalanche | SPermutation | SSparse | SCyclic
  | STwoNonzero | SSmallKeys | SZeros | SAppendedZeros.
Definition STests : list (stest * string) :=
  [(SSanity, "TestSmhasherSanity"); (SSeed, "TestSmhasherSeed"); (SText, "TestSmhasherText");
   (SWindowed, "TestSmhasherWindowed"); (SAvalanche, "TestSmhasherAvalanche");
   (SPermutation, "TestSmhasherPermutation"); (SSparse, "TestSmhasherSparse");
   (SCyclic, "TestSmhasherCyclic"); (STwoNonzero, "TestSmhasherSmallKeys");
   (SSmallKeys, "TestSmhasherZeros"); (SAppendedZeros, "TestSmhasherAppendedZeros")]%string.
Definition once (b : bool) : bool * nat := (b, if b then 1%nat else 0%nat).
(** The random bytes of a run (smhasher.go:142, 296, 637-641). *)
Record randoms := mkRandoms { r_b : nat -> nat -> nat -> list N; r_c : nat -> nat -> nat -> list N;
                              r_cyclic : nat -> nat -> list N }.
(** Each test function: returned value and number of complaints (smhasher.go:660-677). *)
Definition run_stest (hf : list N -> N -> N) (rs : randoms) (t : stest) : bool * nat :=
  match t with
  | SSanity => TestSmhasherSanity hf (r_b rs) (r_c rs)
  | SSeed => once (TestSmhasherSeed hf)
  | SText => TestSmhasherText hf
  | SWindowed => TestSmhasherWindowed hf
  | SAvalanche => TestSmhasherAvalanche hf
  | SPermutation => TestSmhasherPermutation hf
  | SSparse => TestSmhasherSparse hf
  | SCyclic => TestSmhasherCyclic hf (r_cyclic rs)
  | STwoNonzero => once (TestSmhasherTwoNonzero hf)
  | SSmallKeys => once (TestSmhasherSmallKeys hf)
  | SZeros => once (TestSmhasherZeros hf)
  | SAppendedZeros => once (TestSmhasherAppendedZeros hf)
  end.
(** smhasher.go:689-703 [RunSMhasher]: the name printed before each test when
    verbose, and the number of complaints it prints; nothing is returned.  [hf]
    is the hash selected by the global of package hashf; the name given as an
    argument is stored and not read. *)
Definition RunSMhasher (hf : list N -> N -> N) (rs : randoms) (name : string) (v : bool)
    : list (option string * nat) :=
  map (fun '(t, desc) => (if v then Some desc else None, snd (run_stest hf rs t))) STests.
