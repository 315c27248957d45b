(** Model of what /repo/ht.go does with "-sm", "-b" and "-hcb": the SMHasher tests
    and the benchmarks, run on the hash function that package hashf selects by
    name.  Here the hash is not a parameter: every call goes through the model of
    [Hashf], with its digests, scratch slices, counters and panics.  Times, rates
    and other progress lines are not modelled. *)
From Coq Require Import NArith ZArith List Arith String Bool.
From Verif Require Import Words Mem KeccakModel HashfModel SpookyModel SmhModel HtModel.
Import ListNotations.
Open Scope N_scope.
Open Scope list_scope.

(** Go code whose only effects are calls of hashf.Hashf: [Ask b o n seed] hashes
    the slice [b[o:o+n]] of the array [b].  Simplified: each call gets an array of
    its own with the contents of that moment, also where the code reuses one
    (calls of hashf.go:257, as at smhasher.go:96-128). *)
Inductive prog (A : Type) :=
| Done (a : A)
| Ask (b : list N) (o n : nat) (seed : N) (f : N -> prog A).
Arguments Done {A} a.
Arguments Ask {A} b o n seed f.
Fixpoint bind {A B} (p : prog A) (f : A -> prog B) : prog B :=
  match p with Done a => f a | Ask b o n s g => Ask b o n s (fun h => bind (g h) f) end.
(** A loop that runs one program for each element and keeps the results
    (as at smhasher.go:147-162). *)
Fixpoint each_of {A B} (f : A -> prog B) (l : list A) : prog (list B) :=
  match l with
  | [] => Done []
  | a :: l => bind (f a) (fun x => bind (each_of f l) (fun r => Done (x :: r)))
  end.
(** The execution when [Hf2] is [name] (Hf2, hashf.go:57). *)
Fixpoint through {A} (e : ext) (grow : nat -> nat -> nat) (name : string) (p : prog A) (w : world) : res (A * world) :=
  match p with
  | Done a => Ok (a, w)
  | Ask b o n s f =>
      x <~ Hashf e grow (withMem w (mem w ++ [b])) name (mkSlice (length (mem w)) o n (length b - o)) s ;;
      through e grow name (f (snd x)) (fst x)
  end.

(** smhasher.go:96-100 [BytesHash] of a whole array, 102-109 [StringHash]. *)
Definition ask (k : list N) (seed : N) : prog N := Ask k 0 (length k) seed (fun h => Done h).
(** smhasher.go:111-128 [Int32Hash], [Int64Hash]: the bytes hashed; 434-436,
    457-459, 480-482 [hash] of a [Key]. *)
Definition key_sent (k : skey) : list N :=
  match k with
  | BytesKey b => b
  | Int32Key i => map (fun s => N.land (shr i s) 255) [0; 8; 16; 24]
  | Int64Key i => map (fun s => N.land (shr i s) 255) [0; 8; 16; 24; 32; 40; 48; 56]
  end.
(** smhasher.go:174-199: add keys to a new set, then [check]. *)
Definition askVerdict (ks : list (list N)) : prog bool :=
  bind (each_of (fun k => ask k 0) ks) (fun hs => Done (check (set_of hs))).

(** smhasher.go:141-163 [TestSmhasherSanity]: [b[16:16+n]] and [c[16+i:16+i+n]] of
    two arrays of 176 bytes. *)
Definition askSanity (rb rc : nat -> nat -> nat -> list N) : prog (bool * nat) :=
  bind (each_of (fun '(k, n, i) =>
          let b := rb k n i in
          let c := firstn (16 + i) (rc k n i) ++ firstn n (skipn 16 b) ++ skipn (16 + i + n) (rc k n i) in
          Ask b 16 n 0 (fun x => Ask c (16 + i) n 0 (fun y => Done (negb (x =? y))))) sanity_rounds)
       (fun l => Done (existsb (fun b => b) l, complaints l)).
(** smhasher.go:289-318 [TestSmhasherCyclic]. *)
Definition askCyclic (rb : nat -> nat -> list N) : prog (bool * nat) :=
  bind (each_of (fun n => askVerdict (cyclic_keys n (rb n) (N.to_nat 1000000))) (seq 4 9))
       (fun l => Done (existsb (fun b => b) l, complaints l)).
(** smhasher.go:328-344 [TestSmhasherSparse], [sparse]. *)
Definition askSparse : prog (bool * nat) :=
  bind (each_of (fun '(n, k) => askVerdict (sparse_keys n k)) sparse_pairs)
       (fun l => Done (existsb (fun b => b) l, complaints l)).
(** smhasher.go:374-392 [TestSmhasherPermutation], [permutation]. *)
Definition askPermutation : prog (bool * nat) :=
  bind (each_of (fun '(n, s) => askVerdict (permutation_keys s n)) Permutations) (fun l => Done (false, complaints l)).
(** smhasher.go:520-525: the loop over the bits of one key; what is recorded in the
    grid is left out.  [None] is an index outside the key. *)
Fixpoint askFlips (is : list nat) (k : skey) : prog (option skey) :=
  match is with
  | [] => Done (Some k)
  | i :: r =>
      match flipBit i k with
      | None => Done None
      | Some k1 =>
          bind (ask (key_sent k1) 0) (fun _ =>
            match flipBit i k1 with None => Done None | Some k2 => askFlips r k2 end)
      end
  end.
(** smhasher.go:488-560 [TestSmhasherAvalanche], [avalancheTest1]: the random keys
    of the eight calls are a parameter; the grids are compared to bounds and
    dropped. *)
Definition askAvalanche (ak : list (list skey)) : prog (bool * nat) :=
  bind (each_of (each_of (fun k => bind (ask (key_sent k) 0) (fun _ => askFlips (seq 0 (bits k)) k))) ak)
       (fun _ => Done (false, 0%nat)).
(** smhasher.go:561-586 [TestSmhasherWindowed], [windowed]. *)
Definition askWindowed : prog (bool * nat) :=
  let windowed k :=
    each_of (fun r => match window_keys r (N.to_nat 65536) k with
                      | Some ks => askVerdict (map key_sent ks)
                      | None => Done false
                      end) (seq 0 (bits k)) in
  bind (windowed (Int32Key 0)) (fun a => bind (windowed (Int64Key 0)) (fun b =>
    bind (windowed (BytesKey (repeat 0 128))) (fun c => Done (false, complaints (a ++ b ++ c))))).
(** smhasher.go:589-621 [TestSmhasherText], [text]. *)
Definition askText : prog (bool * nat) :=
  bind (askVerdict (text_keys alphabet (str "Foo") (str "Bar"))) (fun a =>
    bind (askVerdict (text_keys alphabet (str "FooBar") [])) (fun b =>
      bind (askVerdict (text_keys alphabet [] (str "FooBar"))) (fun c => Done (false, complaints [a; b; c])))).
(** smhasher.go:624-632 [TestSmhasherSeed]. *)
Definition askSeed : prog bool :=
  bind (each_of (fun i => ask (str "hello") (N.of_nat i)) (seq 0 (N.to_nat 100000))) (fun hs => Done (check (set_of hs))).
(** The random bytes of a run: those of [randoms] and the keys of
    [TestSmhasherAvalanche] (smhasher.go:142, 296, 507, 637-641). *)
Record run_randoms := mkRun { rr_of : randoms; rr_keys : list (list skey) }.
(** smhasher.go:660-677: the functions of [Tests]. *)
Definition ask_stest (rr : run_randoms) (t : stest) : prog (bool * nat) :=
  let once p := bind p (fun b => Done (once b)) in
  match t with
  | SSanity => askSanity (r_b (rr_of rr)) (r_c (rr_of rr))
  | SSeed => once askSeed
  | SText => askText
  | SWindowed => askWindowed
  | SAvalanche => askAvalanche (rr_keys rr)
  | SPermutation => askPermutation
  | SSparse => askSparse
  | SCyclic => askCyclic (r_cyclic (rr_of rr))
  | STwoNonzero => once (askVerdict (flat_map (fun n => fst (twoNonZero n)) (seq 2 15)))
  | SSmallKeys => once (askVerdict (small_keys 256 Short))
  | SZeros => once (askVerdict (zeros_keys (N.to_nat (256 * 1024))))
  | SAppendedZeros => once (askVerdict (appended_keys (str "hello" ++ repeat 0 256)))
  end.
(** smhasher.go:689-703 [RunSMhasher]. *)
Definition askSMhasher (rr : run_randoms) (v : bool) : prog (list (option string * nat)) :=
  each_of (fun '(t, desc) => bind (ask_stest rr t) (fun r => Done (if v then Some desc else None, snd r))) STests.

(** ht.go:479 [keySizes]. *)
Definition keySizes : list N := [4; 8; 16; 32; 64; 512; 1024; 4096].
(** Go's [int]: wraps at 64 bits (ht.go:594-602). *)
Definition swrap (z : Z) : Z := ((z + 2 ^ 63) mod 2 ^ 64 - 2 ^ 63)%Z.
(** ht.go:594-602, 653: the columns ksize, n and size of the lines that the
    benchmarks print; [n] is divided at key size 512. *)
Fixpoint bench_lines (n : Z) (ks : list N) : list (N * Z * Z) :=
  match ks with
  | [] => []
  | ksiz :: r =>
      let n := if ksiz =? 512 then Z.quot n 10 else n in
      (ksiz, n, swrap (n * Z.of_N ksiz)) :: bench_lines n r
  end.
(** ht.go:586-668 [benchmark32g] with a nil [h], as all callers do: the loops at
    632-635 and 639-644 hash [bs[:ksiz]], 16384 zero bytes that nothing changes.
    The dead code on "-cd" only prints. *)
Definition askBenchmark (n : Z) : prog (list (N * Z * Z)) :=
  let lines := bench_lines n keySizes in
  bind (each_of (fun '(ksiz, n, _) =>
          each_of (fun _ => Ask (repeat 0 (N.to_nat 16384)) 0 (N.to_nat ksiz) 0 (fun h => Done h)) (seq 0 (Z.to_nat n))) lines)
       (fun _ => Done lines).

(** ht.go:483-584 [benchmark32s]: the loops at 509-536 and 540-565 hash [bs[:ksiz]] with
    spooky.Hash64; the second result is what they compute and throw away. *)
Fixpoint spooky_calls (b : list N) (n : nat) : res (list N) :=
  match n with O => Ok [] | S n => h <~ SpookyModel.spooky_hash64 b 0 ;; r <~ spooky_calls b n ;; Ok (h :: r) end.
Fixpoint spooky_lines (bs : list N) (l : list (N * Z * Z)) : res (list N) :=
  match l with
  | [] => Ok []
  | (ksiz, n, _) :: l => h <~ spooky_calls (firstn (N.to_nat ksiz) bs) (Z.to_nat n) ;; r <~ spooky_lines bs l ;; Ok (h ++ r)
  end.
Definition benchmark32s (n : Z) : res (list (N * Z * Z) * list N) :=
  let lines := bench_lines n keySizes in
  r <~ spooky_lines (repeat 0 (N.to_nat 16384)) lines ;; Ok (lines, r).

(** ht.go:806-912: the jobs of "-sm", "-b" and "-hcb", one after the other; [None]
    is a panic, which ends the program. *)
Inductive report :=
| Tested (name : string) (l : list (option string * nat))
| Timed (name : string) (l : list (N * Z * Z))
| TimedSpooky (l : list (N * Z * Z)).
Fixpoint run_reports (e : ext) (grow : nat -> nat -> nat) (rr : run_randoms) (v : bool) (n : Z) (js : list job) (w : world)
    : list report * bool :=
  match js with
  | [] => ([], true)
  | SMHasher name :: js =>
      match through e grow name (askSMhasher rr v) w with
      | Ok (l, w) => let '(r, ok) := run_reports e grow rr v n js w in (Tested name l :: r, ok)
      | _ => ([], false)
      end
  | Benchmark name :: js =>
      match through e grow name (askBenchmark n) w with
      | Ok (l, w) => let '(r, ok) := run_reports e grow rr v n js w in (Timed name l :: r, ok)
      | _ => ([], false)
      end
  | HardCoded :: js =>
      match benchmark32s n with
      | Ok (l, _) => let '(r, ok) := run_reports e grow rr v n js w in (TimedSpooky l :: r, ok)
      | _ => ([], false)
      end
  | Run _ _ _ :: js => run_reports e grow rr v n js w
  end.
