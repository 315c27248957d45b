(** Model of package hashf (hashf/hashf.go): the dispatcher [Hashf] with the digests and
    fingerprint buffers it keeps between calls.
    Packages outside this repository (leb.io/aeshash, hash/adler32, crypto/sha1, whirlpool,
    blake2b-simd) and the cgo package keccak are parameters ([ext]): a digest is assumed to
    give, after Reset and one Write, a function of the written bytes.
    The globals t, l, b, c of lines 251-254 are assigned before every use and are local here;
    ConcModel.v, with several goroutines, has them. *)
From Coq Require Import NArith ZArith List Arith Lia String.
From Verif Require Import Words Mem Mm3Model KeccakModel.
From Verif Require GomapModel SmallModel JenkinsModel SpookyModel FarmModel MetroModel SipModel.
Import ListNotations.
Open Scope N_scope.

(** Functions of other packages (imports, hashf.go:5-31). *)
Record ext := mkExt {
  aes_Hash : list N -> N -> N;      (** aeshash.Hash *)
  aes_Hash64 : N -> N -> N;         (** aeshash.Hash64 *)
  adler32 : list N -> N;            (** hash/adler32 *)
  sha1 : list N -> list N;          (** crypto/sha1 *)
  whirlpool : list N -> list N;     (** github.com/jzelinskie/whirlpool *)
  blake2b : list N -> list N;       (** github.com/minio/blake2b-simd, New256 *)
  keccak224 : list N -> list N      (** leb.io/hashland/keccak, New224 *)
}.
(** The package's variables: memory, hashf.go:221-226 (fp8 .. fp64) and 228 (seeds), the objects
    of 34-49 that are used. *)
Record world := mkWorld {
  mem : heap; fp8 : slice; fp20 : slice; fp28 : slice; fp32 : slice; fp64 : slice; seeds : list N;
  k643 : keccak; k644 : keccak; k648 : keccak; k160 : keccak;
  m332 : mdigest N; m364 : mdigest (N * N); nh : N; nhf64 : N }.

(** hashf.go:222-228 and init, 523-540; [m] is the memory before. *)
Definition init (m : heap) : world :=
  let a := length m in
  mkWorld (m ++ [repeat 0 8; repeat 0 20; repeat 0 28; repeat 0 32; repeat 0 64])
    (mkSlice a 0 8 8) (mkSlice (a + 1) 0 20 20) (mkSlice (a + 2) 0 28 28) (mkSlice (a + 3) 0 32 32) (mkSlice (a + 4) 0 64 64)
    [0; 1; 2; 3; 4; 5; 6; 7; 8; 9; 10; 11; 12; 13; 14; 15]
    (NewCustom 64 3) (NewCustom 64 4) (NewCustom 64 8) New160 mm_new32 mm_new64 SmallModel.null_New SmallModel.null_New.

(** sipSeedSet, hashf.go:232-237. *)
Definition sipSeedSet (seed : N) : list N :=
  let s := [N.land seed 0xFF; N.land (shr seed 8) 0xFF; N.land (shr seed 16) 0xFF; N.land (shr seed 24) 0xFF;
            N.land (shr seed 32) 0xFF; N.land (shr seed 40) 0xFF; N.land (shr seed 48) 0xFF; N.land (shr seed 56) 0xFF] in
  s ++ s.

(** uint64(x[0])<<56 | ... | uint64(x[7])<<0, e.g. hashf.go:410. *)
Definition be8 (x : list N) : res N :=
  x0 <~ idx x 0 ;; x1 <~ idx x 1 ;; x2 <~ idx x 2 ;; x3 <~ idx x 3 ;; x4 <~ idx x 4 ;; x5 <~ idx x 5 ;; x6 <~ idx x 6 ;; x7 <~ idx x 7 ;;
  Ok (N.lor (N.lor (N.lor (N.lor (N.lor (N.lor (N.lor (shl64 x0 56) (shl64 x1 48)) (shl64 x2 40)) (shl64 x3 32)) (shl64 x4 24)) (shl64 x5 16)) (shl64 x6 8)) (shl64 x7 0)).
(** fp = fp[0:0]; d.Reset(); d.Write(k); fp = d.Sum(fp); and h from the first eight bytes of fp
    (hashf.go:401-410 and the like), for the digest of another package. *)
Definition ext_digest (grow : nat -> nat -> nat) (m : heap) (fp : slice) (digest : list N) : res (heap * slice * N) :=
  let '(m, fp) := append grow m (upto fp 0) digest in
  h <~ be8 (read m fp) ;; Ok (m, fp, h).
(** The same for a keccakpg object, hashf.go:411-417, 418-424, 425-431, 432-447. *)
Definition pg_digest (grow : nat -> nat -> nat) (m : heap) (fp : slice) (d : keccak) (k : slice) : res (heap * slice * keccak * N) :=
  let fp := upto fp 0 in
  let d := Reset d in
  '(m, d, n) <~ Write grow (S (len k)) m d k ;;
  '(m, fp) <~ Sum grow m d fp ;;
  h <~ be8 (read m fp) ;; Ok (m, fp, d, h).

(** Updates of single variables (assignments of Hashf, hashf.go:256-521). *)
Definition set_mem_fp8 w m fp := mkWorld m fp (fp20 w) (fp28 w) (fp32 w) (fp64 w) (seeds w) (k643 w) (k644 w) (k648 w) (k160 w) (m332 w) (m364 w) (nh w) (nhf64 w).
Definition set_mem_fp20 w m fp := mkWorld m (fp8 w) fp (fp28 w) (fp32 w) (fp64 w) (seeds w) (k643 w) (k644 w) (k648 w) (k160 w) (m332 w) (m364 w) (nh w) (nhf64 w).
Definition set_mem_fp28 w m fp := mkWorld m (fp8 w) (fp20 w) fp (fp32 w) (fp64 w) (seeds w) (k643 w) (k644 w) (k648 w) (k160 w) (m332 w) (m364 w) (nh w) (nhf64 w).
Definition set_mem_fp32 w m fp := mkWorld m (fp8 w) (fp20 w) (fp28 w) fp (fp64 w) (seeds w) (k643 w) (k644 w) (k648 w) (k160 w) (m332 w) (m364 w) (nh w) (nhf64 w).
Definition set_mem_fp64 w m fp := mkWorld m (fp8 w) (fp20 w) (fp28 w) (fp32 w) fp (seeds w) (k643 w) (k644 w) (k648 w) (k160 w) (m332 w) (m364 w) (nh w) (nhf64 w).
Definition set_seeds w s := mkWorld (mem w) (fp8 w) (fp20 w) (fp28 w) (fp32 w) (fp64 w) s (k643 w) (k644 w) (k648 w) (k160 w) (m332 w) (m364 w) (nh w) (nhf64 w).
Definition set_k643 w k := mkWorld (mem w) (fp8 w) (fp20 w) (fp28 w) (fp32 w) (fp64 w) (seeds w) k (k644 w) (k648 w) (k160 w) (m332 w) (m364 w) (nh w) (nhf64 w).
Definition set_k644 w k := mkWorld (mem w) (fp8 w) (fp20 w) (fp28 w) (fp32 w) (fp64 w) (seeds w) (k643 w) k (k648 w) (k160 w) (m332 w) (m364 w) (nh w) (nhf64 w).
Definition set_k648 w k := mkWorld (mem w) (fp8 w) (fp20 w) (fp28 w) (fp32 w) (fp64 w) (seeds w) (k643 w) (k644 w) k (k160 w) (m332 w) (m364 w) (nh w) (nhf64 w).
Definition set_k160 w k := mkWorld (mem w) (fp8 w) (fp20 w) (fp28 w) (fp32 w) (fp64 w) (seeds w) (k643 w) (k644 w) (k648 w) k (m332 w) (m364 w) (nh w) (nhf64 w).
Definition set_m332 w d := mkWorld (mem w) (fp8 w) (fp20 w) (fp28 w) (fp32 w) (fp64 w) (seeds w) (k643 w) (k644 w) (k648 w) (k160 w) d (m364 w) (nh w) (nhf64 w).
Definition set_m364 w d := mkWorld (mem w) (fp8 w) (fp20 w) (fp28 w) (fp32 w) (fp64 w) (seeds w) (k643 w) (k644 w) (k648 w) (k160 w) (m332 w) d (nh w) (nhf64 w).
Definition set_nh w c := mkWorld (mem w) (fp8 w) (fp20 w) (fp28 w) (fp32 w) (fp64 w) (seeds w) (k643 w) (k644 w) (k648 w) (k160 w) (m332 w) (m364 w) c (nhf64 w).
Definition set_nhf64 w c := mkWorld (mem w) (fp8 w) (fp20 w) (fp28 w) (fp32 w) (fp64 w) (seeds w) (k643 w) (k644 w) (k648 w) (k160 w) (m332 w) (m364 w) (nh w) c.

(** Results that leave the variables alone (the cases of Hashf, hashf.go:257-517). *)
Definition pure (w : world) (r : res N) : res (world * N) := h <~ r ;; Ok (w, h).
Definition xor_pair (r : res (N * N)) : res N := '(t, l) <~ r ;; Ok (xor t l).
Definition first (r : res (N * N)) : res N := '(t, _) <~ r ;; Ok t.
Definition second (r : res (N * N)) : res N := '(_, l) <~ r ;; Ok l.

(** Hashf, hashf.go:256-521; [name] is the global Hf2 (line 56), [k] the key, a slice of memory;
    printing is left out. *)
Definition Hashf (e : ext) (grow : nat -> nat -> nat) (w : world) (name : string) (k : slice) (seed : N) : res (world * N) :=
  let kb := read (mem w) k in
  let n := Z.of_nat (len k) in
  let seed32 := wrap 32 seed in
  (if name =? "perfecthash" then
     pure w (k3 <~ idx kb 3 ;; k2 <~ idx kb 2 ;; k1 <~ idx kb 1 ;; k0 <~ idx kb 0 ;;
             Ok (N.lor (N.lor (N.lor (shl64 k3 24) (shl64 k2 16)) (shl64 k1 8)) (shl64 k0 0)))
   else if name =? "nullhash" then
     let c := SmallModel.null_Reset (nh w) in
     let '(c, _) := SmallModel.null_Write c kb in
     let '(c, h) := SmallModel.null_Sum64 c in Ok (set_nh w c, h)
   else if name =? "nullhashF64ns" then
     let '(c, h) := SmallModel.null_Hash64S (nhf64 w) kb 0 in Ok (set_nhf64 w c, h)
   else if name =? "gomap64" then pure w (GomapModel.Hash64 kb seed)
   else if name =? "gomap32" then pure w (GomapModel.Hash32 kb seed32)
   else if name =? "aeshash64" then pure w (Ok (aes_Hash e kb seed))
   else if name =? "aeshash32I" then
     pure w (k0 <~ idx kb 0 ;; k1 <~ idx kb 1 ;; k2 <~ idx kb 2 ;; k3 <~ idx kb 3 ;;
             Ok (aes_Hash64 e (N.lor (N.lor (N.lor (shl64 k0 24) (shl64 k1 16)) (shl64 k2 8)) (shl64 k3 0)) seed))
   else if name =? "aeshash64I" then pure w (x <~ be8 kb ;; Ok (aes_Hash64 e x seed))
   else if name =? "adler32" then pure w (Ok (adler32 e kb))
   else if name =? "sbox" then pure w (SmallModel.Sbox kb seed32)
   else if name =? "CrapWow" then pure w (SmallModel.CrapWow kb seed32)
   else if name =? "MaHash8v64" then pure w (SmallModel.MaHash8v64 kb)
   else if name =? "j364" then
     pure w ('(c, b) <~ JenkinsModel.jenkins364 kb n seed32 seed32 ;; Ok (N.lor (shl64 b 32) c))
   else if name =? "j332c" then pure w (first (JenkinsModel.jenkins364 kb n seed32 seed32))
   else if name =? "j332b" then pure w (second (JenkinsModel.jenkins364 kb n seed32 seed32))
   else if name =? "j232" then pure w (JenkinsModel.hash232 kb seed32)
   else if name =? "j264" then pure w (JenkinsModel.hash264 kb seed)
   else if name =? "j264l" then pure w (h <~ JenkinsModel.hash264 kb seed ;; Ok (N.land h 0xFFFFFFFF))
   else if name =? "j264h" then pure w (h <~ JenkinsModel.hash264 kb seed ;; Ok (N.land (shr h 32) 0xFFFFFFFF))
   else if name =? "j264xor" then
     pure w (h <~ JenkinsModel.hash264 kb seed ;;
             Ok (xor (wrap 32 (N.land h 0xFFFFFFFF)) (wrap 32 (N.land (shr h 32) 0xFFFFFFFF))))
   else if name =? "spooky32" then pure w (SpookyModel.spooky_hash32 kb seed32)
   else if name =? "spooky64" then pure w (SpookyModel.spooky_hash64 kb seed)
   else if name =? "spooky128h" then pure w (first (SpookyModel.spooky_hash128 kb seed))
   else if name =? "spooky128l" then pure w (second (SpookyModel.spooky_hash128 kb seed))
   else if name =? "spooky128xor" then pure w (xor_pair (SpookyModel.spooky_hash128 kb seed))
   else if name =? "murmur332" then
     let d := mm_reset 0 (m332 w) in let d := fst (mm_write32 d kb) in Ok (set_m332 w d, mm_dsum32 d)
   else if name =? "murmur364" then
     let d := mm_reset (0, 0) (m364 w) in let d := fst (mm_write128 d kb) in Ok (set_m364 w d, mm_dsum64 d)
   else if name =? "siphash64" then pure w (Ok (SipModel.sip_hash 0 0 kb))
   else if name =? "siphash64pg" then
     let w := set_seeds w (sipSeedSet seed) in
     match SipModel.pg_siphash kb (seeds w) 2 4 false with Some (h, _) => Ok (w, h) | None => Panics end
   else if name =? "FarmHash32" then pure w (h <~ FarmModel.farm_hash32 kb ;; Ok (N.land h 0xFFFFFFFF))
   else if name =? "FarmHash64" then pure w (FarmModel.farm_hash64 kb)
   else if name =? "FarmHash128-high" then pure w (first (FarmModel.farm_hash128 kb))
   else if name =? "FarmHash128-low" then pure w (second (FarmModel.farm_hash128 kb))
   else if name =? "FarmHash128-xor" then pure w (xor_pair (FarmModel.farm_hash128 kb))
   else if name =? "MetroHash64-1" then pure w (MetroModel.hash64_1 kb seed32)
   else if name =? "MetroHash64-2" then pure w (MetroModel.hash64_2 kb seed32)
   else if name =? "MetroHash128-1h" then pure w (first (MetroModel.hash128_1 kb seed32))
   else if name =? "MetroHash128-1l" then pure w (second (MetroModel.hash128_1 kb seed32))
   else if name =? "MetroHash128-1xor" then pure w (xor_pair (MetroModel.hash128_1 kb seed32))
   else if name =? "MetroHash128-2h" then pure w (first (MetroModel.hash128_2 kb seed32))
   else if name =? "MetroHash128-2l" then pure w (second (MetroModel.hash128_2 kb seed32))
   else if name =? "MetroHash128-2xor" then pure w (xor_pair (MetroModel.hash128_2 kb seed32))
   else if name =? "keccak224" then
     '(m, fp, h) <~ ext_digest grow (mem w) (fp28 w) (keccak224 e kb) ;; Ok (set_mem_fp28 w m fp, h)
   else if name =? "keccakpg643" then
     '(m, fp, d, h) <~ pg_digest grow (mem w) (fp8 w) (k643 w) k ;; Ok (set_k643 (set_mem_fp8 w m fp) d, h)
   else if name =? "keccakpg644" then
     '(m, fp, d, h) <~ pg_digest grow (mem w) (fp8 w) (k644 w) k ;; Ok (set_k644 (set_mem_fp8 w m fp) d, h)
   else if name =? "keccakpg648" then
     '(m, fp, d, h) <~ pg_digest grow (mem w) (fp8 w) (k648 w) k ;; Ok (set_k648 (set_mem_fp8 w m fp) d, h)
   else if name =? "keccakpg160" then
     '(m, fp, d, h) <~ pg_digest grow (mem w) (fp32 w) (k160 w) k ;; Ok (set_k160 (set_mem_fp32 w m fp) d, h)
   else if name =? "whirlpool" then
     '(m, fp, h) <~ ext_digest grow (mem w) (fp64 w) (whirlpool e kb) ;; Ok (set_mem_fp64 w m fp, h)
   else if name =? "blake2b" then
     '(m, fp, h) <~ ext_digest grow (mem w) (fp32 w) (blake2b e kb) ;; Ok (set_mem_fp32 w m fp, h)
   else if name =? "sha1" then
     '(m, fp, h) <~ ext_digest grow (mem w) (fp20 w) (sha1 e kb) ;; Ok (set_mem_fp20 w m fp, h)
   else Panics)%string.

(** HashFunctions, hashf.go:90-156: names (the keys of the map) and announced sizes in bits. *)
Definition HashFunctions : list (string * N) := [
  ("perfecthash", 64); ("nullhash", 64); ("nullhashF64ns", 64); ("aeshash64", 64); ("siphash64", 64); ("siphash64pg", 64);
  ("MaHash8v64", 64); ("spooky32", 32); ("spooky64", 64); ("spooky128h", 64); ("spooky128l", 64); ("spooky128xor", 64);
  ("j364", 64); ("j264", 64); ("j332c", 32); ("j332b", 32); ("j232", 32); ("j264l", 32); ("j264h", 32); ("j264xor", 32); ("sbox", 32);
  ("gomap32", 32); ("gomap64", 64); ("murmur332", 32); ("murmur364", 64); ("FarmHash32", 32); ("FarmHash64", 64); ("FarmHash128", 128);
  ("MetroHash64-1", 64); ("MetroHash64-2", 64); ("MetroHash128-1", 128); ("MetroHash128-2", 128);
  ("keccak224", 64); ("keccakpg643", 64); ("keccakpg644", 64); ("keccakpg648", 64); ("sha1", 64); ("keccak160", 64);
  ("whirlpool", 64); ("blake2b", 64); ("CrapWow", 32); ("adler32", 32)]%string.
(** TestHashFunctions, hashf.go:166-181. *)
Definition TestHashFunctions : list string := [
  "nullhash"; "aeshash64"; "gomap64"; "j364"; "j264"; "murmur364"; "siphash64"; "siphash64pg";
  "MaHash8v64"; "spooky64"; "spooky128h"; "spooky128l"; "spooky128xor";
  "murmur332"; "j332c"; "j332b"; "j232"; "j264l"; "j264h"; "j264xor"; "spooky32"; "sbox"; "gomap32";
  "FarmHash32"; "FarmHash64"; "FarmHash128-low"; "FarmHash128-high"; "FarmHash128-xor";
  "MetroHash128-2l"; "MetroHash128-2h"; "MetroHash128-2xor"; "MetroHash64-1"; "MetroHash64-2";
  "MetroHash128-1l"; "MetroHash128-1h"; "MetroHash128-1xor"; "MetroHash128-2l"; "MetroHash128-2h"; "MetroHash128-2xor";
  "sha1"; "keccakpg643"; "keccak224"; "skein256"; "whirlpool"; "blake2b"]%string.

(** What a program does that uses the package: it allocates and changes its own byte arrays,
    sets Hf2 and calls Hashf (clients of hashf.go:56, 256). *)
Inductive hop := Alloc (bs : list N) | Assign (a o : nat) (bs : list N) | Call (name : string) (k : slice) (seed : N).

(** The execution: results of the calls, [None] for a panic, which ends the program
    (clients of hashf.go:56, 256). *)
Definition withMem w m := mkWorld m (fp8 w) (fp20 w) (fp28 w) (fp32 w) (fp64 w) (seeds w) (k643 w) (k644 w) (k648 w) (k160 w) (m332 w) (m364 w) (nh w) (nhf64 w).
Fixpoint execute (e : ext) (grow : nat -> nat -> nat) (w : world) (ops : list hop) : list (option N) :=
  match ops with
  | [] => []
  | Alloc bs :: ops => execute e grow (withMem w (mem w ++ [bs])) ops
  | Assign a o bs :: ops => execute e grow (withMem w (store (mem w) a o bs)) ops
  | Call name k seed :: ops =>
      match Hashf e grow w name k seed with
      | Ok (w, h) => Some h :: execute e grow w ops
      | _ => [None]
      end
  end.
