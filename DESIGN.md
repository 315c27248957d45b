# Formal model of tildeleb/hashland

The model and all theorems are in `rocq/theories` (Rocq/Coq 8.16.1; the
standard library, and Flocq 4.1.0 in the `F64.v`/`Float*.v` files).  `properties.jsonl` has the English claims, `MANIFEST.json` maps
claims to theorem names, `seeded/LOG.jsonl` records the mutation tests.

## Method

* `Words.v` models Go's fixed width unsigned integers as `N` with explicit
  wrap-around (`add64`, `mul32`, `rotl64`, ...), byte slices as `list N`.
* One `<Pkg>Model.v` per package: computable functions, one per Go function,
  each with a comment citing file and lines.  Anything that can panic in Go
  returns `option` (`None` = run time panic).  Loops are structural recursion
  or recursion on fuel, with running out of fuel a distinct `None`/excluded by
  the theorem.
* One `<Pkg>Spec.v` (when needed): small definitions that state the property
  without using the model's helpers.
* `<Pkg>Proofs.v`: lemmas.
* `<Pkg>Props.v`: only `Theorem ... Proof. exact ... Qed.`, a
  `Print Assumptions`, and the non-vacuity `Example`s.
* Test vectors found in the repository's own `_test.go` files are checked
  against the model by `vm_compute` (in `<Pkg>Vectors.v`); they are evidence of
  fidelity of the model, not proofs of properties.

## Plan per property

| id | what is modelled | how it is proved |
|----|------------------|------------------|
| C01-C06 | `HashTable.Insert` in both modes as a state transformer over buckets + counters, the hash being an arbitrary function parameter | invariants by induction over the list of inserted keys |
| C07, C08 | `NextLog2`, size computation of `NewHashTable` | case analysis on the binary search, `N.log2_up` as specification |
| C09 | `HashQuality` over exact rationals (float64: C86) | combinatorial identity by induction |
| C10, C11 | `digest` of package siphash as a state machine | generic "block buffer" theorem instantiated |
| C12 | the assembly routine as a register machine program | symbolic execution of each straight-line section, loop invariant |
| C13 | `Siphash` of siphashpg | refinement to the same mathematical SipHash |
| C14 | sip rounds | explicit inverse |
| C15 | LE load/store | arithmetic |
| C16, C17, C18, C19 | murmur3 digests and one-shot functions | generic block buffer theorem; inverse constants for the finalisers; witnesses for the refutation |
| C51 | siphash one-shot functions against the published definition | loop lemmas |
| C52-C54 | murmur3 one-shot functions against the reference algorithm; Size | loop lemmas; `BlockInj.v` for the absence of collisions inside one block |
| C20, C21 | Jenkins mixers | explicit inverses; ring-like reasoning; witness for the refutation |
| C22-C28, C55-C60 | Jenkins hash functions and digests; `Mem.v` gives reads through unsafe pointers an `Overread` outcome distinct from a panic | equality with independently written lookup2/lookup3/lookup8 definitions by loop lemmas; all digest histories by induction; witnesses for refutations |
| C29, C30, C61, C62 | MetroHash, all four functions | equality with an independent definition of the published algorithm, stage by stage; parity and counting of results from the linearity of rotation; for lengths 4 modulo 8 the published function is followed through its last 4-byte piece (low 17 bits) and the two-to-one finaliser |
| C31, C63-C67 | FarmHash, every function of the package; indices are Go ints (`Z`), so negative ones panic | equality with an offset-based definition of the published algorithm, branch by branch and loop by loop; elementary word bijections (`WordBij.v`) for the permutation and seed claims |
| C32, C33 | SpookyHash; the straight-line mixers are transcribed by `tools/spooky_prog.py` from the Go text into the assignment language of `SLP.v` (so `exec` of that file is part of the model here) | equality with the published function given by row patterns and lists of rotations; a proved-sound reversibility checker for the mixers; 512 vectors from the source evaluated on the model |
| C34-C36 | Threefish; encrypt and decrypt are transcribed by `tools/threefish_prog.py` from the Go text into `SLP.v` assignments, in groups of four rounds; constructors, key schedule and the calls on overlapping buffers in one memory | each encryption group equals four published rounds (symbolic execution); each decryption group is checked against the reversed encryption group by the proved-sound value-numbering checker; call histories simulated by an abstract cipher |
| C37-C40, C68 | keccakpg; memory is a list of arrays, slices are windows with capacities, `append`'s growth is an arbitrary function; endless loops show as exhausted fuel for every fuel | each round equals the published step mappings (symbolic execution); explicit inverses of theta (T^192 = id), rho-pi, chi, iota; generic block absorption; assume/guarantee induction over client histories (`KeccakHist.v`) |
| C41 | gomap, both sizes, unaligned and byte-wise loads | equality with a lane-based description; elementary word bijections |
| C42, C43, C69-C71 | sbox, crapwow, mahash, nullhash with their objects; nullhash histories | loop lemmas; a pigeonhole lemma for missed values; xor sums of blocks |
| C44 | Hashf with its package variables (digest objects, fingerprint buffers as slices of a heap), sipSeedSet, init, both name tables; external digests and aeshash are parameters | invariant of the package variables, one case per name resting on the theorem of that package, induction over programs; hashspatch (unused) is not modelled, Halloc is in C100 |
| C45-C48 | `ht.go`: genWords, ReadFile (bufio.ReadString on a byte list), checkForDups32, unhex, hexToBytes | mixed-radix counter invariant; decomposition of a file into lines; induction over sorted lists and digit pairs |
| C72, C73 | `ht.go`: reverse, line-to-key functions of tests A-G, key generators of I, J, L, Dups2 | list induction; testbit characterisation of one-bit keys |
| C74 | `ht.go`: Tests table, filters, main's selection of jobs (printing, seeding, tracing and Test0 left out; the run itself, with Test0 and the printed lines, is C112) | membership in the job list |
| C75-C77 | `ht.go`: whole runs of the tests over the hash table model, sign state of `-n` under `-dru`, histogram, TestK; the hash function is a fixed function here (so not nullhash, whose value is a counter); NextPrime assumed not smaller than its argument and below 2^64 | composition with C01-C04 |
| C49 | `smhasher`: flipBit of the three key kinds, setbits/sparse with the shared buffer | bitwise extensionality, induction on k |
| C78 | `smhasher`: the key generators with their shared buffers, function by function; random bytes are parameters | exact enumeration (NoDup + membership); Chinese remainder argument for the cyclic keys |
| C79 | `smhasher`: HashSet, check (in exact arithmetic; `c79_check_same` shows the float64 version gives the same verdicts), every test's returned value and number of complaints, the table of tests. The hash is a function of bytes and seed; the name argument of RunSMhasher and timing are not modelled | counting distinct values; lengths of the families |
| C80 | `smhasher`: the grid of avalancheTest1; the search for c and the bounds in float64 (`FloatModel.v`), with math.Erf and math.Pow as parameters of which only erf(x) = 1 from 6 on and pow(1, y) = 1 are used | induction over keys and bits; the 86 values c can take are computed |
| C81-C84 | `keccak` (cgo): keccak.go, KeccakNISTInterface.c, KeccakSponge.c, KeccakF-1600-opt64.c for the settings in the repository (unrolled 24 rounds, complemented lanes, little endian). The macros of KeccakF-1600-64.macros.h are expanded by `tools/ckeccak_prog.py` into `CkProg.v`, straight-line programs over 85 registers. Arrays are bounded; an access outside is `Overread`; unsigned int is 32 bits | symbolic evaluation of a round on arbitrary states, invariant relating queue and sponge, case analysis on the truncated length |
| C85 | The same model, called at the C level: Init, InitSponge, Update with any number of bits, Squeeze, Final. The specification (`CkBitSpec.v`) is the sponge on lists of booleans with pad10*1, plus the protocol of the calls. Proved by an invariant over call sequences (`CkBits2.v`); `partial_ok` handles the last bits, `pad_bits` relates byte padding and bit padding. The result on bits for whole bytes is shown equal to the byte sponge of C81, and five bits give the published Keccak-224 value. Updates of 2^32 - 1600 bits and more are the subject of C82. |
| C89 | `ht.go` -sm with hashf: the tests as programs whose only effect is a call of the modelled `Hashf` (digests, scratch slices, counters, panics); random bytes are parameters; outside packages are parameters; each call gets a fresh array with the current contents | induction over programs with the invariant of C44; the verdict theorems of C79; collisions found by search and checked by computation |
| C90 | `ht.go` -b and -hcb: calls and printed columns; times not modelled | the same programs; induction over the lines |
| C91 | `jenkins/example` driver2: the three nested loops, the two arrays carried from length to length, the six masks, the two kinds of lines (as data, not text) | masks as conjunctions over trials (bit lemmas); loop invariant on the arrays; order of the cases; pairs reduced modulo 256 by bits |
| C92 | `jenkins/example` benchmark32/64, checkForDups64, stu, first line of main; times and the progress text left out; the other lines of main are calls of HashString, whose published values are in JenkinsProps | C47 (duplicates of a sorted list), C57 (what Hash232/Hash264 compute), induction over words |
| C86, C87 | `hashtable.HashQuality`, `smhasher.check` and `ht.rbetween` with float64 arithmetic: Flocq's `binary_float 53 1024` with round to nearest even (`F64.v`). Assumed: no fused multiply-add (the Go compiler uses none on amd64), `math.Sqrt` correctly rounded, `math.Pow(2, 64)` = 2^64 | exactness while integers fit 53 bits; accumulated relative error by induction over the buckets; spacing of floats near a power of two |
| C88 | the murmur3 and hash table models | a flipped bit that rotation moves to the top survives addition and multiplication by 5, so the next block can cancel it; induction over the number of pieces |
| C93 | the gomap model (C41) | a bit of the first word's product is chosen so that the rotation moves it to the top, where multiplication by an odd number keeps it; the next word cancels it; induction over the number of pieces as in C88 |
| C94 | the hash table model (C01-C09); float rounding left out (C86 has it) | counting colliding pairs over all placements by induction on the number of keys; closed form C09; C02/C04 for open addressing |
| C95 | the SMHasher model (C79; `check` there equals the float64 one up to 2^27 keys) | C79 (verdict = some two hashes equal); number of distinct-valued placements by induction; pair counting of C94 for the upper bound, (m-k)(2m+k(k+1)) <= m(2m+k(k-1)) for the other |
| C96 | the hash table model (C01-C09), both modes | chained: buckets are filters of the key list (C01). Open addressing: the number of keys each slot turned away satisfies F(s)+X(s+1) = F(s+1)+[s+1 taken] with X the number of keys per home; its solution is unique (Parking.v), and X does not see the order |
| C97 | the hash table model, open-addressing mode; hash values below m as in C94 | Probes: exactly n slots are taken before the (n+1)-th key. Total displacement: square the balance equation and sum over the street, sum F = sum over keys of F(slot before its home) + pairs with equal home; the slot before a key's home never turned that key away, so drop the key and recurse: S(n+1) = (n+1)S(n) + pairs; closed form by induction, bound by a geometric sum |
| C98 | `hashtable.go` Insert again, with what it prints under Trace (TraceModel.v; a line is its values, the format is left out), btoi | simulation by the silent model; probe lines by induction on the probe loop; replay by induction on the insertions |
| C99 | the same, the lines of flag pd | listed pairs = equal hashes among the slots probed; none lies behind the free slot (the argument of C05), so with the keys before they are all |
| C100 | `hashf.go` Halloc, Hash32 of the four objects (as in C42, C60) and Hashf (C44) | induction over the calls, values by C42, C60 |
| C101 | the models of C02, C16, C20, C31, C41, C57 | enumeration of byte strings; the last block enters a permutation of the registers, of which the result keeps one or two words; injective hashes by counting; residues modulo the table size |
| C102 | LiveModel.v: the table of hashtable.go with its keys as slices of a heap, every hash a call of the model of Hashf (C44) on the shared state; programs of allocations, writes, calls and insertions | ownership invariant (no array of the program or of package hashf is ever one of the table's); simulation of the list model of C01-C06; for the counting names lockstep of two runs |
| C103 | DigMemModel.v: the jenkins and murmur3 digests with their pending bytes as slices of a heap (append, copy, views of buf), the siphash digests (whose buffer is an array inside the object), programs of allocations, writes, digest calls and struct copies; the counters clen of the jenkins digests (never read) are left out | ownership invariant with frozen copies (a copy that may not be written to can share an array with one whose tail is at least as long); simulation of the value digests of JenkinsModel.v and Mm3Model.v; the aliasing of two written copies computed for all contents |
| C104 | the hash table model, figures as in C94 (rationals); hash functions to m c values, reduced to the home bucket | second moment of the number of colliding pairs by induction on the keys (the counts per bucket square-sum to n + 2 pairs); Chebyshev, and 8(n-1)(m-1) <= (n+2m-1)^2; factorial moments of one bucket for LongestChain (choose(count, k) summed over all placements is choose(n,k) m^(n-k)); each placement comes from c^n of the wider functions |
| C105 | the models of C22-C31, C41, C52, C55-C57 and C61 (whole one-shot hashes) and the hash table | each hash is a fold over blocks whose step is one-to-one between blocks and states for every state (the words of the block are added, multiplied by odd constants and rotated into separate registers); one-to-one plus equal numbers gives onto, by counting; the hash of the key then depends on the beginning only through that state. Counts and the flooded table follow from the definition of steering alone |
| C106 | `Print`'s `cvt` and its argument in float64 (`PrintModel.v`); `Duration.Seconds` is package time's, both of its formulas are taken | relative errors of the four operations; the boundary at one millisecond, where the error bound is too coarse, is computed |
| C107 | ppi and cpi as `Print` computes them (`PrintModel.v`), over the hash table model | bounds by induction over the insertions on the street of C96; rounding of quotients next to 1 and 2 |
| C108 | the SMHasher model of C79 run on the published hashes (C89) | a collision inside each set of keys, given as data and checked by the kernel, fixes the line by the meaning of the tests (C79); where a line says 0 the set is shown collision free by structure (Murmur3 on keys up to three bytes and on one word, FarmHash by C66); CrapWow by cancelling blocks (C70) |
| C109 | tests I, J and L as programs on memory with one reused buffer (`TestMemModel.v`, over the memory model of C102), and on the model of the tests in `HtModel.v` with the published hashes | the buffer is never what the table keeps (C102), the keys of the loops are the lists of the tests; no collisions by injectivity of the hashes on three- and four-byte keys; keys with homes of their own never probe; counting residues for the bucket lengths; the collisions are data checked by the kernel |
| C110 | every case of the dispatcher cut into the steps in which it touches a variable of its package; goroutines with programs of their own (mutex, Hf2, writes to memory, calls) take turns step by step (`ConcModel.v`) | uninterrupted, the steps are `Hashf`; for the safe names an invariant says what each goroutine will be told; for the others an order of steps is exhibited for all keys; with a mutex an invariant relates every reachable state to a sequential program, which C44 answers. Steps are sequentially consistent: enough for the safe names and for the mutex, as these programs have no data race; siphash64pg with one seed is a data race in which all write the same bytes, and is proved for sequentially consistent steps only; so is the theorem about different names (`c110_some_name`), where setting Hf2 is one step although a Go string is two words; the wrong results are executions with coarser steps than the machine's, so they are also executions of the machine |
| C111 | `keccak` under every build setting: scalar code with and without complemented lanes, MMX, SSE with 64- and 128-bit lanes, all eight unrollings, any set of fast absorbing functions, both byte orders, any contents of uninitialised variables (`CkSetModel.v`; the macros are transcribed by `tools/ckeccak_settings.py` into `CkSetProg.v`, the vector instructions are in `CkVecModel.v`) | each macro is shown by symbolic evaluation to be a round on arbitrary lanes, each unrolling to be a schedule of 24 rounds; the sponge, whose functions take the ones below as parameters, is related to that of C81 by a simulation in which only the stored form of the lanes differs |
| C112 | `ht.go`: the whole command when it runs tests (main, runTestsWithFileAndHashes, Test0, the test functions), on one memory with one package hashf; output is a list of lines as data; formats, measured times, what `-pd` and `-t` add, and `-sm`, `-b`, `-hcb` left out (`HtMainModel.v`). The specification (`HtMainSpec.v`) is a plan and one section per test as functions of bytes | each test is related to its section by the invariant of hashf's variables and of tables with slices (C103, C109); then induction over the plan; the refutation for the command without arguments uses that "skein256" takes no key |
| C113 | `Size`, `NumSeedBytes`, `HashSizeInBits` (and `BlockSize`, about which nothing is claimed) of the sbox, crapwow, jenkins and nullhash objects beside their hash and Sum methods (`DeclModel.v`); the meaning of the declarations, with "a bit of a seed matters" and its count, is `DeclSpec.v` | each positive bit by computation on the empty key, each negative bit from the value theorems for all states; ranges from C42, C60, C44; the top bit by a computed key, for nullhash by a reachable counter |
| C114 | the functions that read words through package unsafe, with the byte order of the machine as a parameter (`EndianModel.v`; every other model fixes the little-endian machine, and `c114_little` says this one then agrees); the turned key is `EndianSpec.v` | a word of the turned key is the other machine's word of the key; induction over each loop (`EndianProofs.v`); the converse for murmur3 from C53; witnesses computed. Not modelled: machines that fault on unaligned words, the word files of gomap (selected by build tags, C41) |
| C115 | the SMHasher tests with the width of the word as a parameter (`SmhWordModel.v`: `hashSize`, the narrowing of the hash to a uintptr, `check` in float64); the number of repeated hashes and the bound of `check` as a real number are `SmhWordSpec.v` | error analysis of the float64 bound (`SmhWordProofs.v`); for each family of keys its exact number and an integer that the bound is provably not near (`SmhWordProofs2.v`); for random functions the variance of the number of equal pairs and Chebyshev's inequality. Not modelled: memory exhaustion on a 32-bit machine |
| C116 | nothing new: `Hashf` of C44; that a name returns a value for given bytes in every state, and the lists of related names, are `NamesSpec.v` | from C44 each name returns its reference value in every state; the rest is arithmetic on the reference values. For spooky32 and large seeds a witness |

## Trusted base

* Coq's kernel, including its `vm_compute` reduction machine.
* `Print Assumptions` stands below every theorem.  All theorems are closed under
  the global context, except those of `FloatProps.v` (C86, C87 and
  `c79_check_float`, `c79_check_same`, `c80_bounds`,
  `c80_silent`), of `PrintProps.v` (C106 and C107 except
  `c107_bounds` and `c107_worst`) and of `SmhWordProps.v` (C115).  These speak of float64 and real numbers and depend on
  four axioms of Coq's standard library: `ClassicalDedekindReals.sig_not_dec`,
  `ClassicalDedekindReals.sig_forall_dec`,
  `FunctionalExtensionality.functional_extensionality_dep` and
  `Classical_Prop.classic`.  Flocq 4.1.0 supplies definitions and lemmas, no axioms.
* The reading of the source text into Gallina, documented by the citations in the
  model files.  Parts of it were done by scripts, which are not verified; their
  output is committed and is the model: `tools/spooky_prog.py` (spooky mixers),
  `tools/threefish_prog.py` (threefish rounds), `tools/ckeccak_prog.py` and
  `tools/ckeccak_settings.py` (the macros of the C Keccak), `tools/gen_sipasm.py` (the two siphash assembly
  routines, instruction by instruction, in `SipAsmProg.v`) and
  `tools/gen_sipvec.py` (test vectors).
* The semantics given to the source languages: Go's integers wrap, slices have
  bounds that panic, amd64 is little endian and allows unaligned loads; for C,
  `unsigned int` has 32 bits and `unsigned long long` 64; for the assembly, the
  instructions of `SipAsmModel.v`.

### Modelled

hashtable, siphash (Go and assembly), siphashpg, murmur3, jenkins, metro, farm,
spooky, threefish, keccakpg, keccak (Go and C), gomap, sbox, crapwow, mahash,
nullhash, hashf, smhasher, and ht.go's word generator, line reader, key generators,
tests, selection, runs, SMHasher runs and benchmarks.

### Not modelled

* Printing (except what Insert prints, C98 and C99, the numbers of C86, C106 and C107, and the tables of the benchmark), flags,
  timing, goroutines (the code starts none; clients of Hashf that do are C110), garbage collection, running out
  of memory.
* Packages outside the repository (aeshash, and the digests hashf takes from
  elsewhere); they are parameters where a modelled function calls them.
* hashf: hashspatch, which nothing calls.  smhasher: math.Erf and math.Pow are parameters (C80).
* keccak: the branches for other compilers (_MSC_VER, __INTEL_COMPILER) of the rotation and of the declarations.
* nhash: interface declarations only.  The test files; siphashpg/example, which only times calls.
