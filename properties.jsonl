{"id": "C01", "title": "Chained hash table loses no key and files each key under its own hash", "statement": "After any sequence of Insert calls on a hash table created in chaining mode, bucket number i holds exactly the inserted keys whose hash selects i, in insertion order and with their multiplicities; nothing else is stored anywhere, and no Insert panics.", "quantifier": "every table size >= 1 (power-of-two mask or prime modulus), every deterministic hash function, every seed, every finite sequence of keys of any length", "why_tests_cant": "the number of insertion histories is unbounded and the interesting ones (collisions, repeated keys) depend on the hash function chosen at run time", "anchors": ["hashtable/hashtable.go: HashTable.Insert, NewHashTable"]}
{"id": "C02", "title": "Open-addressing insert stores every key and keeps probe paths unbroken", "statement": "After any sequence of successful Inserts in open-addressing mode, every slot holds at most one key, the multiset of stored keys equals the multiset of inserted keys, and for each stored key every slot on the circular path from its home slot up to its slot is occupied (so a linear-probe lookup finds it).", "quantifier": "every table size, every deterministic hash function and every insertion sequence no longer than the table", "why_tests_cant": "needs an invariant across arbitrary histories with wrap-around; a test only samples a few histories and hash functions", "anchors": ["hashtable/hashtable.go: HashTable.Insert"]}
{"id": "C03", "title": "Open-addressing insert terminates and panics exactly when the table is full", "statement": "In open-addressing mode Insert always terminates; it stores the key if and only if at least one slot is free before the call, and otherwise panics (rather than looping forever or overwriting a key).", "quantifier": "every reachable table state, every key, every hash function", "why_tests_cant": "the wrap counter only matters for particular alignments of home slot and free slot; a full sweep over table states is unbounded", "anchors": ["hashtable/hashtable.go: HashTable.Insert (pass counter)"]}
{"id": "C04", "title": "Insert statistics are consistent with the contents", "statement": "After any history, Inserts is the number of Insert calls; in chaining mode Heads is the number of non-empty buckets, Heads+Nbuckets = Inserts and Probes = Inserts; in open-addressing mode Heads = Inserts = number of occupied slots and Nbuckets = 0, Probes exceeds Inserts by the number of keys not stored in their home slot, and Cols is the sum, over the stored keys, of the distance to the home slot minus one.", "quantifier": "every insertion history, both modes, every hash function and table size", "why_tests_cant": "the counters are updated on different branches; only an invariant over all histories shows they always agree", "anchors": ["hashtable/hashtable.go: HashTable.Insert, Stats"]}
{"id": "C05", "title": "Dups counts exactly the pairs of inserted keys with equal hash", "statement": "After any history, in both chaining and open-addressing mode, Dups equals the number of pairs i<j of insertions whose full 64-bit hashes are equal; in particular Dups does not depend on the table size, the mode, or on how many keys collide only in their bucket number.", "quantifier": "every insertion history, both modes, every hash function and table size", "why_tests_cant": "requires relating a per-probe counter to a global pair count over unbounded histories", "anchors": ["hashtable/hashtable.go: HashTable.Insert (Dups++)"]}
{"id": "C06", "title": "LongestChain is the longest chain, except that chains of one are not counted", "statement": "In chaining mode, after any history, LongestChain equals the length of the longest bucket whenever some bucket holds two or more keys and equals 0 otherwise; in open-addressing mode it is always 0.", "quantifier": "every insertion history, every hash function and table size", "why_tests_cant": "a running maximum over unbounded histories", "anchors": ["hashtable/hashtable.go: HashTable.Insert (LongestChain)"]}
{"id": "C07", "title": "NextLog2 is the ceiling of log2", "statement": "For every 32-bit x >= 2, NextLog2(x) is the least n with x <= 2^n (and NextLog2(0)=0, NextLog2(1)=1).", "quantifier": "every uint32 x", "why_tests_cant": "2^32 inputs times a branchy binary search; a test would sample powers of two", "anchors": ["hashtable/hashtable.go: NextLog2"]}
{"id": "C08", "title": "Table sizing: power of two with room, and every index in range", "statement": "For a non-negative size and extra with the sum of logs below 64, NewHashTable without prime makes a table whose number of buckets is a power of two at least size*2^extra (for 0 < size < 2^32), and for every hash value the selected bucket index is below the number of buckets; for a negative size the table has exactly |size| buckets and the index is still in range, but unless |size| is a power of two some bucket can never be selected by masking. Size zero gives 2^extra buckets and size one 2^(extra+1); sizes that agree modulo 2^32 give the same table, so a size beyond 2^32 does not make room.", "quantifier": "every size, extra and every 64-bit hash value", "why_tests_cant": "arithmetic over all 64-bit hashes and sizes", "anchors": ["hashtable/hashtable.go: NewHashTable, HashTable.Insert"]}
{"id": "C09", "title": "Hash-quality metric has the Red-Dragon-book closed form", "statement": "Over exact rationals, HashQuality of a chained table equals size * sum_b len_b(len_b+1) / (n(n+2*size-1)), where the numerator sum equals 2*(n + number of unordered pairs of keys sharing a bucket). (C86 is about the float64 value.)", "quantifier": "every insertion history", "why_tests_cant": "a global combinatorial identity over all bucket distributions", "anchors": ["hashtable/hashtable.go: HashQuality"]}
{"id": "C10", "title": "SipHash streaming equals one-shot", "statement": "For any key and any data, writing the data to a SipHash digest in any number of Write calls of any sizes and asking for Sum64 gives Hash(k0,k1,data); for a 128-bit digest Sum gives the little-endian bytes of Hash128(k0,k1,data).", "quantifier": "every 16-byte key, every byte string, every way of splitting it into Write calls (including empty ones)", "why_tests_cant": "unbounded number of splits and lengths; buffer hand-over bugs show only at particular offsets", "anchors": ["siphash/siphash.go: digest.Write, Sum64, sum128, finalize, blocks", "siphash/hash.go: Hash", "siphash/hash128.go: Hash128"]}
{"id": "C11", "title": "SipHash digest: Sum does not disturb the stream and Reset forgets it", "statement": "For a SipHash digest, Sum and Sum64 may be called at any point of the stream without changing any later result, Sum appends exactly Size() bytes to its argument and leaves the prefix intact, and after Reset the digest behaves as freshly created with the same key.", "quantifier": "every history of Write/Sum/Reset calls", "why_tests_cant": "state-machine histories are unbounded", "anchors": ["siphash/siphash.go: Sum, Reset, Size"]}
{"id": "C12", "title": "The amd64 assembly SipHash equals the portable Go SipHash", "statement": "For every key and byte string, the register-level assembly routines Hash (hash_amd64.s) and Hash128 (hash128_amd64.s) return exactly the values of the portable Go Hash and Hash128, from any initial register contents, and never read outside the slice.", "quantifier": "every k0,k1 and every byte string", "why_tests_cant": "architecture-specific code can only be sampled by tests, and only on that architecture", "anchors": ["siphash/hash_amd64.s: Hash", "siphash/hash128_amd64.s: Hash128", "siphash/hash.go: Hash", "siphash/hash128.go: Hash128"]}
{"id": "C13", "title": "The generic SipHash (siphashpg) agrees with the specialised SipHash", "statement": "Siphash(in,k,2,4,false) returns (siphash.Hash(k0,k1,in), 0) and with dbl=true it returns siphash.Hash128(k0,k1,in), for k0,k1 the little-endian halves of k; for other positive round counts it is SipHash-cr-dr; it panics exactly when the key is not 16 bytes or a round count is not positive.", "quantifier": "every byte string, every key", "why_tests_cant": "two independent implementations over unbounded input", "anchors": ["siphashpg/siphash.go: Siphash", "siphash/hash.go", "siphash/hash128.go"]}
{"id": "C14", "title": "Every SipHash round is a permutation of the 256-bit state", "statement": "The SipHash round used by all implementations is a bijection on (v0,v1,v2,v3), and so is absorbing any fixed data; hence two different keys never reach the same internal state over the same message, at any point up to the final folding.", "quantifier": "every 256-bit state", "why_tests_cant": "2^256 states", "anchors": ["siphash/siphash.go: once/round", "siphashpg/siphash.go: sipround"]}
{"id": "C15", "title": "Little-endian load and store are mutually inverse", "statement": "U64tou8le followed by U8tou64le is the identity on 64-bit words, and the converse on 8-byte strings; U8tou64le panics exactly on fewer than 8 bytes and reads byte i as the i-th base-256 digit.", "quantifier": "every word and every 8-byte string", "why_tests_cant": "2^64 values", "anchors": ["siphashpg/siphash.go: U8tou64le, U64tou8le"]}
{"id": "C16", "title": "Murmur3 streaming equals one-shot", "statement": "For any byte string, writing it to a Murmur3 digest (32, 64 or 128 bit) in any split and asking for Sum32 / Sum64 / Sum128 gives the same value as the package function of that name.", "quantifier": "every byte string and every split into Write calls", "why_tests_cant": "unbounded splits and lengths", "anchors": ["murmur3/murmur.go: digest.Write", "murmur3/murmur32.go", "murmur3/murmur64.go", "murmur3/murmur128.go"]}
{"id": "C17", "title": "Murmur3 Sum must return the big-endian digest", "statement": "hash.Hash requires Sum(b) to append the current hash; so Sum(nil) of a Murmur3 digest should be the big-endian bytes of Sum32/Sum64/Sum128. (The code appends the un-finalised registers instead: the claim is refuted, and characterised exactly: Sum ignores the buffered tail and the length.)", "quantifier": "every stream", "why_tests_cant": "tests on one string could coincide; the characterisation (any two streams with the same processed blocks collide) is universal", "anchors": ["murmur3/murmur32.go: digest32.Sum", "murmur3/murmur64.go: digest64.Sum", "murmur3/murmur128.go: digest128.Sum"]}
{"id": "C18", "title": "Murmur3 finalisers are bijections", "statement": "fmix64 and the 32-bit finaliser are bijections on 64- and 32-bit words, so finalisation loses no information.", "quantifier": "every word", "why_tests_cant": "2^64 inputs", "anchors": ["murmur3/murmur128.go: fmix64", "murmur3/murmur32.go: Sum32"]}
{"id": "C19", "title": "Murmur3 Sum64 is the first half of Sum128", "statement": "For every byte string Sum64(data) is the first component of Sum128(data), one-shot and streaming.", "quantifier": "every byte string and split", "why_tests_cant": "unbounded input", "anchors": ["murmur3/murmur64.go", "murmur3/murmur128.go"]}
{"id": "C20", "title": "Jenkins lookup2/lookup8/lookup3 mixing functions are reversible", "statement": "Each of the Jenkins mixing and finalising functions is a bijection on its register triple, so no entropy is lost while mixing.", "quantifier": "every register triple", "why_tests_cant": "2^96 / 2^192 states", "anchors": ["jenkins/jenkins.go: mix32, mix32a, mix64, mix64alt, mix1, mix2, final1, final2"]}
{"id": "C21", "title": "The variants of the Jenkins mixers agree", "statement": "The inlined 32-bit mixer equals the plain one on every triple; the 64-bit mixer used by Hash264 equals the composition of its six published pieces; the word-hash mixers equal the byte-hash ones. The plain 64-bit mixer (mix64) is a different function (refuted with a witness).", "quantifier": "every triple of words", "why_tests_cant": "2^96 states; the precedence slip only shows in specific bits", "anchors": ["jenkins/jenkins.go: mix32, mix32a, mix64, mix64alt, mix64a..mix64f"]}
{"id": "C22", "title": "Jenkins lookup2 (Hash232) collides on trivially related keys", "statement": "lookup2 is meant to distinguish keys of different length. In this code, after any common prefix of whole 12-byte blocks, the tail x,r (r at most nine bytes, x > 0) and the one byte longer tail (x-1),r,0 have the same Hash232, for every seed.", "quantifier": "every seed, every tail of at most ten bytes with a non-zero first byte, every prefix of whole blocks (total below 2^32 bytes)", "why_tests_cant": "universal collision family cannot be established by examples", "anchors": ["jenkins/jenkins.go: Hash232 (tail switch)"]}
{"id": "C23", "title": "Word-wise and byte-wise reading of the key agree and stay in bounds", "statement": "Hash232 and Hash264 read the key either through a cast to a slice of words or byte by byte depending on a machine flag; for every key of every length both ways give the same hash, and neither panics nor reads outside the key.", "quantifier": "every key and every seed", "why_tests_cant": "tests on one machine only ever exercise one of the two ways", "anchors": ["jenkins/jenkins.go: Hash232, Hash264"]}
{"id": "C24", "title": "lookup3 word hashing agrees with byte hashing", "statement": "HashWords332(words, seed), XHashWords and HashWordsLen(words, len(words), seed) all equal the first result of the byte hash of the little-endian bytes of the words with initial values (seed,0).", "quantifier": "every list of 32-bit words and every seed", "why_tests_cant": "unbounded inputs, two implementations", "anchors": ["jenkins/jenkins.go: HashWords332, XHashWords, Jenkins364"]}
{"id": "C25", "title": "lookup3 with an explicit length", "statement": "Hashing with explicit length n should equal hashing the first n bytes. Refuted: the length of the whole slice enters the initial state; characterised: the result equals the hash of the prefix with initial values shifted by len(k)-n.", "quantifier": "every key, every 0<n<=len", "why_tests_cant": "universal characterisation", "anchors": ["jenkins/jenkins.go: Jenkins364, HashBytesLength"]}
{"id": "C26", "title": "lookup3 digests: chunk independence", "statement": "For the streaming 32-bit and 64-bit lookup3 digests, the first Sum32/Sum64 after New and any sequence of Writes equals the one-shot hash of the concatenation with the seed given.", "quantifier": "every split", "why_tests_cant": "unbounded splits", "anchors": ["jenkins/jenkins.go: State332c, State364"]}
{"id": "C27", "title": "Asking a lookup3 digest twice should give the same answer", "statement": "hash.Hash requires that Sum does not change the underlying state. Refuted for the lookup3 digests: Sum32/Sum64 twice in a row give different values, because Sum writes its result back into the seed registers. Every history of Write, Sum, Sum32/64, Reset is characterised: each result is the lookup3 hash of all data since the last Reset whose initial values are the previous result.", "quantifier": "histories of calls", "why_tests_cant": "history dependent", "anchors": ["jenkins/jenkins.go: State332c.Sum32, State364.Sum64"]}
{"id": "C28", "title": "State364 Sum returns the bytes of Sum64", "statement": "Sum of the 64-bit digest should be the 8 bytes of Sum64. Refuted and characterised: Sum appends four zero bytes and then the low half of what Sum64 would have returned.", "quantifier": "every stream", "why_tests_cant": "universal characterisation", "anchors": ["jenkins/jenkins.go: State364.Sum"]}
{"id": "C29", "title": "MetroHash 64 (variant 1) ignores the last byte of keys whose length is 4 mod 8", "statement": "MetroHash64_1 ignores the last byte of every key whose length is 4 modulo 8: all 256 keys with a common prefix have the same hash, for every seed.", "quantifier": "every seed, every key of such a length", "why_tests_cant": "universal collision family; golden vectors use length 63", "anchors": ["metro/metro64.go: Hash64_1"]}
{"id": "C30", "title": "MetroHash never reads outside the key", "statement": "None of the four MetroHash functions ever panics (no index or slice bound is exceeded), for keys of every length and every seed.", "quantifier": "every length", "why_tests_cant": "per-length branches; unbounded loop", "anchors": ["metro/metro64.go", "metro/metro128.go"]}
{"id": "C31", "title": "FarmHash never reads outside the key and computes the published function", "statement": "Each FarmHash entry point (Hash32, Hash64, Hash128, Fingerprint32/64/128 and the seeded variants) returns a value for every byte string: no index is out of range in any of the per-length branches and every loop terminates. The value is that of the published algorithm, described by absolute offsets into the key and counted blocks, and fits the announced width. The internal 64-bit function is the published farmhashna Hash64 for every length, also beyond the 64 bytes for which the entry points use it, including its hand-expanded seed constant.", "quantifier": "every byte string of every length and every seed", "why_tests_cant": "per-length branches and loops over unbounded length", "anchors": ["farm/farmhashmk.go", "farm/farmhashna.go", "farm/farmhashcc.go", "farm/farmhashuo.go"]}
{"id": "C32", "title": "SpookyHash is the published SpookyHash V2, in bounds, and its widths agree", "statement": "For every byte string and every pair of 64-bit seeds the 128-bit function returns (its internal panics are unreachable, no index is out of range) exactly what the published SpookyHash V2 defines, for all lengths; so does the short-message function. Hash64 is the first half of Hash128 with both seeds equal and Hash32 its low 32 bits. The exported Mix and End panic exactly when given fewer than twelve words.", "quantifier": "every byte string and seed", "why_tests_cant": "length-dependent code over unbounded lengths", "anchors": ["spooky/spooky.go"]}
{"id": "C33", "title": "SpookyHash mixing steps are permutations", "statement": "EndPartial, ShortMix and ShortEnd permute their 12- or 4-word states, Mix and End do for every fixed block; two blocks that differ in exactly one of their twelve words never mix to the same state.", "quantifier": "every state", "why_tests_cant": "2^768 states", "anchors": ["spooky/spooky.go: Mix, EndPartial, ShortMix, ShortEnd"]}
{"id": "C34", "title": "Threefish decrypt inverts encrypt", "statement": "For every key and tweak Threefish permutes the blocks, and for every cipher obtained from the constructors through any history of calls, decrypting an encrypted block gives the block back and encrypting a decrypted block gives it back, for 4, 8 and 16 words; on words for every cipher, on bytes for ciphers from New or NewSize, with source and destination overlapping in any way; bytes outside of the destination are not changed.", "quantifier": "every key, tweak, block, buffer layout and call history", "why_tests_cant": "2^1024 blocks", "anchors": ["threefish/threefish256.go", "threefish/threefish512.go", "threefish/threefish1024.go", "threefish/threefish.go"]}
{"id": "C35", "title": "Threefish construction and key schedule", "statement": "New accepts exactly keys of 32, 64 or 128 bytes (otherwise a KeySizeError with the length), panics on a non-nil tweak of fewer than two words, and its BlockSize is the key length. From then on any sequence of SetKey, SetTweak, Encrypt, Decrypt, Encrypt64, Decrypt64 behaves as the published Threefish cipher (Skein 1.3) with the current key and tweak, panicking exactly when a buffer, key or tweak is too short. NewSize gives the zero key and tweak; New64 agrees on the word-level calls.", "quantifier": "every key and tweak", "why_tests_cant": "all lengths", "anchors": ["threefish/threefish.go: New, setKey, setTweak"]}
{"id": "C36", "title": "A cipher made from 64-bit key words should encrypt whole blocks", "statement": "New64 should give the same cipher as New on the little-endian bytes of the key. Refuted: BlockSize is the number of key words, byte-level Encrypt of a fresh New64 cipher encrypts the first n/8 words of the source followed by zero words and writes only the first n/8 words of the result; with a four-word key it writes nothing at all.", "quantifier": "every key", "why_tests_cant": "characterisation for all keys", "anchors": ["threefish/threefish.go: New64, Encrypt, Decrypt"]}
{"id": "C37", "title": "Keccak (pure Go): digests are those of the published sponge for every careful client", "statement": "A client that, between Resets, neither changes nor reuses an array it has handed to Write may allocate, store, Write, Sum and Reset in any order: every Write returns the length of its argument and leaves all arrays not yet handed over unchanged, every Sum(b) returns b followed by the published Keccak sponge (rate 200-2*size bytes, pad10*1, requested number of rounds) of all bytes written since the last Reset. Writing consecutive chunks, of any sizes including 0, of one buffer gives the digest of the whole buffer and changes none of the caller's memory. Holds for digest sizes that are multiples of 32 bits up to 512 and at most 24 rounds; in particular for New160, New224, New256, New384, New512.", "quantifier": "every call history, every growth policy of append, every memory contents, every split", "why_tests_cant": "unbounded histories and splits; depends on slice aliasing", "anchors": ["keccakpg/keccak.go: Write, Sum, Reset, f, pad, New160..New512, NewCustom"]}
{"id": "C38", "title": "Keccak Write retains and overwrites the caller's memory (io.Writer contract refuted)", "statement": "After Write(b) with b shorter than a block, Sum hashes what the caller has stored in b since, not what was written. A following Write copies its bytes into the caller's array behind b when b has spare capacity, changing memory the digest was never given. Two digests that were each given the same prefix with spare capacity hash each other's next bytes. So the contract of io.Writer (no retention, no modification beyond the slice) is refuted.", "quantifier": "every message, slice with spare capacity and prior state", "why_tests_cant": "needs a memory model of slices with capacities", "anchors": ["keccakpg/keccak.go: Write"]}
{"id": "C39", "title": "Keccak-f and its rounds are permutations of the 1600-bit state", "statement": "The block function xors the block into the state and applies the published Keccak-f[1600] with the requested number of rounds (at most 24). Each round, and the permutation with any number of rounds up to 24, is a bijection on states of 25 lanes. Two different blocks absorbed from one state, or one block absorbed from two states, give different states.", "quantifier": "every state, block, number of rounds", "why_tests_cant": "2^1600 states", "anchors": ["keccakpg/keccak.go: f, tables"]}
{"id": "C40", "title": "Keccak padding is injective", "statement": "Distinct messages have distinct padded messages, even at different rates; the padded length is the next positive multiple of the rate, and at least one and at most rate bytes are added after the message. The code's last block completes exactly this padding. Different messages shorter than one block lead to different final 1600-bit states.", "quantifier": "every message and every rate", "why_tests_cant": "unbounded lengths", "anchors": ["keccakpg/keccak.go: Sum, pad"]}
{"id": "C41", "title": "The gomap hash reads only the key, panics on the empty key, and never collides on short keys of one length", "statement": "The portable copy of Go's runtime map hash (32- and 64-bit) equals a small description of that hash for every non-empty key and reads only bytes of the key; the empty key panics. For a key of at most 16 (32) bytes the result is a bijective function of the seed. Two different keys of the same length up to 4 (8) bytes never collide under the same seed. Yet every 32-bit (64-bit) value is the hash of some 4-byte (8-byte) key under every seed, so every other key collides with one of these. Reading a word byte by byte gives the same word as the unaligned load.", "quantifier": "every key, every seed, every pair of keys", "why_tests_cant": "unbounded lengths; 2^64 seeds and pairs of keys", "anchors": ["gomap/gomap.go"]}
{"id": "C42", "title": "Sbox and CrapWow seeds are sticky", "statement": "The result of Hash32 on an Sbox or CrapWow object is determined by the key and the last seed the object was given (by New or by any earlier or the current call; of several seeds in one call the first counts), whatever the history. So a seeded call changes the answers of later unseeded calls.", "quantifier": "every history of calls, every key and seed", "why_tests_cant": "history dependent", "anchors": ["sbox/sbox.go", "crapwow/crapwow.go"]}
{"id": "C43", "title": "MaHash: table and rotations are permutations, its 64-bit 'rotation' is not", "statement": "MaHash8v64 never panics and equals a plain arithmetic description for every key. Its table is a permutation of 0..255 and the 32-bit rotations by 14 undo each other. The 64-bit one is no rotation: bits 0 and 63 of its result always agree, and flipping bit 63 of any argument with bit 0 set does not change the result.", "quantifier": "every key, every word", "why_tests_cant": "2^64 words, unbounded keys", "anchors": ["mahash/mahash8v64.go"]}
{"id": "C44", "title": "Selecting a hash by name", "statement": "In every program that allocates and changes its own byte arrays, sets the name and calls Hashf in any order, each call returns the hash that name stands for of the bytes the key has at that moment and of the seed, independent of all earlier calls (the two null names count their calls), and Hashf never changes the program's memory. A call panics exactly for an unknown name or a key shorter than the name needs (gomap32/64: 1 byte, perfecthash and aeshash32I: 4, aeshash64I: 8). Of the published test list only skein256 is unknown, of the published size table FarmHash128, MetroHash128-1, MetroHash128-2 and keccak160. Names announced as 32 bit give values below 2^32. Of the names that hash the key, 19 ignore the seed, 16 use only its low 32 bits and really depend on them, 10 use both halves, and the 3 AES names pass the whole seed to code outside the repository. FarmHash128-high is the low word and FarmHash128-low the high word (the naming claim is refuted).", "quantifier": "every name, key, seed, state and sequence of calls; every behaviour of the external digests that returns digests of the right size", "why_tests_cant": "state kept between calls (digest objects, fingerprint buffers, retained key slices), interaction of three tables, unbounded keys", "anchors": ["hashf/hashf.go: Hashf, HashFunctions, TestHashFunctions, sipSeedSet, init"]}
{"id": "C45", "title": "Word generator enumerates every combination exactly once", "statement": "genWords(perms,f) calls f on each choice of one letter per position, in counter order with the first position varying fastest; the number of calls is the product of the lengths; no word is repeated when each position's letters are distinct. Letters are bytes, those above 127 coming out UTF-8 encoded. An empty string among perms panics before any call; an empty perms calls f once and then panics.", "quantifier": "every list of strings", "why_tests_cant": "unbounded product", "anchors": ["ht.go: genWords"]}
{"id": "C46", "title": "Line reader: what is handed to the callback", "statement": "Every file is complete lines plus text after the last newline. If no complete line is blank (empty or a lone CR), the callback sees each in order with one CR and then one space stripped and the count is returned; the first blank line makes the program panic after delivering the lines before it; text after the last newline is never delivered.", "quantifier": "every file content", "why_tests_cant": "unbounded contents", "anchors": ["ht.go: ReadFile"]}
{"id": "C47", "title": "Duplicate counter on a slice", "statement": "checkForDups32 counts the positions equal to their predecessor; on a sorted slice that is length minus number of distinct values. The reported maximum run is the largest number of repeats among all values except the last one, so it is not the maximum over all values (refuted).", "quantifier": "every slice", "why_tests_cant": "unbounded", "anchors": ["ht.go: checkForDups32"]}
{"id": "C48", "title": "Hex decoding", "statement": "hexToBytes inverts hex encoding (either case) for strings of up to 2000 hex digits and panics exactly on odd length, non-hex digits or longer strings.", "quantifier": "every string", "why_tests_cant": "unbounded", "anchors": ["ht.go: hexToBytes, unhex"]}
{"id": "C49", "title": "SMHasher bit flips and sparse keys", "statement": "Flipping bit i of a byte or integer key changes bit i of the hashed bytes and no other, and flipping twice restores the key; past the last bit byte keys panic and integer keys stay unchanged. The sparse-key generator, on a buffer without set bits from position i on, hashes each string that agrees with the buffer before i and has at most k set bits from i on exactly once and leaves the buffer as found; a set bit in the way would be cleared.", "quantifier": "every key, bit number, buffer, position and k", "why_tests_cant": "combinatorially many keys; unbounded sizes", "anchors": ["smhasher/smhasher.go: flipBit, setbits, sparse"]}
{"id": "C50", "title": "The bit-difference counter counts correctly and never panics", "statement": "For every 64-bit word, the helper that tallies zero and one bits by nibble table returns (number of zero bits, number of one bits) and its consistency panic is unreachable.", "quantifier": "every 64-bit word", "why_tests_cant": "2^64 inputs", "anchors": ["hashtable/hashtable.go: diff, Ones, Zeros"]}
{"id": "C51", "title": "Hash and Hash128 are SipHash-2-4 as published", "statement": "For every key and message, siphash.Hash returns the SipHash-2-4 value defined in the SipHash paper (padding with the length byte, little-endian words, two compression and four finalisation rounds), and Hash128 that of the reference 128-bit variant.", "quantifier": "every k0,k1 and every byte string", "why_tests_cant": "the test vectors cover one key and lengths up to 63; an equality of functions over all messages needs a proof", "anchors": ["siphash/hash.go: Hash", "siphash/hash128.go: Hash128"]}
{"id": "C52", "title": "Murmur3 functions are the published algorithms", "statement": "For every byte string Sum32 returns MurmurHash3_x86_32 and Sum128 MurmurHash3_x64_128 of it with seed 0, as defined by Appleby's reference code (block mixing, zero-padded tail, length, finaliser).", "quantifier": "every byte string", "why_tests_cant": "the test file has five strings; an equality of functions needs a proof", "anchors": ["murmur3/murmur32.go: Sum32", "murmur3/murmur128.go: Sum128, bmix"]}
{"id": "C53", "title": "Murmur3 never collides inside one block", "statement": "Two byte strings of equal length that differ only inside one aligned 4-byte block (including the incomplete last one) have different Sum32; the same holds for Sum128 and 16-byte blocks.", "quantifier": "every pair of byte strings of equal length differing inside one aligned block", "why_tests_cant": "absence of collisions over all inputs cannot be tested", "anchors": ["murmur3/murmur32.go: Sum32", "murmur3/murmur128.go: Sum128"]}
{"id": "C54", "title": "Size is the number of bytes Sum appends", "statement": "hash.Hash requires Sum to append Size() bytes. True for New32 and New128 after any writes; false for New64, whose Size() is 16 while Sum appends 8 bytes (refuted).", "quantifier": "every stream", "why_tests_cant": "the promoted method is never compared with Sum in tests", "anchors": ["murmur3/murmur64.go: digest64", "murmur3/murmur128.go: Size", "murmur3/murmur32.go: Size"]}
{"id": "C55", "title": "The lookup3 byte hash is Jenkins' published algorithm", "statement": "For every byte string and every pair of initial values the byte hash, HashString and Sum32 return what hashlittle2 of Jenkins' lookup3.c returns.", "quantifier": "every byte string and every pair of initial values", "why_tests_cant": "equality of functions over unbounded inputs; the test file has six vectors", "anchors": ["jenkins/jenkins.go: Jenkins364, HashString, Sum32"]}
{"id": "C56", "title": "Explicit lengths and memory safety of lookup3", "statement": "With an explicit length that is at most len(k) (including zero and negative ones) the byte hash never panics nor reads outside the slice; the word hash panics exactly when the length exceeds the slice. Refuted for the byte hash with larger lengths: it never returns a value that depends on the slice only; through its unsafe pointer it reads beyond the slice without a panic exactly when len(k) is not a multiple of 4 and the length is a multiple of 4 or lies past the 12-byte block in which the slice ends, and otherwise it panics. The variant that checks the length panics for every larger length.", "quantifier": "every slice, every integer length", "why_tests_cant": "over-reads through unsafe pointers are silent", "anchors": ["jenkins/jenkins.go: Jenkins364, HashWordsLen"]}
{"id": "C57", "title": "Hash232 is lookup2", "statement": "Hash232 should be Jenkins' lookup2. Refuted; the exact difference is proved for all keys: the first tail byte is added to register c instead of a, and the length of the tail instead of the length of the key is added. Hash264 is characterised against a separate definition likewise.", "quantifier": "every key below 2^32 bytes and every seed", "why_tests_cant": "no reference implementation in the tests", "anchors": ["jenkins/jenkins.go: Hash232, Hash264"]}
{"id": "C58", "title": "Hash232 and very long keys", "statement": "Hash232 looks at len(k) mod 2^32 bytes only: every key of exactly 2^32 bytes has the hash of the empty key.", "quantifier": "every key, of any length, and every seed", "why_tests_cant": "needs keys of more than 4 GiB", "anchors": ["jenkins/jenkins.go: Hash232"]}
{"id": "C59", "title": "The lookup2 digest and its seed", "statement": "Every history of Write, Sum, Sum32 and Reset on a digest made by New232(seed) shows the Hash232 with seed 0 of the data since the last Reset; Sum does not disturb the state. That the seed given to New232 is used is refuted.", "quantifier": "every seed, every history", "why_tests_cant": "unbounded histories", "anchors": ["jenkins/jenkins.go: New232, State232c"]}
{"id": "C60", "title": "One-shot methods of the Jenkins digest objects", "statement": "Hash64S(b, seed) and Hash64(b, seed) of the 64-bit digest return the lookup3 hash whatever the object did before; Hash32 of the 32-bit digests ignores its seed arguments and uses seed 0. Refuted: Hash64(b) without seed is a function of b (it depends on earlier calls).", "quantifier": "every state of the object, every byte string, every seed", "why_tests_cant": "history dependent", "anchors": ["jenkins/jenkins.go: State332c.Hash32, State364.Hash64, State364.Hash64S, State232c.Hash32"]}
{"id": "C61", "title": "MetroHash is the published algorithm", "statement": "Hash64_2, Hash128_1 and Hash128_2 return the published MetroHash of every key and seed. Hash64_1 does so for all keys of a length exactly when the length is not 4 modulo 8; of the 256 keys of such a length that differ only in the last byte at most two have the published hash, under any seed.", "quantifier": "every key, every seed", "why_tests_cant": "the tests have one key of 63 bytes", "anchors": ["metro/metro64.go", "metro/metro128.go"]}
{"id": "C62", "title": "Range of the 64-bit MetroHash", "statement": "A 64-bit hash should be able to take any of 2^64 values. Refuted: every result of Hash64_1 and Hash64_2 has an even number of one bits; Hash64_1 has at most 2^63 and Hash64_2 at most 2^60 different results over all keys and seeds.", "quantifier": "every key, every seed", "why_tests_cant": "a statement about all results", "anchors": ["metro/metro64.go: Hash64_1, Hash64_2 (finalisers)"]}
{"id": "C63", "title": "Seeding FarmHash does not change which short keys collide", "statement": "For any two keys of at most 64 bytes, Hash64WithSeed (and Hash64WithSeeds) gives them equal hashes under some seed exactly when Hash64 does, hence under every seed. Moreover for every key of at most 64 bytes and every choice of 16 leading and 8 trailing bytes there is a 32 byte key with these ends that collides with it under every seed.", "quantifier": "all keys of at most 64 bytes and all seeds", "why_tests_cant": "quantifies over 2^64 seeds and all pairs of keys", "anchors": ["farm/farmhashna.go:156-162", "farm/farmhashuo.go:10-14"]}
{"id": "C64", "title": "FarmHash Hash64 is a permutation of one word of the key", "statement": "In a 32 byte key with all bytes but 16-23 fixed, or a 56 to 64 byte key with all bytes fixed but the eight that precede the last sixteen, every 64 bit value is the Hash64 of exactly one key. Keys of 25-32 (49-64) bytes that differ only in such places never collide.", "quantifier": "all fixed parts and all 2^64 values", "why_tests_cant": "2^64 values per fixed part", "anchors": ["farm/farmhashna.go:11-97"]}
{"id": "C65", "title": "Different first seeds give different FarmHash values for short keys", "statement": "For a fixed key of at most 64 bytes and fixed second seed, Hash64WithSeeds is a permutation of the first seed.", "quantifier": "all keys of at most 64 bytes, all seeds", "why_tests_cant": "2^64 seeds", "anchors": ["farm/farmhashna.go:160-162"]}
{"id": "C66", "title": "FarmHash Hash32 is a permutation of certain words of the key", "statement": "With seed and remaining bytes fixed, Hash32WithSeed is a permutation of each of the three words of a 12 byte key, of the first word of a key of 8 to 12 bytes or of 16 to 24 bytes and of the second word of a 24 byte key. Up to 24 bytes Hash32 equals Hash32WithSeed with seed 0 (false for longer keys).", "quantifier": "all keys of the lengths named, all seeds", "why_tests_cant": "2^32 values for each of unboundedly many contexts", "anchors": ["farm/farmhashmk.go:3-13", "farm/farmhashcc.go:7-23", "farm/farmhashmk.go:86-100"]}
{"id": "C67", "title": "Seeding the 32 bit FarmHash does not separate long keys with a common beginning", "statement": "Two keys of the same length above 24 with the same first 24 bytes have equal Hash32WithSeed under one seed iff under every seed, namely iff Hash32 of the remainders is equal.", "quantifier": "all such keys of unbounded length, all seeds", "why_tests_cant": "unbounded lengths, all seeds", "anchors": ["farm/farmhashmk.go:86-100"]}
{"id": "C68", "title": "NewCustom with unusual sizes: collisions, endless loop, panics", "statement": "NewCustom accepts any number of bits and rounds. If the digest size in bytes (below 100) is not a multiple of 4, the bytes of each block behind the last whole lane are ignored: messages that agree elsewhere have equal digests, and a message ending right behind the last whole lane of a block has the same digest as that message with any byte appended. With 800 to 807 bits Write never returns and Sum panics; with 808 or more every Write and Sum panics; with more than 24 rounds every Sum panics. Digests longer than the rate are not those of the published sponge.", "quantifier": "every message, every number of bits and rounds", "why_tests_cant": "the defects show only for particular sizes and message lengths; non-termination", "anchors": ["keccakpg/keccak.go: newKeccak, NewCustom, f, Write, Sum"]}
{"id": "C69", "title": "Sbox: for every key different seeds collide, and prefixes act as seeds", "statement": "Sbox, which takes two bytes at a time, equals the byte-by-byte function for every key. For every key there are two different seeds with the same hash and a 32-bit value given by no seed. Hashing p followed by key is hashing key under another seed.", "quantifier": "every key, seed and prefix", "why_tests_cant": "statements about all 2^32 seeds for each of infinitely many keys", "anchors": ["sbox/sbox.go"]}
{"id": "C70", "title": "CrapWow ignores the order of 8-byte blocks and forgets repeated ones", "statement": "CrapWow never panics or reads outside the key and equals a description by xor sums. Permuting the 8-byte blocks of a key leaves the hash unchanged, under every seed and with any bytes following. Keys x x t and y y t collide for all 8-byte x, y, all t and all seeds.", "quantifier": "every list of blocks, every permutation, every tail and seed", "why_tests_cant": "unbounded numbers of blocks and permutations", "anchors": ["crapwow/crapwow.go"]}
{"id": "C71", "title": "The null hash is a call counter, not a function of the key", "statement": "Each hash call on a null hash object returns one more than the number of earlier hash calls on it (mod 2^64); so with fewer than 2^64 calls in between the same key never hashes to the same value twice. Write and Reset do nothing, Sum appends eight zero bytes and so disagrees with Sum64, and the plain function returns zero.", "quantifier": "every history", "why_tests_cant": "history dependent", "anchors": ["nullhash/nullhash.go"]}
{"id": "C72", "title": "Keys made from lines", "statement": "reverse gives the bytes in reverse order each UTF-8 encoded, hence a true reversal and involution for ASCII but not in general (refuted). In every file test different lines give different keys. TestC, announced as adding four newlines, also doubles every non-empty line.", "quantifier": "every line", "why_tests_cant": "unbounded lines", "anchors": ["ht.go: reverse, TestA ... TestG"]}
{"id": "C73", "title": "Generated keys are distinct and complete", "statement": "The integer keys are the little-endian bytes of 0..ni-1 and are distinct exactly when ni <= 2^32. The marching-one keys are all one-bit keys of the given length, each once, in bit order. TestL's keys are all three-byte keys, each once; Dups2 is their number minus the number of different hash values and is zero exactly when the hash is injective on three-byte keys.", "quantifier": "every count, key length and hash function", "why_tests_cant": "unbounded", "anchors": ["ht.go: TestI, TestJ, TestL"]}
{"id": "C74", "title": "Which tests a command line runs", "statement": "With files, exactly the tests whose flag is on (all but K with -a) run for each named hash function that passes the -c/-h32/-h64 filters, as published. The reversing test is never run by any command line (flag G runs F); -a never runs K; without files and flags I and J run; with any filter on, names missing from the published table never run, though 13 entries of the default list are such; the default list repeats names.", "quantifier": "every command line", "why_tests_cant": "quantifies over all flag combinations", "anchors": ["ht.go: Tests, runTestsWithFileAndHashes, main, allTestsOn, allTestsOff"]}
{"id": "C75", "title": "Whole runs store one key per line", "statement": "For a file without blank lines and a line count at least the number of lines (or the default), every file test returns, chained or open-addressed, prime-sized or not, for every hash function, a table holding exactly the keys made from the lines, with as many insertions counted. A blank line or unreadable file makes every file test panic; with open addressing so does a line count making the table smaller than the file. Tests H, J and L always store exactly their keys.", "quantifier": "every file, hash function and table configuration", "why_tests_cant": "unbounded files", "anchors": ["ht.go: TestA ... TestL", "hashtable/hashtable.go: Insert"]}
{"id": "C76", "title": "The don't-round-up flag alternates", "statement": "With -dru every run of TestI negates the bucket count, so over a list of hash functions only the first, third, ... table has exactly the requested size, the others the rounded-up size; TestM as first such test panics.", "quantifier": "every list of hash functions and size", "why_tests_cant": "sequences of unbounded length", "anchors": ["ht.go: TestI, TestM"]}
{"id": "C77", "title": "Histogram and hash listing", "statement": "TestM's histogram entry j counts the keys whose hash is j modulo n and the entries sum to the number of keys. TestK, announced to print the hash of every key in the file, prints the hash of 1000 zero bytes for each of them.", "quantifier": "every hash function, size and file", "why_tests_cant": "unbounded", "anchors": ["ht.go: TestM, TestK"]}
{"id": "C78", "title": "SMHasher key families contain each key once", "statement": "Each family of test keys is enumerated without repetition and is exactly: all strings of 1-3 bytes (not the empty string the comment promises), all prefixes of the padded string, all zero strings up to the length, all strings of length n with at most two nonzero bytes, all sequences of at most n blocks, prefix + four letters of A-T a-t 0-9 + suffix (not A-Z a-z 0-9), all rotations of 16-bit patterns, and for the cyclic test pairwise different repeated strings whatever the random bytes.", "quantifier": "every length, block set, prefix, suffix, rotation and random stream", "why_tests_cant": "up to 44 million keys per family, unbounded parameters", "anchors": ["smhasher/smhasher.go: TestSmhasherSmallKeys, twoNonZero, TestSmhasherCyclic, genPerm, windowed, text"]}
{"id": "C79", "title": "SMHasher verdicts", "statement": "Up to 2^27 hashes a set is rejected exactly when two are equal, also when computed with float64 and square root as in the code, so each test complains exactly when two different keys of its family have equal hashes (with far more hashes collisions pass). The text, windowed and permutation tests print but never return a failure. The sanity test accepts every function of the key bytes. In a full run the line named SmallKeys is about two-nonzero strings, the line named Zeros about small keys, and the zero strings are never tested.", "quantifier": "every hash function and random stream", "why_tests_cant": "quantifies over hash functions", "anchors": ["smhasher/smhasher.go: check, Tests, RunSMhasher"]}
{"id": "C80", "title": "SMHasher avalanche grid", "statement": "Entry (i,j) of the avalanche grid is the number of random keys for which flipping input bit i changes bit j of the hash; keys are left unchanged. The search for the bounds that follows ends for every key size, after at most 85 rounds, with the first c that satisfies its condition, and the bounds are exactly 4c standard deviations from the mean, rounded outwards below and inwards above (c in tenths), in spite of float64 rounding. The test does nothing with them: of a hash of b bits at least 64 - b entries per bit of the key are out of bounds, of a hash ignoring its input all, and the test still reports nothing.", "quantifier": "every hash function, key size and list of keys", "why_tests_cant": "quantifies over hash functions", "anchors": ["smhasher/smhasher.go: avalancheTest1"]}
{"id": "C81", "title": "Package keccak (cgo) is the published Keccak hash", "statement": "Objects of New224/256/384/512 behave as hash.Hash promises for Keccak with capacity twice the output: for any interleaving of Write (each at most 2^29-200 bytes), Sum and Reset, every Write takes all its bytes without error, Sum(b) returns b followed by the Keccak digest of the bytes written since the last Reset and changes nothing; Size and BlockSize are the digest length and the absorbed block length.", "quantifier": "every sequence of calls, every data", "why_tests_cant": "tests compare a finite list of digests of short single writes; splitting of data over calls, queue boundaries and all message lengths are unbounded", "anchors": ["keccak/keccak.go: New224, New256, New384, New512, Write, Sum, Reset, Size, BlockSize", "keccak/KeccakSponge.c", "keccak/KeccakF-1600-opt64.c"]}
{"id": "C82", "title": "Exactly which large writes package keccak survives", "statement": "With q bytes pending from earlier writes (q = bytes written modulo the block size B), a Write of n bytes is hashed correctly if q = 0; otherwise it writes outside its buffer exactly if (n mod 2^29) + q >= 2^29, never returns exactly if n >= 2^29 and (n mod 2^29) + q < B, and is hashed correctly in all other cases. So 'every Write is hashed' is false: one byte followed by 512 MiB never returns, followed by 512 MiB minus one byte it corrupts memory.", "quantifier": "every sequence of calls with writes that fit in memory", "why_tests_cant": "needs half a gigabyte of data, and is about non-termination and undefined behaviour", "anchors": ["keccak/KeccakSponge.c: Absorb (partialBlock)", "keccak/keccak.go: Write"]}
{"id": "C83", "title": "Packages keccak and keccakpg agree", "statement": "For the four sizes both have, the digest of package keccak of a buffer equals the digest of package keccakpg of the same buffer written in any consecutive pieces; Hashf(\"keccak224\") is the first eight bytes, big endian, of Keccak-224 of the key, whatever the shared object was used for before.", "quantifier": "every buffer, every division into pieces, every earlier use", "why_tests_cant": "two independent implementations compared on all inputs", "anchors": ["keccak/keccak.go", "keccakpg/keccakpg.go", "hashf/hashf.go: keccak224"]}
{"id": "C84", "title": "The optimised permutation is Keccak-f[1600]", "statement": "The 24 unrolled rounds, run on a state whose lanes 1, 2, 8, 12, 17 and 20 are complemented, give the state of Keccak-f[1600] with the same lanes complemented, whatever the uninitialised local variables contain.", "quantifier": "all 2^1600 states", "why_tests_cant": "the state space is 2^1600", "anchors": ["keccak/KeccakF-1600-opt64.c", "keccak/KeccakF-1600-64.macros.h", "keccak/KeccakF-1600-unrolling.macros.h"]}
{"id": "C85", "title": "The C functions hash bit strings and hand out output in pieces", "statement": "After Init with one of the lengths 0, 224, 256, 384, 512 (whatever the state held before), or InitSponge with a rate that is a multiple of 64, any sequence of Update, Squeeze and Final calls returns what the Keccak sponge on bits with pad10*1 padding gives for the concatenation of the accepted bit strings (the last bits of a partial byte being its high order bits): consecutive Squeeze and Final calls hand out consecutive pieces of one output stream; Update after a partial byte or after squeezing has begun is refused and changes nothing; a Squeeze whose length is not a multiple of 8 is refused, leaves the output array alone, but ends the input phase. Other lengths are refused by Init, which leaves the state alone.", "quantifier": "all sequences of calls, all data, all bit lengths below 2^32 - 1600 per Update, all output lengths, all rates", "why_tests_cant": "call sequences, bit lengths and contents are unbounded", "anchors": ["keccak/KeccakNISTInterface.c:18-63", "keccak/KeccakSponge.c:21-266"]}
{"id": "C86", "title": "The reported hash quality is accurate", "statement": "The float64 returned by HashQuality for a chained table is the float64 nearest to the exact quotient of C09 as long as numerator and denominator fit 53 bits. Beyond that (n + 2*size at most 2^52) it is finite and its relative error is at most (4 + number of non-empty buckets) / 2^52. Without insertions it is 0 (no division of zero by zero).", "quantifier": "every insertion history, hash function and table size in the stated ranges", "why_tests_cant": "rounding errors accumulate over unboundedly many buckets", "anchors": ["hashtable/hashtable.go:263-285"]}
{"id": "C87", "title": "Random numbers in a range, and the random seed of a run", "statement": "For a random float64 in [0,1) and a <= b < 2^52, rbetween(a, b) returns a number from a to b + 1. Every number from a to b can come out (b < 2^50). From a = 0 it is at most b. For a >= 1 the value b + 1, outside the requested range, is possible exactly when a = b or b - a has fewer bits than b. The random seed of a run, rbetween(0, 2^63), is the float scaled by 2^63 rounded down, at most 2^63 - 1024: with math/rand's Float64 it is Int63() rounded to 53 significant bits.", "quantifier": "all float64 values in [0,1), all bounds below 2^52", "why_tests_cant": "the wrong value needs the largest of 2^53 random values", "anchors": ["ht.go:348-356", "ht.go:372"]}
{"id": "C88", "title": "Murmur3 collisions that no salt removes", "statement": "Every 8 bytes have a different partner that can replace them at any position that is a multiple of 4 in any message without changing Sum32 (32 bytes and multiples of 16 for Sum128 and Sum64). Hence there are two strings such that for every n the 2^n messages made of n of them are distinct and all collide after every salt whose length is a multiple of the block size; a chained hash table keyed by the salted hash puts them all into one bucket and reports a longest chain of 2^n.", "quantifier": "all messages, positions, salts, suffixes, n, table sizes", "why_tests_cant": "quantifies over all salts and all lengths; random tests do not find the pairs", "anchors": ["murmur3/murmur32.go: Sum32", "murmur3/murmur128.go: Sum128", "murmur3/murmur64.go: Sum64", "hashtable/hashtable.go: Insert"]}
{"id": "C89", "title": "What an SMHasher run over the named hash functions reports", "statement": "Through the name-selected hash a client of any shape sees one fixed function of bytes and seed (except the two counting null hashes). `ht -sm -hf name` completes iff the name is known and accepts the empty key; otherwise it crashes at the first test. The lines reported are those of the tests applied to the published hash of that name; the null hashes get 20480 sanity complaints and no others. `-sm -hf all` completes iff -c is given, or both -h32 and -h64 (then nothing is tested); without filters it reports on two names and crashes. Every name whose hash ignores the seed fails the Seed line; ten 32-bit names fail the line on keys with two nonzero bytes.", "quantifier": "all command lines, names, initial memories, random bytes, implementations of the outside packages, client programs", "why_tests_cant": "quantifies over all names, flags and random choices, and a run takes hours; absence of interference between calls is a statement about all call sequences", "anchors": ["ht.go: main (-sm)", "smhasher/smhasher.go: RunSMhasher", "hashf/hashf.go: Hashf"]}
{"id": "C90", "title": "What the benchmarks measure", "statement": "`ht -b -hf name -n n` completes iff n <= 0 or the name is known and accepts keys of 4 bytes. It prints eight lines: key sizes 4..64 with n keys, 512..4096 with n/10 truncated, and their product while it fits. Every call of a line hashes the same all-zero key with seed 0. `-b -hf all` completes iff a filter is given or n <= 0; otherwise it crashes at skein256. The hard-coded benchmark runs only when -hcb is given with a single name; whatever the name, it computes the published SpookyHash of that many zero bytes, always completes and prints one table with the same eight rows.", "quantifier": "all command lines, names, counts, initial memories, implementations of the outside packages", "why_tests_cant": "benchmarks have no test; the claim is about every call and every name", "anchors": ["ht.go: benchmark32g, benchmark, keySizes, main (-b, -hcb)"]}
{"id": "C91", "title": "What the mixing test of the Jenkins example program reports", "statement": "For every key length 0..69 the mixing test prints exactly one line and never panics. `Mix success n trials` means: for every input byte, bit and initial value, n+1 key pairs suffice for every hash bit to have been seen as 0 and as 1 on either key, equal and different across the pair; and for some of them n pairs do not (so the number printed as required is one too small, witnessed at length 1: 15). Otherwise the line names the first byte, bit and initial value for which all 3011 pairs do not suffice, and each of the six masks printed tells bit by bit what was always the case. The two keys of a pair differ in the bit under test and no other. Only 256 of the 3011 pairs are different, so more than 255 is never printed.", "quantifier": "all key lengths, bytes, bits, initial values and trial numbers", "why_tests_cant": "the meaning of the printed number is a statement about all pairs of trials, inputs and hash bits; the program has no oracle for it", "anchors": ["jenkins/example/example.go: driver2"]}
{"id": "C92", "title": "What the Jenkins example benchmarks hash and count", "statement": "The 32-bit benchmark of n keys hashes only min(n,256) different keys (the counter is truncated to a byte before its bytes are taken); a negative count does nothing. The 64-bit benchmark hashes the four bytes of the counter six times over; whatever sort.Sort does with equal elements, the duplicates printed plus the number of distinct hashes is n, and zero is printed iff no two of the n hashes are equal; from 2^32 on every further key is a duplicate; a negative count panics. Turning a string into words gives its little-endian words when the length is a multiple of 4, otherwise memory past the string is read.", "quantifier": "all counts, all results of an unstable sort, all strings", "why_tests_cant": "counts are unbounded and the sort is unspecified on equal elements; out-of-bounds reads through unsafe pointers are invisible to tests", "anchors": ["jenkins/example/example.go: benchmark32, benchmark64, checkForDups64, stu, main"]}
{"id": "C93", "title": "gomap collisions that no seed removes", "statement": "Every 8-byte key of Hash32 (16-byte key of Hash64) has a different partner of the same size with the same hash under every seed. Every 32 (64) bytes have a different partner that can replace them at any position that is a multiple of 16 (32) in any key, under every seed, without changing the hash. Hence there are two strings such that for every n >= 1 the 2^n keys made of n of them are distinct and all share a hash under every seed: choosing the seed at random does not protect a table against chosen keys.", "quantifier": "all keys, positions, surrounding bytes, seeds, n", "why_tests_cant": "quantifies over all seeds and all lengths; random tests do not find the pairs", "anchors": ["gomap/hash32.go: Hash32", "gomap/hash64.go: Hash64"]}
{"id": "C94", "title": "Hash quality, Heads and Dups averaged over all hash functions; range of the quality", "statement": "For n distinct keys and a chained table of m buckets (prime modulus, or mask with m a power of two), the values HashQuality reports for the m^n hash functions from the keys to the buckets add up to exactly m^n: the average is exactly 1. For any one hash function the value lies between 2m/(n+2m-1), reached exactly when no two keys share a bucket, and m(n+1)/(n+2m-1), reached exactly when all keys share one. In open-addressing mode the value is always 2m/(n+2m-1): it says nothing about the hash function. Summed over the same functions, Heads is m^(n+1) - m(m-1)^n; summed over all functions to M hash values, Dups is n(n-1)/2 * M^(n-1) in either mode.", "quantifier": "all tables, key lists, hash functions (exact rationals, as in C09)", "why_tests_cant": "an average over all hash functions and an equivalence over all key sets cannot be sampled", "anchors": ["hashtable/hashtable.go: HashQuality", "hashtable/hashtable.go: Insert"]}
{"id": "C95", "title": "What an SMHasher verdict says about a random function", "statement": "Take n <= 2^27 distinct keys and all M^n functions from them to M hash values. The collision check passes exactly M(M-1)...(M-n+1) of them (none if n > M). So the share reported is at most n(n-1)/(2M), and the share that passes at most 2M/(2M+n(n-1)). For the test of all strings of one to three bytes this means: fewer than one in 2^16 of the 64-bit functions is reported, and fewer than one in 33000 of the 32-bit functions passes - the verdict is about a 64-bit hash, a 32-bit one fails it however good it is.", "quantifier": "all sets of distinct keys, all numbers of hash values", "why_tests_cant": "counts all hash functions", "anchors": ["smhasher/smhasher.go: check", "smhasher/smhasher.go: TestSmhasherSmallKeys"]}
{"id": "C96", "title": "What the order of insertion can change", "statement": "Insert the same keys (with repetitions) in two different orders into equal new tables. Chained: both succeed, each bucket of one is a permutation of the same bucket of the other, and every statistic and the hash quality are equal. Open addressing: if one order succeeds so does the other, the same slots are taken, Inserts, Heads, Dups are equal, and the number of slots looked at (Probes + Cols) is equal. Probes and Cols one by one, hence the printed ppi and cpi, are not: a witness with three keys in four slots is given.", "quantifier": "all tables, hash functions, key lists and permutations of them", "why_tests_cant": "n! orders for every key list; the slots taken are the same though the keys in them are not", "anchors": ["hashtable/hashtable.go: Insert", "hashtable/hashtable.go: Print"]}
{"id": "C97", "title": "Open addressing averaged over all hash functions", "statement": "Take n distinct keys, an open-addressing table of m >= n slots (prime modulus, or mask with m a power of two) and all m^n hash functions from the keys to the slots. The average of Probes is n(1 + (n-1)/(2m)). Twice the sum of Cols over all functions is n times the sum for k = 2..n-1 of (n-1)(n-2)...(n-k) * m^(n-k) (Knuth's count of linear probing, less the first collision of each key, which this code counts as a probe). So an insertion looks on average at no more than 1 + (n-1)/(2(m-n+1)) slots, whatever the size of the table.", "quantifier": "all tables, numbers of slots and keys", "why_tests_cant": "an exact average over m^n functions cannot be sampled", "anchors": ["hashtable/hashtable.go: Insert", "hashtable/hashtable.go: Print"]}
{"id": "C98", "title": "The insertion trace tells the whole story of the table, four bytes per key", "statement": "With tracing on, inserting keys of at least four bytes leaves exactly the table and figures of the silent run. The trace lines are numbered 0, 1, 2, ... and there are Probes + Cols of them. In a chained table a key gives one line I with its home bucket and its place in that bucket; with open addressing it gives one line P for every taken slot from the home slot on (round the end of the table) and then one line I for the free slot it takes. A reader who knows only the table size and the lines rebuilds the table, every key shown by its first four bytes as a little-endian number. A key shorter than four bytes panics before anything is printed about it, although the silent run accepts it. Different keys with the same first four bytes cannot be told apart in the trace.", "quantifier": "all tables, hash functions, key sequences", "why_tests_cant": "a statement about every probe sequence of every table", "anchors": ["hashtable/hashtable.go: Insert", "hashtable/hashtable.go: btoi", "hashtable/hashtable.go: Trace"]}
{"id": "C99", "title": "The listing of equal hashes names every pair once, and only with open addressing", "statement": "With the flag pd and open addressing, what Insert prints is a sequence of pairs of lines; each pair shows two keys with equal hash and a slot number, the second key being the one stored in that slot; and every pair of inserted keys with equal hash is listed exactly as often as it occurs in the sequence of insertions. So the listing has 2 * Dups lines. A chained table prints nothing whatever the flag, even if Dups is positive; without the flag nothing is listed.", "quantifier": "all tables, hash functions, key sequences", "why_tests_cant": "needs that no key with the same hash lies behind the free slot found, in every reachable table", "anchors": ["hashtable/hashtable.go: Insert", "hashtable/hashtable.go: NewHashTable"]}
{"id": "C100", "title": "The hash objects of Halloc against Hashf", "statement": "Halloc returns an object for exactly the names j332c, j232, sbox and CrapWow and nil otherwise. Any sequence of Hash32 calls on the sbox or CrapWow object, each with the low half of a seed, returns what Hashf returns under that name for the same keys and seeds. The j332c and j232 objects return, whatever seeds they are given, what Hashf returns for seed 0; so for other seeds they disagree with Hashf.", "quantifier": "all names, keys, seeds and sequences of calls", "why_tests_cant": "all keys, seeds and call histories", "anchors": ["hashf/hashf.go: Halloc", "hashf/hashf.go: Hashf", "nhash/nhash.go: HashF32"]}
{"id": "C101", "title": "Hash functions that give every value equally often, and buckets filled evenly", "statement": "With everything else of the key fixed, each possible value is the hash of exactly the same number of keys: for lookup3 (HashString, 64 bits: 2^32 keys per value) and Hash232 (2^64 per value) over the last 12-byte block, Hash264 over the last 24-byte block (2^128 per value), Murmur3 Sum32 over any aligned 4 bytes and Sum128 over any aligned 16 bytes (one per value), gomap over all 4-byte (8-byte) keys, FarmHash over the words of C64 and C66. So every value is reached under every seed and after every beginning. Low and high parts of such hashes have the same property, and a hash table whose number of buckets is a power of two gives every bucket exactly the same number of these keys; one of prime size gives bucket i its exact share of the remainders. MetroHash64 has the property in no place and for no number of bytes.", "quantifier": "every beginning of whole blocks, every seed, every value, every table", "why_tests_cant": "counts over up to 2^192 keys", "anchors": ["jenkins/jenkins.go: HashString, Hash232, Hash264", "murmur3", "gomap", "farm", "metro", "hashtable/hashtable.go: Insert"]}
{"id": "C102", "title": "The hash table with the real hash functions: keys are kept as they were inserted", "statement": "A program allocates byte arrays, overwrites them at any time, calls hashf.Hashf on pieces of them with any names, and inserts pieces of them into a HashTable while hashf.Hf2 has some name other than nullhash and nullhashF64ns. At the end buckets and statistics are exactly those of inserting, in order, the bytes each key had when it was inserted, with the function the name stands for (C44): neither overwriting a buffer after inserting it, nor the buffers and digests package hashf shares between calls, nor the calls in between change a stored key, a bucket or a counter. The program panics iff one of the hashed keys is too short for its function or the name is unknown, or the table is full. With nullhash or nullhashF64ns, whose hash changes from call to call, bucket sizes and statistics depend only on the number of insertions, Dups stays 0 even when all keys are equal, and as long as there are no more keys than buckets every key has a bucket of its own: such a run says nothing about the keys.", "quantifier": "every program, every name, seed and table size, chained and open addressing, every earlier use of package hashf", "why_tests_cant": "all interleavings of callers' writes, hash calls and insertions, with shared package state", "anchors": ["hashtable/hashtable.go: NewHashTable, Insert", "hashf/hashf.go: Hashf", "nullhash"]}
{"id": "C103", "title": "The streaming digests keep no view of the caller's memory; copies of a digest may be read but not both written", "statement": "A program allocates byte arrays, overwrites them at any time, makes any number of digests with jenkins.New332c, New364, New232 and murmur3.New32, New64, New128 and siphash.New, New128 (with a piece of an array as the key), and calls Write with pieces of its arrays, Sum with pieces of its arrays, Sum32/Sum64/Sum128 and Reset in any order. Every result and the final contents of the program's arrays are those of digests that hold the bytes as they were at the time of each Write and share no memory with the program or with each other: overwriting a buffer after Write, or a siphash key after New, changes nothing, Write never changes a buffer, and the only effect on the program's arrays is that Sum(b) appends behind b, in place exactly when b has the capacity. A copy of a jenkins digest (t := *s, the structs are exported; the way to read an intermediate hash, since Sum changes the digest) behaves as a digest of its own as long as, of a digest and its copies, at most one is written to before its next Reset. If both are written to this fails: the two share the spare capacity of the pending bytes, and after writing p to one and then q of the same length to the other both have hashed x followed by q, whenever the runtime left room for it behind the bytes x written before.", "quantifier": "every program, every number of digests of the eight kinds, all contents and lengths, every choice of capacities by the runtime", "why_tests_cant": "aliasing depends on capacities chosen by the runtime and on the interleaving of the caller's writes with the calls", "anchors": ["jenkins/jenkins.go: State332c, State364, State232: Write, Sum, Sum32, Sum64, Reset", "murmur3/murmur.go: digest.Write, Reset", "murmur3: New32, New64, New128, Sum, Sum32, Sum64, Sum128", "siphash/siphash.go: newDigest, New, New128, Write, Sum, Sum64, Reset"]}
{"id": "C104", "title": "How far HashQuality, Dups and LongestChain can be from their averages by chance", "statement": "Take n distinct keys, a chained table of m buckets (prime modulus, or mask with m a power of two) and all M^n functions from the keys to M hash values, M any multiple of m. The qualities HashQuality reports average exactly 1, and their squared distances from 1 average exactly 2(n-1)(m-1)/(n(n+2m-1)^2). So the fraction of these functions for which HashQuality is off 1 by eps or more is at most 1/(4 n eps^2), whatever the number of buckets: a reported quality far from 1 with many keys is evidence against the hash function. LongestChain is k or more (k >= 2) for at most a choose(n,k)/m^(k-1) fraction of them, and with more keys than buckets it is at least n/m for every hash function. In either mode the squared distances of Dups from its average n(n-1)/(2M) over all functions to M hash values average exactly n(n-1)(M-1)/(2M^2).", "quantifier": "all tables, key lists, numbers of hash values, eps and k (exact rationals, as in C09)", "why_tests_cant": "a statement about all hash functions at once: no sample of functions gives the exact variance or the bound", "anchors": ["hashtable/hashtable.go: HashQuality", "hashtable/hashtable.go: Insert"]}
{"id": "C105", "title": "One block of the key makes up for its beginning and for the seed", "statement": "For Jenkins364 (any two pairs of initial values), Jenkins Hash232 and Hash264 (any two seeds), Murmur3 Sum32 and Sum128, gomap Hash32 and Hash64 (any two seeds, keys longer than one block), MetroHash64 (one seed) and MetroHash128 (any two seeds): given any two beginnings of the same whole number of blocks, the next block can be replaced one-to-one so that the key with the second beginning and seed has the hash of the key with the first, whatever follows. Hence, whatever is asked of the hash value, exactly as many keys of a length of at least a block satisfy it under one seed and beginning as under another: no seed is better than another over all keys of a length. And any list of different beginnings can be completed by one block each to keys that all have the same hash, in a chained table one bucket with all of them, LongestChain the number of keys and Dups every pair, whatever the number of buckets.", "quantifier": "all beginnings, seeds, blocks, continuations, lengths (below 2^32 resp. 2^64 bytes for Hash232 and Hash264), tests of the hash, tables", "why_tests_cant": "for all keys of all lengths and all pairs of seeds there is a one-to-one replacement; the counts are over all keys of a length", "anchors": ["jenkins/jenkins.go: Jenkins364", "jenkins/jenkins.go: Hash232", "jenkins/jenkins.go: Hash264", "murmur3/murmur32.go: Sum32", "murmur3/murmur128.go: Sum128", "gomap/hash32.go: Hash32", "gomap/hash64.go: Hash64", "metro/metro64.go: Hash64_1", "metro/metro128.go: Hash128_1", "hashtable/hashtable.go: Insert"]}
{"id": "C106", "title": "The time on the summary line", "statement": "Print shows the duration of a run as a number and a unit. For every duration that a time.Duration can hold, of either sign, the unit is exactly \"s\" from one second on, \"ms\" from one millisecond to less than one second and \"us\" below (also for negative durations), in spite of rounding. The number is finite and differs from the number of nanoseconds divided by 10^9, 10^6 or 10^3 by at most one part in 2^49. It is at least 1 from one millisecond on, and less than 1000 below one second. Both hold for either of the two formulas package time has used for Duration.Seconds.", "quantifier": "all 2^64 durations", "why_tests_cant": "the boundaries between the units depend on rounding of three float64 operations; 2^64 durations", "anchors": ["hashtable/hashtable.go:288-303"]}
{"id": "C107", "title": "ppi and cpi on the summary line", "statement": "Insert n >= 1 keys into a new open-addressing table. Probes is from n to 2n-1 and Cols at most (n-1)(n-2)/2; both maxima are reached when all keys have the same home slot. Probes is n exactly if no two keys have the same home slot. The ppi shown (n up to 2^52) is the float64 nearest to Probes/n, it is less than 2 however many collisions there are, and it is 1 exactly if no two keys have the same home slot. The cpi shown (n up to 2^32) is 100*Cols/n up to one part in 2^50, and can be far above 100 percent. Without an insertion both are NaN.", "quantifier": "all tables, hash functions and key lists in the stated ranges", "why_tests_cant": "bounds over all hash functions, and rounding that must not turn 1 + 1/n into 1 or 2 - 1/n into 2", "anchors": ["hashtable/hashtable.go: Insert", "hashtable/hashtable.go:310-312"]}
{"id": "C108", "title": "The SMHasher report on the 32-bit hashes, number by number", "statement": "For eleven 32-bit hash names (murmur332, j332c, j332b, j232, j264l, j264h, j264xor, spooky32, sbox, FarmHash32, CrapWow) the number of complaints on the lines of `-sm` is fixed, whatever the random bytes: no sanity complaint, no avalanche complaint, all five permutation sets, the line on keys with two nonzero bytes 1, texts 3 (murmur332 and FarmHash32: 2), sparse sets 8 (murmur332: 7), keys of one to three bytes 1 (murmur332: 0); windows from 1 to 1120, cyclic from 1 to 9. Five names also fail the Seed line. CrapWow forgets a beginning of whole blocks that is written twice, so at least five of the nine cyclic lengths complain, and appended zeros complain. MetroHash64-1, though 64 bits wide, fails at least 23 windows, three permutation sets, two sparse sets and the line on two nonzero bytes. Murmur3 Sum32 separates all keys of up to three bytes.", "quantifier": "all random bytes of the run, all implementations of the outside packages, verbose or not; all keys and seeds for the two statements on CrapWow and Murmur3", "why_tests_cant": "a run takes hours and depends on random bytes; absence of collisions over sets of up to millions of keys", "anchors": ["smhasher/smhasher.go: RunSMhasher and the tests", "hashf/hashf.go: Hashf", "crapwow/crapwow.go", "metro", "murmur3"]}
{"id": "C109", "title": "The tests with keys of their own, on memory and in their results", "statement": "The integer test, the one-bit test and the three-byte test keep one buffer, overwrite it in place and give it to Insert again and again; the table they leave is still the one for distinct, immutable keys, and they panic exactly if the hash function cannot take one of their keys. With perfecthash, gomap32, gomap64 or murmur332 (any seed) the integer test counts no duplicate hash, and with the last three the three-byte test reports zero duplicates out of 2^24. With perfecthash and at least as many slots as integers, every integer i sits alone in slot i, with one probe per key and no collision, chained or open; with fewer slots chains have the even lengths. Over all 2^32 integers perfecthash, gomap32 and murmur332 fill every slot of any table with the same count up to one. MetroHash64-1 reports at least ni - 2^24 duplicates for every seed. Ten other 32-bit names (among them sbox, CrapWow, FarmHash32, spooky32 and the Jenkins hashes) do collide on three-byte keys and on integers with seed 0.", "quantifier": "all flags, table sizes, numbers of integers, seeds, growth policies of append, memories and outside packages", "why_tests_cant": "sharing of memory depends on the capacity that append picks; absence of duplicates over 2^32 integers and all seeds cannot be enumerated", "anchors": ["ht.go: TestI, TestJ, TestL", "hashtable/hashtable.go: Insert", "hashf/hashf.go: Hashf", "murmur3", "metro"]}
{"id": "C110", "title": "Hashf from several goroutines", "statement": "Twenty-nine of the names (among them the Jenkins lookup2 hashes, spooky32/64, siphash64, FarmHash32/64 and MetroHash64) may be used by any number of goroutines at once, each also writing to arrays of its own: in every order of steps no call panics and every goroutine gets the hashes of its own keys, as if it were alone, and none waits. Eighteen may not: for each, and for all keys, there is an order of steps in which a call returns the hash of the other goroutine's key; with siphash64pg it returns the hash of the own key under the other's seed (when all use one seed, siphash64pg behaves like the twenty-nine); the names that combine two halves can combine halves of different keys, and the result is then the hash of no key; with the digest objects it can be the hash of the two keys joined, and with the keccakpg names the second key is then written into the program's memory behind the first. When goroutines without a mutex set Hf2 to different names among the twenty-nine (the assignment taken as one step), no call panics and each answer is the hash of the own key and seed under one of the names in use, but not always the own: for any two names there is an order of steps in which one goroutine gets its key's hash under the name set by the other. With one mutex held around every use, Hf2 set after it is taken, all names may be used, and buffers shared: in every order of steps no call panics, the answers are those of a sequential program made of whole sections, in each goroutine's order, and no goroutine is ever stuck.", "quantifier": "all numbers of goroutines, programs, keys, seeds, initial memories, growth policies of append, outside packages and orders of steps", "why_tests_cant": "the number of orders grows exponentially with the steps and the scheduler picks one; a race that is not hit shows nothing, and the absence of one cannot be observed", "anchors": ["hashf/hashf.go: Hashf, Hf2, t, l, b, c and the digests and buffers of the package"]}
{"id": "C111", "title": "The C Keccak is the same function under every build setting", "statement": "Whichever settings the C files of package keccak are compiled with - scalar code with or without complemented lanes, MMX, SSE on 64-bit lanes, SSE on pairs of lanes; 24, 12, 8, 6, 4, 3, 2 or 1 rounds per turn; any set of the fast absorbing functions; little- or big-endian - every sequence of Write, Sum and Reset gives the same results, for writes of any size, and for ordinary writes these are the published Keccak-224/256/384/512, whatever was in the local variables before. With 128-bit SSE and a state that is not aligned to 16 bytes the first Sum of a new object faults.", "quantifier": "all settings, all contents of uninitialised variables, all four sizes, all sequences of calls", "why_tests_cant": "a build has one set of settings, the repository contains one, and the others need other compilers and machines; there are more than 2000 combinations, and for each the inputs are unbounded", "anchors": ["keccak/KeccakF-1600-opt64.c", "keccak/KeccakF-1600-unrolling.macros.h", "keccak/KeccakF-1600-64.macros.h", "keccak/KeccakF-1600-simd64.macros.h", "keccak/KeccakF-1600-simd128.macros.h", "keccak/KeccakSponge.c"]}
{"id": "C112", "title": "A whole run of the command prints each test as if it ran alone", "statement": "Whatever files, tests, hash functions and flags the command is given, it prints, in the order of the plan (each file, each test flag, each hash function that passes the filters), exactly what each test prints alone from a fresh start, although tables, the digests and scratch buffers of hashf, the -n flag and the random numbers live on from test to test; with -dru the bucket count changes sign at each use of tests I and M, and nothing else is carried over. For hash functions whose value counts calls only the shape of the piece and whether it succeeds are given. The output stops at the first test that fails, and when the files have no blank lines, the names take the keys and the tables have a bucket the command ends normally. Two commands that share a test, its file, -n and -l print the same section for it. A test that has a key crashes with \"skein256\", so the command without arguments, which is to run tests I and J with all functions, never reaches J nor the two functions after that name. With files but no test flag nothing is printed.", "quantifier": "all command lines that run tests, all file contents, all contents of memory at the start, all growth policies, all external digests", "why_tests_cant": "state shared by all tests of a process would show only for particular orders of tests and functions, and there are unboundedly many command lines and files", "anchors": ["ht.go:76-378", "ht.go:706-743", "ht.go:806-940", "hashf/hashf.go", "hashtable/hashtable.go"]}
{"id": "C113", "title": "What the hash objects declare about themselves", "statement": "For the objects made by sbox.New, crapwow.New, jenkins.New332c, New364, New232 and nullhash.NewF64: Sum, where there is one, appends exactly Size() bytes; every one-shot hash call returns a word of 8*Size() bits, no fewer would do, and HashSizeInBits says the same. NumSeedBytes is the number of bytes of the seed arguments that can change the result for sbox and CrapWow (the first seed, 32 bits) and for the 64-bit lookup3 object (all 64 bits of one seed, or the low halves of two; of three or more seeds none). Refuted for New332c, New232 and nullhash, which declare 8, 4 and 8 seed bytes: no bit of any seed argument ever changes their result. The same holds for the seed given to the constructor and calls without seed arguments: every bit of it counts for sbox, CrapWow and New364, none for the others.", "quantifier": "all objects, all histories of calls, all keys, all numbers and values of seed arguments, every bit of every seed", "why_tests_cant": "that a seed bit never matters, and that no key makes a longer result, are claims over all keys, seeds and histories", "anchors": ["nhash/nhash.go:16-31", "sbox/sbox.go:69-93", "crapwow/crapwow.go:86-110", "jenkins/jenkins.go:899-964", "jenkins/jenkins.go:977-1044", "jenkins/jenkins.go:1067-1117", "nullhash/nullhash.go:16-50"]}
{"id": "C114", "title": "The byte order of the machine", "statement": "The functions that read the key as machine words through package unsafe (murmur3 Sum32/Sum64/Sum128, jenkins Jenkins364, Hash232 and Hash264, CrapWow, siphashpg.Siphash, long keys of spooky) are computed on a big-endian machine as follows: the result is the result of a little-endian machine on the key with the bytes of each word so read written backwards and all other bytes unchanged (for spooky, on the padded blocks so turned; nothing changes for keys below 192 bytes). Hence both machines agree on keys without a whole word (below 4, 8, 12, 16, 24 bytes respectively) and on keys whose words are palindromes; for murmur3 keys with one whole word or block they agree only then. The murmur3 digests still hash what was written, on either machine. Refuted: that the hash does not depend on the machine, for each of the eight, from the first length that has a word; that on a big-endian machine the word loop and the byte loop of Hash232 and Hash264 agree; that siphashpg then agrees with siphash.", "quantifier": "both byte orders, all keys of all lengths, all seeds, all round counts, all explicit lengths within the key, all histories of the murmur3 digests", "why_tests_cant": "tests run on one machine and on finitely many keys; the claim relates the results of two machines on every key", "anchors": ["crapwow/crapwow.go:10-16", "crapwow/crapwow.go:44-57", "jenkins/jenkins.go:110-138", "jenkins/jenkins.go:290-328", "jenkins/jenkins.go:737-802", "murmur3/murmur32.go:43-62", "murmur3/murmur32.go:105-154", "murmur3/murmur128.go:56-84", "siphashpg/siphash.go:77-134", "spooky/spooky.go:56-61", "spooky/spooky.go:137-183"]}
{"id": "C115", "title": "The SMHasher tests on a machine with 32-bit words", "statement": "On a machine whose uintptr has 32 bits the hash is cut to its low 32 bits and the tests tolerate collisions: up to 2^26 keys, a test complains when the number of keys whose hash occurred before exceeds the expected number n(n-1)/2^33 by thirty standard deviations, and is silent below it, but for a rounding difference of at most 2^-32. For the keys of every test this is an exact count: 0 of 262 appended zeros, 38477 of 16843008 small keys, 242286 of 44251440 two-byte keys, 33 of 100000 seeds, 440 of 1000000 cyclic keys, 6570 of 6250000 texts, 21 of 65536 windows, and likewise for the eight sparse and five permutation sets, whatever the hash and the order of the keys. Of all functions from the keys to 32-bit or 64-bit values at most one in 899 is reported. A hash of at most 32 bits (among them thirteen names of Hashf) that is reported on a 32-bit machine is reported on a 64-bit one, and the verdict on appended zeros is the same on both: CrapWow fails it, while murmur3 Sum32 passes the small keys. With 64-bit words the tests are those of C79. Refuted: that a hash reported on a 64-bit machine is reported on a 32-bit one.", "quantifier": "all hash functions, all prefixes and suffixes, all random bytes, all rotations and window keys, all sets of at most 2^26 keys", "why_tests_cant": "the counts must be right for every hash function; a test runs one function on one machine, and the bound is a rounded floating-point number", "anchors": ["smhasher/smhasher.go:96-129", "smhasher/smhasher.go:165-200", "smhasher/smhasher.go:202-256", "smhasher/smhasher.go:298-392", "smhasher/smhasher.go:598-635"]}
{"id": "C116", "title": "Names of Hashf that are parts of others", "statement": "For the same bytes and seed, wherever the key lies and whatever was called before: j364 is j332b in its high and j332c in its low 32 bits, and j264 is likewise j264h and j264l; j264xor, spooky128xor, FarmHash128-xor, MetroHash128-1xor and MetroHash128-2xor are the exclusive or of the two names of their halves; spooky64 is spooky128h, and for seeds below 2^32 spooky32 is the low 32 bits of spooky64; siphash64 ignores the seed and is siphash64pg with seed 0. Refuted: that spooky32 is the low half of spooky64 for all seeds.", "quantifier": "all keys below 2^64 bytes, all 64-bit seeds, all states of the package, all implementations of the assembly and library hashes", "why_tests_cant": "the names are computed by separate calls that share state; that they agree for every key, seed and history is not a finite check", "anchors": ["hashf/hashf.go:256-521"]}
