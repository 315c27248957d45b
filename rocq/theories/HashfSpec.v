(** What each name of package hashf stands for: a function of the key and the seed, [None]
    when it panics.  The functions are the specifications of the single packages. *)
From Coq Require Import NArith List Arith String.
From Verif Require Import Words KeccakModel Mm3Spec KeccakSpec HashfModel.
From Verif Require GomapSpec SmallSpec SmallModel JenkinsSpec SpookySpec FarmSpec MetroSpec MetroMore SipSpec.
Import ListNotations.
Open Scope N_scope.

(** The first eight bytes, most significant first. *)
Definition top8 (d : list N) : N := le_int (rev (firstn 8 d)).
Definition low32 (x : N) : N := x mod 2 ^ 32.
Definition high32 (x : N) : N := x / 2 ^ 32.
(** For keys with at least n bytes. *)
Definition needs (n : nat) (k : list N) (x : N) : option N := if Nat.ltb (length k) n then None else Some x.
(** Hash232 sees only len(k) mod 2^32 bytes of the key (C58). *)
Definition seen232 (k : list N) : list N := firstn (N.to_nat (low32 (N.of_nat (length k)))) k.
Definition both (p : N * N) : N := N.lxor (fst p) (snd p).
(** MetroHash64-1 misses a trailing word of four bytes (C29, C61). *)

Definition table (e : ext) : list (string * (list N -> N -> option N)) := [
  ("perfecthash", fun k _ => needs 4 k (le_int (firstn 4 k)));
  ("gomap64", fun k s => needs 1 k (GomapSpec.gomap64 k s));
  ("gomap32", fun k s => needs 1 k (GomapSpec.gomap32 k (low32 s)));
  ("aeshash64", fun k s => Some (aes_Hash e k s));
  ("aeshash32I", fun k s => needs 4 k (aes_Hash64 e (le_int (rev (firstn 4 k))) s));
  ("aeshash64I", fun k s => needs 8 k (aes_Hash64 e (top8 k) s));
  ("adler32", fun k _ => Some (adler32 e k));
  ("sbox", fun k s => Some (SmallSpec.sbox_spec SmallModel.SBoxTable k (low32 s)));
  ("CrapWow", fun k s => Some (SmallSpec.crapwow_spec k (low32 s)));
  ("MaHash8v64", fun k _ => Some (SmallSpec.mahash_spec SmallModel.sTable k));
  ("j364", fun k s => let '(c, b) := JenkinsSpec.lookup3 k (low32 s) (low32 s) in Some (b * 2 ^ 32 + c));
  ("j332c", fun k s => Some (fst (JenkinsSpec.lookup3 k (low32 s) (low32 s))));
  ("j332b", fun k s => Some (snd (JenkinsSpec.lookup3 k (low32 s) (low32 s))));
  ("j232", fun k s => Some (JenkinsSpec.lookup2_gen false false (seen232 k) (low32 s)));
  ("j264", fun k s => Some (JenkinsSpec.lookup8v k s));
  ("j264l", fun k s => Some (low32 (JenkinsSpec.lookup8v k s)));
  ("j264h", fun k s => Some (high32 (JenkinsSpec.lookup8v k s)));
  ("j264xor", fun k s => Some (N.lxor (low32 (JenkinsSpec.lookup8v k s)) (high32 (JenkinsSpec.lookup8v k s))));
  ("spooky32", fun k s => Some (low32 (fst (SpookySpec.spookyhash_v2 k (low32 s) (low32 s)))));
  ("spooky64", fun k s => Some (fst (SpookySpec.spookyhash_v2 k s s)));
  ("spooky128h", fun k s => Some (fst (SpookySpec.spookyhash_v2 k s s)));
  ("spooky128l", fun k s => Some (snd (SpookySpec.spookyhash_v2 k s s)));
  ("spooky128xor", fun k s => Some (both (SpookySpec.spookyhash_v2 k s s)));
  ("murmur332", fun k _ => Some (murmur3_x86_32 k));
  ("murmur364", fun k _ => Some (fst (murmur3_x64_128 k)));
  ("siphash64", fun k _ => Some (SipSpec.sip_spec 2 4 0 0 k));
  ("siphash64pg", fun k s => Some (SipSpec.sip_spec 2 4 s s k));
  ("FarmHash32", fun k _ => Some (FarmSpec.spec_hash32 k));
  ("FarmHash64", fun k _ => Some (FarmSpec.spec_hash64 k));
  ("FarmHash128-high", fun k _ => Some (fst (FarmSpec.spec_hash128 k)));
  ("FarmHash128-low", fun k _ => Some (snd (FarmSpec.spec_hash128 k)));
  ("FarmHash128-xor", fun k _ => Some (both (FarmSpec.spec_hash128 k)));
  ("MetroHash64-1", fun k s => Some (MetroSpec.metro64_gen MetroSpec.p64_1 5 k (low32 s)));
  ("MetroHash64-2", fun k s => Some (MetroSpec.metro64 MetroSpec.p64_2 k (low32 s)));
  ("MetroHash128-1h", fun k s => Some (fst (MetroSpec.metro128 MetroSpec.p128_1 k (low32 s))));
  ("MetroHash128-1l", fun k s => Some (snd (MetroSpec.metro128 MetroSpec.p128_1 k (low32 s))));
  ("MetroHash128-1xor", fun k s => Some (both (MetroSpec.metro128 MetroSpec.p128_1 k (low32 s))));
  ("MetroHash128-2h", fun k s => Some (fst (MetroSpec.metro128 MetroSpec.p128_2 k (low32 s))));
  ("MetroHash128-2l", fun k s => Some (snd (MetroSpec.metro128 MetroSpec.p128_2 k (low32 s))));
  ("MetroHash128-2xor", fun k s => Some (both (MetroSpec.metro128 MetroSpec.p128_2 k (low32 s))));
  ("keccak224", fun k _ => Some (top8 (keccak224 e k)));
  ("keccakpg643", fun k _ => Some (top8 (sponge 3 184 8 k)));
  ("keccakpg644", fun k _ => Some (top8 (sponge 4 184 8 k)));
  ("keccakpg648", fun k _ => Some (top8 (sponge 8 184 8 k)));
  ("keccakpg160", fun k _ => Some (top8 (sponge 24 160 20 k)));
  ("whirlpool", fun k _ => Some (top8 (whirlpool e k)));
  ("blake2b", fun k _ => Some (top8 (blake2b e k)));
  ("sha1", fun k _ => Some (top8 (sha1 e k)))]%string.
Fixpoint assoc {A} (n : string) (l : list (string * A)) : option A :=
  match l with [] => None | (m, x) :: l => if (n =? m)%string then Some x else assoc n l end.
Definition reference (e : ext) (name : string) (k : list N) (seed : N) : option N :=
  match assoc name (table e) with Some f => f k seed | None => None end.

(** ** Programs *)
(** Slices of memory: length at most capacity, capacity inside the array. *)
Definition slice_in (m : heap) (s : slice) : Prop :=
  (len s <= cap s)%nat /\ (off s + cap s <= length (array m (arr s)))%nat /\ (cap s = 0 \/ arr s < length m)%nat.
(** Five arrays, from [a0] on, belong to the package; the program keeps off. *)
Definition foreign (a0 a : nat) : Prop := (a < a0 \/ a0 + 5 <= a)%nat.
Definition hop_ok (a0 : nat) (m : heap) (o : hop) : Prop :=
  match o with
  | Alloc bs => bytes_ok bs
  | Assign a o bs => foreign a0 a /\ (a < length m)%nat /\ (o + length bs <= length (array m a))%nat /\ bytes_ok bs
  | Call _ k seed => slice_in m k /\ (cap k = 0%nat \/ foreign a0 (arr k)) /\ N.of_nat (len k) < 2 ^ 64 /\ seed < 2 ^ 64
  end.
(** The program's memory: Hashf does not occur in it. *)
Definition hop_mem (m : heap) (o : hop) : heap :=
  match o with Alloc bs => m ++ [bs] | Assign a o bs => store m a o bs | Call _ _ _ => m end.
Fixpoint hops_ok (a0 : nat) (m : heap) (ops : list hop) : Prop :=
  match ops with [] => True | o :: ops => hop_ok a0 m o /\ hops_ok a0 (hop_mem m o) ops end.
(** What the calls return: a function of name, key bytes and seed, except for the two counters;
    [c1] and [c2] are the numbers of earlier calls of "nullhash" and "nullhashF64ns".
    A panic ends the program. *)
Fixpoint answers (e : ext) (c1 c2 : N) (m : heap) (ops : list hop) : list (option N) :=
  match ops with
  | [] => []
  | Call name k seed :: ops =>
      if (name =? "nullhash")%string then Some ((c1 + 1) mod 2 ^ 64) :: answers e (c1 + 1) c2 m ops
      else if (name =? "nullhashF64ns")%string then Some ((c2 + 1) mod 2 ^ 64) :: answers e c1 (c2 + 1) m ops
      else match reference e name (read m k) seed with
           | Some h => Some h :: answers e c1 c2 m ops
           | None => [None]
           end
  | o :: ops => answers e c1 c2 (hop_mem m o) ops
  end.
