(** What the reports of "-sm" and "-b" should say, without reference to how the
    tests are run. *)
From Coq Require Import NArith ZArith List Arith String Bool.
From Verif Require Import Words Mem KeccakModel HashfModel HashfSpec.
Import ListNotations.
Open Scope N_scope.
Open Scope list_scope.

(** The hash of that name as a function, 0 where there is none. *)
Definition answer (e : ext) (name : string) (k : list N) (s : N) : N :=
  match reference e name k s with Some h => h | None => 0 end.
(** Shortest key that the hash of that name takes. *)
Definition needs_bytes (name : string) : nat :=
  if existsb (String.eqb name) ["gomap64"; "gomap32"]%string then 1
  else if existsb (String.eqb name) ["perfecthash"; "aeshash32I"]%string then 4
  else if String.eqb name "aeshash64I"%string then 8 else 0.
(** The names that Hashf knows. *)
Definition known : list string :=
  ["nullhash"; "nullhashF64ns"; "perfecthash"; "gomap64"; "gomap32"; "aeshash64"; "aeshash32I"; "aeshash64I"; "adler32"; "sbox"; "CrapWow"; "MaHash8v64";
   "j364"; "j332c"; "j332b"; "j232"; "j264"; "j264l"; "j264h"; "j264xor"; "spooky32"; "spooky64"; "spooky128h"; "spooky128l"; "spooky128xor";
   "murmur332"; "murmur364"; "siphash64"; "siphash64pg"; "FarmHash32"; "FarmHash64"; "FarmHash128-high"; "FarmHash128-low"; "FarmHash128-xor";
   "MetroHash64-1"; "MetroHash64-2"; "MetroHash128-1h"; "MetroHash128-1l"; "MetroHash128-1xor"; "MetroHash128-2h"; "MetroHash128-2l"; "MetroHash128-2xor";
   "keccak224"; "keccakpg643"; "keccakpg644"; "keccakpg648"; "keccakpg160"; "whirlpool"; "blake2b"; "sha1"]%string.
(** The hash of that name accepts every key of [n] bytes or more. *)
Definition accepts (n : nat) (name : string) : Prop := In name known /\ (needs_bytes name <= n)%nat.
Definition acceptsb (n : nat) (name : string) : bool := existsb (String.eqb name) known && Nat.leb (needs_bytes name) n.
(** The elements before the first that fails. *)
Fixpoint before {A} (f : A -> bool) (l : list A) : list A :=
  match l with [] => [] | a :: l => if f a then a :: before f l else [] end.
