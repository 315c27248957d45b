(** What goroutines that call Hashf may expect. *)
From Coq Require Import NArith List Arith String.
From Verif Require Import Words KeccakModel HashfModel HashfSpec ConcModel.
Import ListNotations.
Open Scope N_scope.

(** Names that may be used from several goroutines at once. *)
Definition safe_names : list string := [
  "perfecthash"; "gomap64"; "gomap32"; "aeshash64"; "aeshash32I"; "aeshash64I"; "sbox"; "CrapWow"; "MaHash8v64";
  "j232"; "j264"; "j264l"; "j264h"; "j264xor"; "spooky32"; "spooky64"; "spooky128h"; "spooky128l"; "siphash64";
  "FarmHash32"; "FarmHash64"; "FarmHash128-high"; "FarmHash128-low"; "MetroHash64-1"; "MetroHash64-2";
  "MetroHash128-1h"; "MetroHash128-1l"; "MetroHash128-2h"; "MetroHash128-2l"]%string.
(** Names that may not: a call can return the hash of another goroutine's key. *)
Definition unsafe_names : list string := [
  "adler32"; "j364"; "j332c"; "j332b"; "spooky128xor"; "murmur332"; "murmur364"; "FarmHash128-xor"; "MetroHash128-1xor"; "MetroHash128-2xor";
  "keccak224"; "keccakpg643"; "keccakpg644"; "keccakpg648"; "keccakpg160"; "whirlpool"; "blake2b"; "sha1"]%string.

(** ** Without a mutex *)
(** Writes inside foreign arrays, keys inside memory; [a0] the first array of the package. *)
Definition top_ok (a0 : nat) (m : heap) (o : top) : Prop :=
  match o with
  | TWrite a o bs => hop_ok a0 m (Assign a o bs)
  | THash k seed => hop_ok a0 m (Call "" k seed)
  | _ => True
  end.
Definition uses (o : top) (a : nat) : Prop :=
  match o with TWrite b _ _ => a = b | THash k _ => a = arr k | _ => False end.
(** What a goroutine writes no other goroutine reads or writes. *)
Definition private (ps : list (list top)) : Prop :=
  forall i j p q a o bs x, i <> j -> nth_error ps i = Some p -> nth_error ps j = Some q -> In (TWrite a o bs) p -> In x q -> ~ uses x a.
Definition plain (o : top) : Prop := match o with TWrite _ _ _ | THash _ _ => True | _ => False end.
(** The hashes of the keys of one goroutine, as if it were alone. *)
Fixpoint hashes (e : ext) (name : string) (m : heap) (p : list top) : list (option N) :=
  match p with
  | [] => []
  | TWrite a o bs :: p => hashes e name (store m a o bs) p
  | THash k seed :: p => reference e name (read m k) seed :: hashes e name m p
  | _ :: p => hashes e name m p
  end.
Definition finished (t : thread) : Prop := prog t = [] /\ run t = None.

(** ** With a mutex *)
(** The mutex is held when memory is written and Hashf called; Hf2 is set after it is taken. *)
Inductive mode := Out | Locked | Named.
Fixpoint disciplined (st : mode) (p : list top) : bool :=
  match p, st with
  | [], Out => true
  | TLock :: p, Out => disciplined Locked p
  | TName _ :: p, (Locked | Named) => disciplined Named p
  | TWrite _ _ _ :: p, (Locked | Named) => disciplined st p
  | THash _ _ :: p, Named => disciplined Named p
  | TUnlock :: p, (Locked | Named) => disciplined Out p
  | _, _ => false
  end.
(** The sections of a program: what is done between Lock and Unlock. *)
Fixpoint sections (cur : option (string * list hop)) (p : list top) : list (list hop) :=
  match p, cur with
  | [], None => []
  | [], Some (_, l) => [l]
  | TLock :: p, None => sections (Some (EmptyString, [])) p
  | TUnlock :: p, Some (_, l) => l :: sections None p
  | TName n :: p, Some (_, l) => sections (Some (n, l)) p
  | TWrite a o bs :: p, Some (n, l) => sections (Some (n, l ++ [Assign a o bs])) p
  | THash k seed :: p, Some (n, l) => sections (Some (n, l ++ [Call n k seed])) p
  | _ :: p, _ => sections cur p
  end.
(** Calls with a known name and a key that is not too short. *)
Definition callable (e : ext) (o : hop) : Prop :=
  match o with
  | Call n k seed => n = "nullhash"%string \/ n = "nullhashF64ns"%string \/ (forall kb, length kb = len k -> reference e n kb seed <> None)
  | _ => True
  end.
(** A sequence of sections, each with the goroutine it belongs to: the sections of goroutine i;
    the operations one after the other; the answers to the calls of goroutine i. *)
Definition runs_of (i : nat) (l : list (nat * list hop)) : list (list hop) := map snd (filter (fun x => Nat.eqb (fst x) i) l).
Definition trace (l : list (nat * list hop)) : list (nat * hop) := flat_map (fun '(i, ops) => map (pair i) ops) l.
Definition is_call (o : hop) : bool := match o with Call _ _ _ => true | _ => false end.
Definition answers_of (e : ext) (m : heap) (i : nat) (tr : list (nat * hop)) : list (option N) :=
  map snd (filter (fun x => Nat.eqb (fst x) i)
    (combine (map fst (filter (fun x => is_call (snd x)) tr)) (answers e 0 0 m (map snd tr)))).

(** ** Different names, without a mutex *)
(** The keys and seeds of the calls of one goroutine, as if it were alone. *)
Fixpoint asked (m : heap) (p : list top) : list (list N * N) :=
  match p with
  | [] => []
  | TWrite a o bs :: p => asked (store m a o bs) p
  | THash k seed :: p => (read m k, seed) :: asked m p
  | _ :: p => asked m p
  end.
(** The hash of that key and seed under one of the names. *)
Definition under_some (e : ext) (names : list string) (h : N) (x : list N * N) : Prop :=
  exists n, In n names /\ reference e n (fst x) (snd x) = Some h.
(** Calls, writes, and Hf2 set to one of the names. *)
Definition naming (names : list string) (o : top) : Prop :=
  match o with TName n => In n names | TWrite _ _ _ | THash _ _ => True | _ => False end.
