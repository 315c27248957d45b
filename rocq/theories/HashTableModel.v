(** Model of /repo/hashtable/hashtable.go. *)
From Verif Require Import Words.
From Coq Require Import ZArith QArith.
Open Scope N_scope.

(** A stored key: the Go [[]byte] copied at hashtable.go:139-144.  Lists are
    immutable, so the copy is the identity here. *)
Definition key := list N.

(** hashtable.go:18-35 [Stats].  Counters are Go [int]s; they are modelled as
    unbounded [N] (overflow after 2^63 insertions is not modelled).  [Dups2],
    [Entries], [Q], [Dur], [Lines] are not touched by [Insert] and are left out. *)
Record stats := mkStats {
  inserts : N; cols : N; probes : N; heads : N; dups : N;
  nbuckets : N; longest : N
}.

(** hashtable.go:43-53 [HashTable] (the tracing fields [tbs], [Tcnt], [pd] only
    drive printing and are left out).  [Buckets[i] == nil] is the empty list:
    a bucket only ever becomes non-nil by [append] of an element. *)
Record table := mkTable {
  buckets : list (list key);
  size : N;       (* Stats.Size *)
  size_log2 : N;  (* Stats.SizeLog2 *)
  size_mask : N;  (* Stats.SizeMask *)
  is_oa : bool;
  is_prime : bool;
  st : stats
}.

(** Result of a Go call: normal return, panic, or (loop fuel exhausted) not
    terminating within the given number of iterations (panics at hashtable.go:143, 215). *)
Inductive outcome (A : Type) : Type :=
| Ret (a : A)
| Panic
| OutOfFuel.
Arguments Ret {A} a.
Arguments Panic {A}.
Arguments OutOfFuel {A}.

(** hashtable.go:58-90 [NextLog2]. *)
Definition next_log2 (x0 : N) : N :=
  if x0 <=? 1 then x0 else
  let x := sub32 x0 1 in
  let n := 0 in
  let y := shr x 16 in
  let '(n, x) := if negb (y =? 0) then (add32 n 16, y) else (n, x) in
  let y := shr x 8 in
  let '(n, x) := if negb (y =? 0) then (add32 n 8, y) else (n, x) in
  let y := shr x 4 in
  let '(n, x) := if negb (y =? 0) then (add32 n 4, y) else (n, x) in
  let y := shr x 2 in
  let '(n, x) := if negb (y =? 0) then (add32 n 2, y) else (n, x) in
  let y := shr x 1 in
  if negb (y =? 0) then add32 n 2 else add32 n x.

(** Conversion of a Go [int] (64 bit) to [uint32] and [uint64] (hashtable.go:97, 99). *)
Definition int_to_u32 (z : Z) : N := Z.to_N (z mod 2 ^ 32)%Z.
Definition int_to_u64 (z : Z) : N := Z.to_N (z mod 2 ^ 64)%Z.

(** hashtable.go:95-105: (SizeLog2, Size) computed by [NewHashTable].
    [nextprime] stands for the external leb.io/cuckoo/primes.NextPrime. *)
Definition table_size (nextprime : N -> N) (sz extra : Z) (prime : bool) : N * N :=
  let '(lg, s) :=
    if (sz <? 0)%Z then (0, int_to_u64 (- sz))
    else let lg := add32 (next_log2 (int_to_u32 sz)) (int_to_u32 extra) in
         (lg, shl64 1 lg) in
  if prime then (lg, nextprime s) else (lg, s).

(** new(HashTable), hashtable.go:93. *)
Definition zero_stats : stats := mkStats 0 0 0 0 0 0 0.

(** hashtable.go:92-114 [NewHashTable].  Memory exhaustion in [make] is not
    modelled. *)
Definition new_table (nextprime : N -> N) (sz extra : Z) (oa prime : bool) : table :=
  let '(lg, s) := table_size nextprime sz extra prime in
  mkTable (repeat [] (N.to_nat s)) s lg (sub64 s 1) oa prime zero_stats.

(** [l] with position [i] replaced by [x] (Go [l[i] = x], [i] in range) (hashtable.go:164, 234). *)
Fixpoint set_nth {A} (i : nat) (x : A) (l : list A) : list A :=
  match l, i with
  | [], _ => []
  | _ :: r, O => x :: r
  | y :: r, S j => y :: set_nth j x r
  end.

(** hashtable.go:148-153: the home bucket of a hash value. *)
Definition index_of (t : table) (h : N) : N :=
  if is_prime t then h mod size t else N.land h (size_mask t).

(** Updates of single counters (hashtable.go:164, 182-183, 188-192, 208, 230-247). *)
Definition with_bucket (t : table) (i : nat) (b : list key) (s : stats) : table :=
  mkTable (set_nth i b (buckets t)) (size t) (size_log2 t) (size_mask t)
          (is_oa t) (is_prime t) s.
Definition with_stats (t : table) (s : stats) : table :=
  mkTable (buckets t) (size t) (size_log2 t) (size_mask t) (is_oa t) (is_prime t) s.

(** hashtable.go:182-183: [Probes++; Heads++] when an empty bucket is filled. *)
Definition bump_head (s : stats) : stats :=
  mkStats (inserts s) (cols s) (probes s + 1) (heads s + 1) (dups s) (nbuckets s) (longest s).

(** hashtable.go:188-209: counters of one open-addressing collision; [eq] says
    whether the occupant has the same full hash. *)
Definition bump_oa (cnt : N) (eq : bool) (s : stats) : stats :=
  mkStats (inserts s)
          (if cnt =? 0 then cols s else cols s + 1)
          (if cnt =? 0 then probes s + 1 else probes s)
          (heads s)
          (if eq then dups s + 1 else dups s)
          (nbuckets s) (longest s).

(** hashtable.go:221-232: [Dups++] for each chain entry with the same hash. *)
Fixpoint chain_dups (hf : key -> N) (h : N) (chain : list key) (d : N) : N :=
  match chain with
  | [] => d
  | b :: r => chain_dups hf h r (if hf b =? h then d + 1 else d)
  end.

(** hashtable.go:235-247: counters when appending to a chain of new length
    [len]. *)
Definition bump_chain (len d : N) (s : stats) : stats :=
  mkStats (inserts s) (cols s) (probes s + 1) (heads s) d (nbuckets s + 1)
          (if longest s <? len then len else longest s).

(** hashtable.go:161-250: the [for] loop of [Insert].  [hf] is
    [hashf.Hashf(_, ht.Seed)]; [fuel] bounds the iterations. *)
Fixpoint insert_loop (fuel : nat) (hf : key -> N) (k : key) (h : N)
    (t : table) (idx : nat) (cnt pass : N) {struct fuel} : outcome table :=
  match fuel with
  | O => OutOfFuel
  | S fuel' =>
      match nth_error (buckets t) idx with
      | None => Panic                       (* index out of range *)
      | Some [] => Ret (with_bucket t idx [k] (bump_head (st t)))
      | Some (b0 :: rest) =>
          if is_oa t then
            let t1 := with_stats t (bump_oa cnt (hf b0 =? h) (st t)) in
            let idx1 := S idx in
            let cnt1 := cnt + 1 in
            if sub64 (size t) 1 <? N.of_nat idx1 then
              if 1 <? pass + 1 then Panic   (* panic("Add: pass") *)
              else insert_loop fuel' hf k h t1 0%nat cnt1 (pass + 1)
            else insert_loop fuel' hf k h t1 idx1 cnt1 pass
          else
            let chain := b0 :: rest in
            let d := chain_dups hf h chain (dups (st t)) in
            let chain' := chain ++ [k] in
            Ret (with_bucket t idx chain' (bump_chain (N.of_nat (length chain')) d (st t)))
      end
  end.

(** Enough iterations for any call: two passes over the table plus one
    (the loop of hashtable.go:161-250). *)
Definition enough_fuel (t : table) : nat := 2 * length (buckets t) + 2.

(** hashtable.go:138-259 [Insert], hash function [hf] fixed.  The division in
    [h % ht.Size] panics for an empty table. *)
Definition insert (hf : key -> N) (t : table) (k : key) : outcome table :=
  let s := st t in
  let t0 := with_stats t (mkStats (inserts s + 1) (cols s) (probes s) (heads s)
                                  (dups s) (nbuckets s) (longest s)) in
  let h := hf k in
  if is_prime t && (size t =? 0) then Panic
  else insert_loop (enough_fuel t) hf k h t0 (N.to_nat (index_of t h)) 0 0.

(** A sequence of [Insert] calls; stops at the first panic (the callers, e.g. ht.go:96-98). *)
Fixpoint insert_all (hf : key -> N) (t : table) (ks : list key) : outcome table :=
  match ks with
  | [] => Ret t
  | k :: r => match insert hf t k with
              | Ret t' => insert_all hf t' r
              | Panic => Panic
              | OutOfFuel => OutOfFuel
              end
  end.

(** hashtable.go:263-285 [HashQuality], over exact rationals instead of
    float64 (rounding not modelled).  The assignment of the result to [ht.Q] and
    the local tallies [buckets], [entries] are left out. *)
Definition hash_quality (t : table) : Q :=
  if inserts (st t) =? 0 then 0%Q else
  let n := fold_left (fun acc v => match v with
                                   | [] => acc
                                   | _ => acc + N.of_nat (length v) * (N.of_nat (length v) + 1)
                                   end) (buckets t) 0 in
  let n := n * size t in
  (* Inserts + 2*Size - 1 *)
  let d := inserts (st t) * (inserts (st t) + 2 * size t - 1) in
  (inject_Z (Z.of_N n) / inject_Z (Z.of_N d))%Q.

(** hashtable.go:122-136 [Ones], [Zeros], [diff]: [None] is [panic("diff")]. *)
Definition ones_tab : list N := [0; 1; 1; 2; 1; 2; 2; 3; 1; 2; 2; 3; 2; 3; 3; 4].
Definition zeros_tab : list N := [4; 3; 3; 2; 3; 2; 2; 1; 3; 2; 2; 1; 2; 1; 1; 0].
Fixpoint diff_loop (n : nat) (d z o : N) : option (N * N) :=
  match n with
  | O => Some (z, o)
  | S m =>
      let four := N.land d 15 in
      a <- nth_error zeros_tab (N.to_nat four) ;;
      b <- nth_error ones_tab (N.to_nat four) ;;
      diff_loop m (shr d 4) (z + a) (o + b)
  end.
Definition diff (d : N) : option (N * N) :=
  '(z, o) <- diff_loop 16 d 0 0 ;;
  if z + o =? 64 then Some (z, o) else None.
