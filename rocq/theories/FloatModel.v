(** The float64 computations of the Go code (amd64: no fused multiply-add). *)
From Coq Require Import NArith ZArith List.
From Verif Require Import Words HashTableModel SmhModel F64.
Import ListNotations.
Open Scope N_scope.

(** hashtable.go:263-285 [HashQuality].  The local tallies and the assignment to [ht.Q] are left
    out, and [len] of a chain is a natural number. *)
Definition hash_quality_f (t : table) : f64 :=
  if inserts (st t) =? 0 then fofZ 0 else
  let n := fold_left (fun acc (v : list key) => match v with
                                   | [] => acc
                                   | _ => let count := fofZ (Z.of_nat (length v)) in fadd acc (fmul count (fadd count (fofZ 1)))
                                   end) (buckets t) (fofZ 0) in
  let n := fmul n (fofZ (Z.of_N (size t))) in
  let i := fofZ (Z.of_N (inserts (st t))) in
  let d := fmul i (fsub (fadd i (fmul (fofZ 2) (fofZ (Z.of_N (size t))))) (fofZ 1)) in
  fdiv n d.

(** int64 arithmetic, as used at smhasher.go:191. *)
Definition wrap_int64 (z : Z) : Z := ((z + 2 ^ 63) mod 2 ^ 64 - 2 ^ 63)%Z.
(** smhasher.go:186-199 [check] with 64-bit [hashSize] (:635).  math.Pow(2.0, 64.0) is 2^64; SLOP*3
    is the constant 30.  The message is left out. *)
Definition check_f (s : HashSet) : bool :=
  let collisions := (hs_n s - Z.of_nat (length (hs_m s)))%Z in
  let pairs := (wrap_int64 (hs_n s * (hs_n s - 1)) ÷ 2)%Z in
  let expected := fdiv (fofZ pairs) (fofZ (2 ^ 64)) in
  let stddev := fsqrt expected in
  fltb (fadd expected (fmul (fofZ 30) stddev)) (fofZ collisions).

(** ht.go:348-356 [rbetween]; [rf] is what r.Float64() returns.  [None]: conversion of a float64
    outside the range of uint64, whose result Go leaves open. *)
Definition rbetween (rf : f64) (a b : N) : option N :=
  let diff := fofZ (Z.of_N (add64 (sub64 b a) 1)) in
  let r2 := fmul rf diff in
  let r3 := fadd r2 (fofZ (Z.of_N a)) in
  let ret := ftrunc r3 in
  if ((0 <=? ret) && (ret <? 2 ^ 64))%Z%bool then Some (Z.to_N ret) else None.

(** smhasher.go:541-542: the search for c, [n] the number of experiments.  [erf] and [pow] are
    math.Erf and math.Pow; .1 and .9999 are the float64 constants nearest to them.  [None]: more
    than [fuel] rounds. *)
Fixpoint search_c (erf : f64 -> f64) (pow : f64 -> f64 -> f64) (n : nat) (fuel : nat) (c : f64) : option f64 :=
  match fuel with
  | O => None
  | S fuel => if fltb (pow (erf (fdiv c (fsqrt (fofZ 2)))) (fofZ (Z.of_nat n))) (fdiv (fofZ 9999) (fofZ 10000))
              then search_c erf pow n fuel (fadd c (fdiv (fofZ 1) (fofZ 10)))
              else Some c
  end.
(** smhasher.go:543-547: the bounds low and high from c; REP is 100000. *)
Definition bounds_of (c : f64) : Z * Z :=
  let c := fmul c (fofZ 4) in
  let mean := fofZ 50000 in
  let stddev := fmul (fdiv (fofZ 1) (fofZ 2)) (fsqrt (fofZ 100000)) in
  (ftrunc (fsub mean (fmul c stddev)), ftrunc (fadd mean (fmul c stddev))).
(** smhasher.go:538-547: the bounds for keys of [n] bits. *)
Definition avalanche_bounds (erf : f64 -> f64) (pow : f64 -> f64 -> f64) (n : nat) (fuel : nat) : option (Z * Z) :=
  option_map bounds_of (search_c erf pow (n * 64) fuel (fofZ 0)).
(** smhasher.go:548-555: the entries outside the bounds.  The code does nothing with them; here
    they are counted. *)
Definition out_of_bounds (b : Z * Z) (grid : list (list nat)) : nat :=
  length (filter (fun x => (Z.of_nat x <? fst b) || (snd b <? Z.of_nat x))%Z%bool (concat grid)).
