(** The tests of ht.go that make their keys themselves, as programs on memory: each has one
    buffer, changes it in place and gives it to [Insert] again and again. *)
From Coq Require Import NArith ZArith List String.
From Verif Require Import Words Mem KeccakModel HashfModel HashTableModel LiveModel HtModel.
Import ListNotations.
Open Scope N_scope.

(** ht.go:220, 226-229 [TestI]: the buffer [bs] and the loop. *)
Definition testI_ops (ni : Z) : list lop :=
  LAlloc (repeat 0 4) ::
  flat_map (fun i => [LAssign 0 0 (int_key i); LInsert 0 0 4]) (seq 0 (Z.to_nat ni)).

(** ht.go:239-251 [TestJ] ([n] = 900): a bit is set, the key inserted, the byte cleared. *)
Definition testJ_ops (n : nat) : list lop :=
  LAlloc (repeat 0 n) ::
  flat_map (fun k => flat_map (fun i => [LAssign 0 k [shlw 8 1 (N.of_nat i)]; LInsert 0 0 n; LAssign 0 k [0]])
                              (seq 0 8)) (seq 0 n).

(** ht.go:265-281 [TestL] ([n] = 256): every key is hashed once for the set of hashes (274) and
    once by [Insert] (278).  The set itself is [dups2] of HtModel.v. *)
Definition testL_ops (name : string) (seed : N) (n : nat) : list lop :=
  LAlloc (repeat 0 3) ::
  flat_map (fun i => flat_map (fun j => flat_map (fun k =>
    [LAssign 0 0 [wrap 8 (N.of_nat i)]; LAssign 0 1 [wrap 8 (N.of_nat j)]; LAssign 0 2 [wrap 8 (N.of_nat k)];
     LHash name 0 0 3 seed; LInsert 0 0 3])
    (seq 0 n)) (seq 0 n)) (seq 0 n).

(** The three tests with the flags of [cf] and the bucket count flag [n]: ht.go:218-235, 238-255,
    258-287.  The seed is the global [seed], ht.go:755. *)
Definition mem_test (e : ext) (grow : nat -> nat -> nat) (np : N -> N) (cf : config) (name : string) (seed : N) (w : world)
    (n : Z) (t : test) : res (world * live) :=
  let new sz := live_new np sz seed (cf_extra cf) (cf_oa cf) (cf_prime cf) in
  match t with
  | TI => live_run e grow name w [] (new (if cf_dru cf then - n else n)%Z) (testI_ops (cf_ni cf))
  | TJ => live_run e grow name w [] (new (900 * 8)%Z) (testJ_ops 900)
  | TL => live_run e grow name w [] (new (256 * 256 * 256)%Z) (testL_ops name seed 256)
  | _ => NoFuel  (* not modelled here *)
  end.
