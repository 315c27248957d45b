(** How the hashes that Hashf offers under different names are related. *)
From Coq Require Import NArith List Arith String.
From Verif Require Import Words Mem KeccakModel HashfModel HashfSpec HashfProofs.
Import ListNotations.
Open Scope N_scope.

(** Whatever was called before, and wherever the key is, Hashf returns [h] for these bytes.
    (hashf/hashf.go:256-521 Hashf) *)
Definition tells (e : ext) (grow : nat -> nat -> nat) (name : string) (bytes : list N) (seed h : N) : Prop :=
  forall w k, world_ok w -> slice_in (mem w) k -> N.of_nat (len k) < 2 ^ 64 -> read (mem w) k = bytes ->
    exists w', Hashf e grow w name k seed = Ok (w', h).
(** A name, the name of its high 32 bits, the name of its low 32 bits. (hashf/hashf.go:294-312) *)
Definition two_words : list (string * string * string) := [("j364", "j332b", "j332c"); ("j264", "j264h", "j264l")]%string.
(** A name, and two names whose exclusive or it is. (hashf/hashf.go:313-366) *)
Definition folds : list (string * string * string) := [
  ("j264xor", "j264h", "j264l"); ("spooky128xor", "spooky128h", "spooky128l"); ("FarmHash128-xor", "FarmHash128-high", "FarmHash128-low");
  ("MetroHash128-1xor", "MetroHash128-1h", "MetroHash128-1l"); ("MetroHash128-2xor", "MetroHash128-2h", "MetroHash128-2l")]%string.
