(** Specification for the SMHasher verdicts on 32-bit words, written without reference to their
    model. *)
From Coq Require Import NArith Reals List.
Import ListNotations.

(** How many of the values have occurred before. *)
Definition repeats (l : list N) : nat := (length l - length (nodup N.eq_dec l))%nat.
Open Scope R_scope.
(** The expected number of collisions among [n] hashes of 32 bits, and the bound of [check]. *)
Definition expected (n : nat) : R := INR n * (INR n - 1) / 2 / 2 ^ 32.
Definition bound (n : nat) : R := expected n + 30 * sqrt (expected n).
