(** What "the same bytes on a machine of the other byte order" means, independent
    of the hash functions. *)
From Coq Require Import NArith List Arith.
Import ListNotations.

(** The key with each of its first [n] groups of [w] bytes written backwards. *)
Fixpoint turned (w n : nat) (k : list N) : list N :=
  match n with O => k | S n => rev (firstn w k) ++ turned w n (skipn w k) end.

(** Every one of these groups reads the same in both directions. *)
Definition palindromes (w n : nat) (k : list N) : Prop :=
  forall i, i < n -> rev (firstn w (skipn (w * i) k)) = firstn w (skipn (w * i) k).

(** A long key of spooky as a sequence of 96-byte blocks: zeros, and the length of
    the part in the last block as its last byte. *)
Definition padded (s : list N) : list N :=
  s ++ repeat 0%N (95 - length s mod 96) ++ [N.of_nat (length s mod 96)].
