(** What it means that a hash function can be steered: any beginning of a key is made up for by the
    block behind it. *)
From Verif Require Import Words.

(** A block of [B] bytes. *)
Definition block (B : nat) (b : list N) : Prop := length b = B /\ bytes_ok b.
(** [h] and [h'] are two hash functions, or one function with two seeds; [ok] says which lengths
    of keys are meant.  However the key begins (with [p] for [h], with [p'] for [h'], both of the same
    whole number of blocks), for every block [b] there is exactly one block [f b] that puts [h'] in
    the position of [h], whatever follows: the hashes of the whole keys are equal.  [n] is the
    length of what follows. *)
Definition steered {V : Type} (B : nat) (ok : nat -> Prop) (h h' : list N -> option V) : Prop :=
  forall p p' n, bytes_ok p -> bytes_ok p' -> length p = length p' -> (length p mod B = 0)%nat -> ok (length p + B + n)%nat ->
  exists f, bijection_on (block B) f /\
    forall b r, block B b -> bytes_ok r -> length r = n -> h' (p' ++ f b ++ r) = h (p ++ b ++ r).
