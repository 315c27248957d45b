(** What the declarations ought to mean (the comments of nhash/nhash.go:16-31). *)
From Coq Require Import NArith List.
From Verif Require Import Words WordLemmas Mem Mm3Spec.
Import ListNotations.
Open Scope N_scope.

Section Meaning.
  Context {S : Type} (new : N -> S) (hash : S -> list N -> list N -> res (S * N)) (width : N).

  (** The objects a client can have: new ones, and those after calls. *)
  Inductive reached : S -> Prop :=
  | reached_new seed : fits width seed -> reached (new seed)
  | reached_call s key seeds s' h : reached s -> bytes_ok key -> Forall (fits width) seeds -> hash s key seeds = Ok (s', h) -> reached s'.

  (** What a call returns: the word, or nothing if it panics. *)
  Definition value (r : res (S * N)) : option N := match r with Ok (_, h) => Some h | _ => None end.
  (** The seeds with bit [b] of number [i] inverted. *)
  Definition flip (seeds : list N) (i : nat) (b : N) : list N :=
    firstn i seeds ++ match skipn i seeds with x :: r => N.lxor x (2 ^ b) :: r | [] => [] end.
  (** Bit [b] of seed argument [i] out of [n] matters: for some key, seeds and object the
      result changes with it. *)
  Definition matters (n i : nat) (b : N) : Prop :=
    (i < n)%nat /\ b < width /\ exists s key seeds, reached s /\ bytes_ok key /\ length seeds = n /\ Forall (fits width) seeds /\
      value (hash s key seeds) <> value (hash s key (flip seeds i b)).
  (** A list of all bits that matter among [n] seeds, each once. *)
  Definition all_bits (n : nat) (l : list (nat * N)) : Prop := NoDup l /\ forall i b, In (i, b) l <-> matters n i b.
  (** The maximum number of seed bytes: some number of seeds has so many bits that matter,
      and none has more. *)
  Definition seed_bytes (m : N) : Prop :=
    (forall n l, all_bits n l -> N.of_nat (length l) <= 8 * m) /\ exists n l, all_bits n l /\ N.of_nat (length l) = 8 * m.

  (** The size in bits of what the hash returns: every call returns a word of so many bits,
      and all of them are needed. *)
  Definition hash_bits (w : N) : Prop :=
    (forall s key seeds, reached s -> bytes_ok key -> Forall (fits width) seeds -> exists s' h, hash s key seeds = Ok (s', h) /\ h < 2 ^ w) /\
    exists s key seeds s' h, reached s /\ bytes_ok key /\ Forall (fits width) seeds /\ hash s key seeds = Ok (s', h) /\ 2 ^ (w - 1) <= h.
End Meaning.
(** Bit [b] of the seed given to the constructor matters for a call without seeds on the
    new object. *)
Definition new_matters {S : Type} (new : N -> S) (hash : S -> list N -> list N -> res (S * N)) (width b : N) : Prop :=
  b < width /\ exists seed key, fits width seed /\ bytes_ok key /\ value (hash (new seed) key []) <> value (hash (new (N.lxor seed (2 ^ b))) key []).
