(** Specification vocabulary for the hash table claims C01-C09.  Nothing here
    uses the functions of HashTableModel.v except the record projections that
    name observable fields. *)
From Verif Require Import Words HashTableModel.
From Coq Require Import ZArith QArith.
Open Scope N_scope.

(** The bucket a 64-bit hash selects in a table of [n] buckets. *)
Definition home (prime : bool) (n h : N) : N :=
  if prime then h mod n else N.land h (n - 1).

(** Number of pairs [i < j] of the list with equal hash. *)
Fixpoint equal_hash_pairs (hf : key -> N) (ks : list key) : N :=
  match ks with
  | [] => 0
  | k :: r => N.of_nat (length (filter (fun k' => hf k' =? hf k) r)) + equal_hash_pairs hf r
  end.

(** Number of pairs [i < j] of the list that select the same bucket. *)
Definition same_bucket_pairs (prime : bool) (n : N) (hf : key -> N) (ks : list key) : N :=
  equal_hash_pairs (fun k => home prime n (hf k)) ks.

Definition nonempty {A} (l : list A) : bool := match l with [] => false | _ => true end.

(** Number of non-empty buckets, and the longest bucket. *)
Definition used_buckets (t : table) : N := N.of_nat (length (filter nonempty (buckets t))).
Definition longest_bucket (t : table) : nat := list_max (map (@length key) (buckets t)).

(** Slot [i] (mod the number of slots) holds something / is free. *)
Definition occupied (t : table) (i : N) : Prop :=
  exists k r, nth_error (buckets t) (N.to_nat i) = Some (k :: r).
Definition free_slot (t : table) (i : N) : Prop :=
  nth_error (buckets t) (N.to_nat i) = Some [].

(** Key [k] can be found by linear probing: it is in slot [home + d] (circularly)
    and the slots at distances [0 .. d-1] are occupied. *)
Definition reachable (t : table) (home_k : N) (k : key) : Prop :=
  exists d, d < size t /\
    nth_error (buckets t) (N.to_nat ((home_k + d) mod size t)) = Some [k] /\
    forall e, e < d -> occupied t ((home_k + e) mod size t).

(** A linear-probe lookup, as a client would write it: look at [fuel] slots from
    [i] on, stop at a free one. *)
Fixpoint lookup (fuel : nat) (t : table) (i : N) (k : key) : bool :=
  match fuel with
  | O => false
  | S f =>
      match nth_error (buckets t) (N.to_nat (i mod size t)) with
      | Some (b :: _) =>
          if list_eq_dec N.eq_dec b k then true else lookup f t (i + 1) k
      | _ => false
      end
  end.

(** Shape every table made by [NewHashTable] with at least one bucket has, and
    that [Insert] keeps: as many buckets as [Size], mask one less. *)
Definition table_shape (t : table) : Prop :=
  1 <= size t /\ fits 64 (size t) /\
  length (buckets t) = N.to_nat (size t) /\ size_mask t = size t - 1.

Definition sum_N (l : list N) : N := fold_right N.add 0 l.

(** Number of 1 bits among the lowest [n] bits. *)
Fixpoint popcount (n : nat) (x : N) : N :=
  match n with
  | O => 0
  | S m => (if N.testbit x (N.of_nat m) then 1 else 0) + popcount m x
  end.

(** Distances, in slots and around the end of the table, between the home slot of
    each stored key and the slot it is in; [i] is the number of the first slot. *)
Fixpoint displacements (prime : bool) (n : N) (hf : key -> N) (i : N) (bs : list (list key)) : list N :=
  match bs with
  | [] => []
  | b :: r => map (fun k => (i + n - home prime n (hf k)) mod n) b ++ displacements prime n hf (i + 1) r
  end.
