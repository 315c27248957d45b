(** Specifications for the tests in /repo/smhasher/smhasher.go, written without
    reference to their model. *)
From Coq Require Import NArith ZArith List Arith String.
Import ListNotations.
Open Scope N_scope.
Open Scope list_scope.

Definition byte_string (k : list N) : Prop := Forall (fun c => c < 256) k.
(** Bit [j] of a byte string, least significant bit of the first byte first. *)
Definition bit (k : list N) (j : nat) : bool := N.testbit (nth (j / 8) k 0) (N.of_nat (j mod 8)).
(** [k'] is [k] with exactly bit [i] changed. *)
Definition flipped (i : nat) (k k' : list N) : Prop :=
  List.length k' = List.length k /\ byte_string k' /\
  forall j, bit k' j = if Nat.eqb j i then negb (bit k j) else bit k j.
(** The positions from [i] on that are set. *)
Definition ones_from (i : nat) (k : list N) : list nat :=
  filter (bit k) (seq i (8 * List.length k - i)).
Definition zero_from (i : nat) (k : list N) : Prop := forall j, (i <= j)%nat -> bit k j = false.
Definition same_below (i : nat) (k k' : list N) : Prop := forall j, (j < i)%nat -> bit k' j = bit k j.
(** The bytes that are not zero. *)
Definition nonzero (k : list N) : list N := filter (fun c => negb (c =? 0)) k.
(** 32-bit little-endian blocks. *)
Definition block (v : N) : list N := [v mod 256; v / 256 mod 256; v / 65536 mod 256; v / 16777216 mod 256].
(** Each string of [P] is in the list exactly once, and nothing else is. *)
Definition enumerates {A} (ks : list A) (P : A -> Prop) : Prop :=
  NoDup ks /\ forall k, In k ks <-> P k.
(** Two different members with equal hashes. *)
Definition collide {A} (h : A -> N) (P : A -> Prop) : Prop :=
  exists x y, P x /\ P y /\ x <> y /\ h x = h y.
(** The key [p] repeated [n] times. *)
Definition cycled (n : nat) (p : list N) : list N := List.concat (repeat p n).
(** Little-endian bytes of a number. *)
Definition number_bytes (n : nat) (x : N) : list N := map (fun i => x / 256 ^ N.of_nat i mod 256) (seq 0 n).
(** [k] is the [n]-bit key whose bits are those of [i] rotated up by [r]. *)
Definition rotation (n r i : nat) (k : list N) : Prop :=
  (8 * List.length k = n)%nat /\ byte_string k /\
  forall p, (p < n)%nat -> bit k p = N.testbit (N.of_nat i) (N.of_nat ((p + (n - r)) mod n)).
(** The key with bit [i] changed, and whether that changes bit [j] of the hash. *)
Definition flip_key (i : nat) (k : list N) : list N :=
  map (fun q => if Nat.eqb q (i / 8) then N.lxor (nth q k 0) (2 ^ N.of_nat (i mod 8)) else nth q k 0) (seq 0 (List.length k)).
Definition affects (h : list N -> N) (i j : nat) (k : list N) : bool :=
  negb (Bool.eqb (N.testbit (h k) (N.of_nat j)) (N.testbit (h (flip_key i k)) (N.of_nat j))).
