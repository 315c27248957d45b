(** Fixed-width machine words and byte slices.

    Go's [uint8], [uint32], [uint64] are modelled by [N] with the wrap-around
    written explicitly; Go's [[]byte] by [list N].  A Go value of type [uintW]
    corresponds to an [x : N] with [fits W x].  This file models the semantics of
    the Go operators used everywhere in /repo (Go specification, "Integer
    overflow" and "Operators"), not a particular file of /repo. *)
From Coq Require Export NArith List Bool Arith Lia.
Export ListNotations.
Open Scope N_scope.

(** Value range of an unsigned Go integer of [w] bits. *)
Definition fits (w x : N) : Prop := x < 2 ^ w.
(** The same as a computable test. *)
Definition fitsb (w x : N) : bool := x <? 2 ^ w.

(** Truncation to [w] bits (what Go does on every unsigned operation and on a
    conversion to a narrower unsigned type); equal to [x mod 2^w], see
    [wrap_mod] in WordLemmas.v. *)
Definition wrap (w x : N) : N := N.land x (N.ones w).

(** Go [a + b], [a - b], [a * b] on [w]-bit unsigned integers. *)
Definition addw (w a b : N) : N := wrap w (a + b).
Definition subw (w a b : N) : N := wrap w (a + N.succ (N.ones w - wrap w b)).
Definition mulw (w a b : N) : N := wrap w (a * b).
(** Go [x << k] and [x >> k] on [w]-bit unsigned integers. *)
Definition shlw (w x k : N) : N := wrap w (N.shiftl x k).
Definition shr (x k : N) : N := N.shiftr x k.
(** Go [^x] (complement). *)
Definition notw (w x : N) : N := N.lxor x (N.ones w).
(** The idioms [x<<k | x>>(w-k)] and [x>>k | x<<(w-k)]. *)
Definition rotlw (w x k : N) : N := N.lor (shlw w x k) (shr x (w - k)).
Definition rotrw (w x k : N) : N := N.lor (shr x k) (shlw w x (w - k)).

(** Width-specific names. *)
Definition add32 := addw 32.
Definition sub32 := subw 32.
Definition mul32 := mulw 32.
Definition shl32 := shlw 32.
Definition not32 := notw 32.
Definition rotl32 := rotlw 32.
Definition rotr32 := rotrw 32.
Definition add64 := addw 64.
Definition sub64 := subw 64.
Definition mul64 := mulw 64.
Definition shl64 := shlw 64.
Definition not64 := notw 64.
Definition rotl64 := rotlw 64.
Definition rotr64 := rotrw 64.
Definition xor (a b : N) : N := N.lxor a b.

(** Bytes and byte strings. *)
Definition byte_ok (b : N) : Prop := b < 256.
Definition bytes_ok (l : list N) : Prop := Forall byte_ok l.

(** Little-endian load: [uint64(b[0]) | uint64(b[1])<<8 | ...] for as many bytes
    as given (Horner form of the same disjunction). *)
Fixpoint le_load (l : list N) : N :=
  match l with
  | [] => 0
  | b :: r => N.lor b (N.shiftl (le_load r) 8)
  end.

(** Little-endian store of the low [n] bytes: [b[i] = byte(x >> (8*i))]. *)
Fixpoint le_store (n : nat) (x : N) : list N :=
  match n with
  | O => []
  | S m => wrap 8 x :: le_store m (shr x 8)
  end.

(** Big-endian load and store. *)
Definition be_load (l : list N) : N := le_load (rev l).
Definition be_store (n : nat) (x : N) : list N := rev (le_store n x).

(** The Go slice expression [s[i:i+n]] used for reading: [None] when it panics
    (bounds check failure). *)
Definition slice (s : list N) (i n : nat) : option (list N) :=
  if Nat.leb (i + n) (length s) then Some (firstn n (skipn i s)) else None.

(** Loading a 16/32/64 bit little-endian word at byte offset [i], with the
    bounds check ([None] = panic). *)
Definition load16 (s : list N) (i : nat) : option N := option_map le_load (slice s i 2).
Definition load32 (s : list N) (i : nat) : option N := option_map le_load (slice s i 4).
Definition load64 (s : list N) (i : nat) : option N := option_map le_load (slice s i 8).
(** [s[i]] with the bounds check. *)
Definition byte_at (s : list N) (i : nat) : option N := nth_error s i.

(** Sequencing of possibly panicking computations. *)
Definition obind {A B} (o : option A) (f : A -> option B) : option B :=
  match o with Some a => f a | None => None end.
Notation "x <- e ;; k" := (obind e (fun x => k))
  (at level 61, e at next level, right associativity).
Notation "' pat <- e ;; k" := (obind e (fun x => match x with pat => k end))
  (at level 61, pat pattern, e at next level, right associativity).

(** [f] restricted to [P] is a bijection of [P], with an explicit inverse. *)
Definition bijection_on {A} (P : A -> Prop) (f : A -> A) : Prop :=
  (forall x, P x -> P (f x)) /\
  exists g, forall x, P x -> P (g x) /\ g (f x) = x /\ f (g x) = x.
