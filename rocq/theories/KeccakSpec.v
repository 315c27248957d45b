(** Keccak as published (G. Bertoni, J. Daemen, M. Peeters, G. Van Assche, "The Keccak
    reference", version 3.0; FIPS 202 for the round constants), on 64-bit lanes, with the
    original multi-rate padding 10*1 on byte strings. *)
From Coq Require Import NArith List Arith.
From Verif Require Import Words Mm3Spec.
Import ListNotations.
Open Scope N_scope.

(** The state: lane (x,y) is element x + 5y. *)
Definition lane (A : list N) (x y : nat) : N := nth (x mod 5 + 5 * (y mod 5)) A 0.
Definition build (g : nat -> nat -> N) : list N := map (fun i => g (i mod 5) (i / 5))%nat (seq 0 25).

Definition column (A : list N) (x : nat) : N :=
  N.lxor (lane A x 0) (N.lxor (lane A x 1) (N.lxor (lane A x 2) (N.lxor (lane A x 3) (lane A x 4)))).
Definition Theta (A : list N) : list N :=
  build (fun x y => N.lxor (lane A x y) (N.lxor (column A (x + 4)) (rol 64 (column A (x + 1)) 1))).
(** Table of rho offsets, row x, column y. *)
Definition offsets : list (list N) :=
  [[0; 36; 3; 41; 18]; [1; 44; 10; 45; 2]; [62; 6; 43; 15; 61]; [28; 55; 25; 21; 56]; [27; 20; 39; 8; 14]].
Definition offset (x y : nat) : N := nth y (nth x offsets []) 0.
Definition Rho (A : list N) : list N := build (fun x y => rol 64 (lane A x y) (offset x y)).
(** pi: B[y, 2x+3y] = A[x, y], that is B[x, y] = A[x+3y, x]. *)
Definition Pi (A : list N) : list N := build (fun x y => lane A (x + 3 * y) x).
Definition not64 (x : N) : N := 2 ^ 64 - 1 - x.
Definition Chi (A : list N) : list N :=
  build (fun x y => N.lxor (lane A x y) (N.land (not64 (lane A (x + 1) y)) (lane A (x + 2) y))).
(** Round constants from the linear feedback shift register (FIPS 202, algorithm 5):
    bit 2^j - 1 of RC[i] is rc(j + 7i). *)
Fixpoint lfsr (t : nat) : N :=
  match t with
  | O => 1
  | S t => let r := 2 * lfsr t in if N.testbit r 8 then N.lxor r 0x171 else r
  end.
Definition rc (t : nat) : bool := N.odd (lfsr (t mod 255)).
Definition RC (i : nat) : N :=
  fold_left (fun acc j => if rc (j + 7 * i) then acc + 2 ^ (2 ^ N.of_nat j - 1) else acc) (seq 0 7) 0.
Definition Iota (i : nat) (A : list N) : list N :=
  build (fun x y => if (Nat.eqb x 0 && Nat.eqb y 0)%bool then N.lxor (lane A x y) (RC i) else lane A x y).
Definition Round (A : list N) (i : nat) : list N := Iota i (Chi (Pi (Rho (Theta A)))).
(** The first n rounds; keccak_f 24 is Keccak-f[1600]. *)
Definition keccak_f (n : nat) (A : list N) : list N := fold_left Round (seq 0 n) A.

(** Padding of a byte string to a multiple of the rate (in bytes). *)
Definition pad101 (rate : nat) (m : list N) : list N :=
  let q := (rate - length m mod rate)%nat in
  m ++ (if Nat.eqb q 1 then [0x81] else 0x01 :: repeat 0 (q - 2) ++ [0x80]).
(** Absorbing a block: byte i belongs to lane i/8, little-endian. *)
Definition lanes_of (b : list N) : list N := map (fun i => le_int (firstn 8 (skipn (8 * i) b))) (seq 0 25).
Definition xor_state (A B : list N) : list N := map (fun i => N.lxor (nth i A 0) (nth i B 0)) (seq 0 25).
Definition absorb_block (nr : nat) (A b : list N) : list N := keccak_f nr (xor_state A (lanes_of b)).
Fixpoint le_bytes (n : nat) (x : N) : list N := match n with O => [] | S n => x mod 256 :: le_bytes n (x / 256) end.
Definition state_bytes (A : list N) : list N := concat (map (le_bytes 8) A).
(** The sponge: rate bytes absorbed at a time, then blocks of rate bytes squeezed until
    there are d bytes. *)
Fixpoint squeeze (fuel nr rate d : nat) (A : list N) : list N :=
  if Nat.leb d rate then firstn d (state_bytes A)
  else match fuel with
       | O => []
       | S fuel => firstn rate (state_bytes A) ++ squeeze fuel nr rate (d - rate) (keccak_f nr A)
       end.
Definition sponge (nr rate d : nat) (m : list N) : list N :=
  squeeze d nr rate d (fold_left (absorb_block nr) (fst (blocks rate (pad101 rate m))) (repeat 0 25)).

(** RC values for a sanity check against FIPS 202. *)
Example RC_0_1_23 : RC 0 = 1 /\ RC 1 = 0x8082 /\ RC 23 = 0x8000000080008008.
Proof. vm_compute. auto. Qed.
