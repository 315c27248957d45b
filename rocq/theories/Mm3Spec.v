(** Independent specification of MurmurHash3_x86_32 and MurmurHash3_x64_128 with
    seed 0, after Austin Appleby's MurmurHash3.cpp, using integer arithmetic
    modulo 2^w.  The tail is described as an incomplete block padded with zero
    bytes (a zero word is scrambled to zero, so it leaves the register alone). *)
From Verif Require Import Words.
Open Scope N_scope.

Definition rol (w x k : N) : N := (x * 2 ^ k) mod 2 ^ w + x / 2 ^ (w - k).

(** Little-endian integer of a byte string. *)
Fixpoint le_int (l : list N) : N := match l with [] => 0 | b :: r => b + 256 * le_int r end.

(** Cutting a message into blocks of [B] bytes; the second component is the rest. *)
Fixpoint cut (fuel B : nat) (m : list N) : list (list N) * list N :=
  match fuel with
  | O => ([], m)
  | S f => if (length m <? B)%nat then ([], m)
           else let '(bs, r) := cut f B (skipn B m) in (firstn B m :: bs, r)
  end.
Definition blocks (B : nat) (m : list N) : list (list N) * list N := cut (length m) B m.

Definition pad0 (B : nat) (r : list N) : list N := r ++ repeat 0 (B - length r).

Definition spec32_k (k : N) : N := (rol 32 ((k * 0xcc9e2d51) mod 2 ^ 32) 15 * 0x1b873593) mod 2 ^ 32.
Definition spec32_body (h : N) (b : list N) : N :=
  (5 * rol 32 (N.lxor h (spec32_k (le_int b))) 13 + 0xe6546b64) mod 2 ^ 32.
Definition xsr (k x : N) : N := N.lxor x (x / 2 ^ k).
Definition spec32_fmix (h : N) : N :=
  xsr 16 ((xsr 13 ((xsr 16 h * 0x85ebca6b) mod 2 ^ 32) * 0xc2b2ae35) mod 2 ^ 32).
Definition murmur3_x86_32 (m : list N) : N :=
  let '(bs, r) := blocks 4 m in
  let h := fold_left spec32_body bs 0 in
  let h := N.lxor h (spec32_k (le_int (pad0 4 r))) in
  spec32_fmix (N.lxor h (N.of_nat (length m) mod 2 ^ 32)).

Definition C1 : N := 0x87c37b91114253d5.
Definition C2 : N := 0x4cf5ad432745937f.
Definition spec128_k1 (k : N) : N := (rol 64 ((k * C1) mod 2 ^ 64) 31 * C2) mod 2 ^ 64.
Definition spec128_k2 (k : N) : N := (rol 64 ((k * C2) mod 2 ^ 64) 33 * C1) mod 2 ^ 64.
Definition spec128_body (h : N * N) (b : list N) : N * N :=
  let h1 := N.lxor (fst h) (spec128_k1 (le_int (firstn 8 b))) in
  let h1 := (5 * ((rol 64 h1 27 + snd h) mod 2 ^ 64) + 0x52dce729) mod 2 ^ 64 in
  let h2 := N.lxor (snd h) (spec128_k2 (le_int (skipn 8 b))) in
  let h2 := (5 * ((rol 64 h2 31 + h1) mod 2 ^ 64) + 0x38495ab5) mod 2 ^ 64 in
  (h1, h2).
Definition spec128_fmix (k : N) : N :=
  xsr 33 ((xsr 33 ((xsr 33 k * 0xff51afd7ed558ccd) mod 2 ^ 64) * 0xc4ceb9fe1a85ec53) mod 2 ^ 64).
Definition murmur3_x64_128 (m : list N) : N * N :=
  let '(bs, r) := blocks 16 m in
  let '(h1, h2) := fold_left spec128_body bs (0, 0) in
  let r := pad0 16 r in
  let h1 := N.lxor h1 (spec128_k1 (le_int (firstn 8 r))) in
  let h2 := N.lxor h2 (spec128_k2 (le_int (skipn 8 r))) in
  let len := N.of_nat (length m) mod 2 ^ 64 in
  let h1 := N.lxor h1 len in
  let h2 := N.lxor h2 len in
  let h1 := (h1 + h2) mod 2 ^ 64 in
  let h2 := (h2 + h1) mod 2 ^ 64 in
  let h1 := spec128_fmix h1 in
  let h2 := spec128_fmix h2 in
  let h1 := (h1 + h2) mod 2 ^ 64 in
  let h2 := (h2 + h1) mod 2 ^ 64 in
  (h1, h2).
