(** Specification of FarmHash as published: which bytes of the key are read where.

    A key is indexed from its start ([w64 s i], [w32 s i]); blocks are counted,
    block number i starting at a fixed multiple of i, and no slice is ever
    shortened.  The mixing functions are those of the published C++ code. *)
From Coq Require Import NArith List Arith.
From Verif Require Import Words.
Import ListNotations.
Open Scope N_scope.

Definition K0 : N := 0xc3a5c85c97cb3127.
Definition K1 : N := 0xb492b66fbe98f273.
Definition K2 : N := 0x9ae16a3b2f90404f.
Definition C1 : N := 0xcc9e2d51.
Definition C2 : N := 0x1b873593.

(** Little-endian words of the key at byte offset i. *)
Definition w64 (s : list N) (i : nat) : N := le_load (firstn 8 (skipn i s)).
Definition w32 (s : list N) (i : nat) : N := le_load (firstn 4 (skipn i s)).
Definition W8 : Type := N * N * N * N * N * N * N * N.
(** The 64 bytes at offset i. *)
Definition block64 (s : list N) (i : nat) : W8 :=
  (w64 s i, w64 s (i + 8), w64 s (i + 16), w64 s (i + 24),
   w64 s (i + 32), w64 s (i + 40), w64 s (i + 48), w64 s (i + 56)).
Definition R7 : Type := N * N * N * N * N * N * N.
Definition R8 : Type := N * N * N * N * N * N * N * N.
(** f 0, f 1, ..., f (n-1) in turn. *)
Definition iterate {A} (n : nat) (f : nat -> A -> A) (a : A) : A := fold_left (fun a i => f i a) (seq 0 n) a.
Definition len64 (s : list N) : N := N.of_nat (length s) mod 2 ^ 64.
Definition len32 (s : list N) : N := N.of_nat (length s) mod 2 ^ 32.

Definition S_fmix (h : N) : N :=
  let h := xor h (shr h 16) in
  let h := mul32 h 0x85ebca6b in
  let h := xor h (shr h 13) in
  let h := mul32 h 0xc2b2ae35 in
  xor h (shr h 16).
Definition S_mur_end (h : N) : N := add32 (mul32 (rotr32 h 19) 5) 0xe6546b64.
Definition S_mur_begin (a : N) : N := mul32 (rotr32 (mul32 a C1) 17) C2.
Definition S_mur (a h : N) : N := S_mur_end (xor h (S_mur_begin a)).
Definition S_shift_mix (val : N) : N := xor val (shr val 47).
Definition S_hash_len16_mul (u v mul : N) : N :=
  let a := mul64 (xor u v) mul in
  let a := xor a (shr a 47) in
  let b := mul64 (xor v a) mul in
  let b := xor b (shr b 47) in
  mul64 b mul.
Definition S_hash_len16 (u v : N) : N := S_hash_len16_mul u v 0x9ddfea08eb382d69.
Definition S_hash_len17to32_words (slen x0 x1 y1 y0 : N) : N :=
  let mul := add64 K2 (mul64 slen 2) in
  let a := mul64 x0 K1 in
  let b := x1 in
  let c := mul64 y0 mul in
  let d := mul64 y1 K2 in
  S_hash_len16_mul (add64 (add64 (rotr64 (add64 a b) 43) (rotr64 c 30)) d)
                 (add64 (add64 a (rotr64 (add64 b K2) 18)) c) mul.
Definition S_weak_words (w x y z a b : N) : N * N :=
  let a := add64 a w in
  let b := rotr64 (add64 (add64 b a) z) 21 in
  let c := a in
  let a := add64 a x in
  let a := add64 a y in
  let b := add64 b (rotr64 a 44) in
  (add64 a z, add64 b c).
Definition S_hash_len33to64_words (slen x0 x1 x2 x3 y3 y2 y1 y0 : N) : N :=
  let mul := add64 K2 (mul64 slen 2) in
  let a := mul64 x0 K2 in
  let b := x1 in
  let c := mul64 y0 mul in
  let d := mul64 y1 K2 in
  let y := add64 (add64 (rotr64 (add64 a b) 43) (rotr64 c 30)) d in
  let z := S_hash_len16_mul y (add64 (add64 a (rotr64 (add64 b K2) 18)) c) mul in
  let e := mul64 x2 mul in
  let f := x3 in
  let g := mul64 (add64 y y3) mul in
  let h := mul64 (add64 z y2) mul in
  S_hash_len16_mul (add64 (add64 (rotr64 (add64 e f) 43) (rotr64 g 30)) h)
                 (add64 (add64 e (rotr64 (add64 f a) 18)) g) mul.
Definition S_na_round (ws : W8) (r : R7) : R7 :=
  let '(a0, a1, a2, a3, a4, a5, a6, a7) := ws in
  let '(x, y, z, v1, v2, w1, w2) := r in
  let x := mul64 (rotr64 (add64 (add64 (add64 x y) v1) a1) 37) K1 in
  let y := mul64 (rotr64 (add64 (add64 y v2) a6) 42) K1 in
  let x := xor x w2 in
  let y := add64 y (add64 v1 a5) in
  let z := mul64 (rotr64 (add64 z w1) 33) K1 in
  let '(v1, v2) := S_weak_words a0 a1 a2 a3 (mul64 v2 K1) (add64 x w1) in
  let '(w1, w2) := S_weak_words a4 a5 a6 a7 (add64 z w2) (add64 y a2) in
  (z, y, x, v1, v2, w1, w2).
Definition S_na_final (slen : N) (ws : W8) (r : R7) : N :=
  let '(a0, a1, a2, a3, a4, a5, a6, a7) := ws in
  let '(x, y, z, v1, v2, w1, w2) := r in
  let mul := add64 K1 (shl64 (N.land z 0xff) 1) in
  let w1 := add64 w1 (N.land (sub64 slen 1) 63) in
  let v1 := add64 v1 w1 in
  let w1 := add64 w1 v1 in
  let x := mul64 (rotr64 (add64 (add64 (add64 x y) v1) a1) 37) mul in
  let y := mul64 (rotr64 (add64 (add64 y v2) a6) 42) mul in
  let x := xor x (mul64 w2 9) in
  let y := add64 y (add64 (mul64 v1 9) a5) in
  let z := mul64 (rotr64 (add64 z w1) 33) mul in
  let '(v1, v2) := S_weak_words a0 a1 a2 a3 (mul64 v2 mul) (add64 x w1) in
  let '(w1, w2) := S_weak_words a4 a5 a6 a7 (add64 z w2) (add64 y a2) in
  let '(z, x) := (x, z) in
  S_hash_len16_mul (add64 (add64 (S_hash_len16_mul v1 w1 mul) (mul64 (S_shift_mix y) K0)) z)
                 (add64 (S_hash_len16_mul v2 w2 mul) x) mul.
Definition S_uo_h (x y mul r : N) : N :=
  let a := mul64 (xor x y) mul in
  let a := xor a (shr a 47) in
  let b := mul64 (xor y a) mul in
  mul64 (rotr64 b r) mul.
Definition S_uo_round (mul : N) (ws : W8) (r : R8) : R8 :=
  let '(a0, a1, a2, a3, a4, a5, a6, a7) := ws in
  let '(u, x, y, z, vl, vh, wl, wh) := r in
  let x := add64 x (add64 a0 a1) in
  let y := add64 y a2 in
  let z := add64 z a3 in
  let vl := add64 vl a4 in
  let vh := add64 vh (add64 a5 a1) in
  let wl := add64 wl a6 in
  let wh := add64 wh a7 in
  let x := rotr64 x 26 in
  let x := mul64 x 9 in
  let y := rotr64 y 29 in
  let z := mul64 z mul in
  let vl := rotr64 vl 33 in
  let vh := rotr64 vh 30 in
  let wl := xor wl x in
  let wl := mul64 wl 9 in
  let z := rotr64 z 32 in
  let z := add64 z wh in
  let wh := add64 wh z in
  let z := mul64 z 9 in
  let '(u, y) := (y, u) in
  let z := add64 z (add64 a0 a6) in
  let vl := add64 vl a2 in
  let vh := add64 vh a3 in
  let wl := add64 wl a4 in
  let wh := add64 wh (add64 a5 a6) in
  let x := add64 x a1 in
  let y := add64 y a7 in
  let y := add64 y vl in
  let vl := add64 vl (sub64 x y) in
  let vh := add64 vh wl in
  let wl := add64 wl vh in
  let wh := add64 wh (sub64 x y) in
  let x := add64 x wh in
  let wh := rotr64 wh 34 in
  let '(u, z) := (z, u) in
  (u, x, y, z, vl, vh, wl, wh).
Definition S_uo_final (slen mul : N) (ws : W8) (r : R8) : N :=
  let '(a0, a1, a2, a3, a4, a5, a6, a7) := ws in
  let '(u, x, y, z, vl, vh, wl, wh) := r in
  let u := mul64 u 9 in
  let vh := rotr64 vh 28 in
  let vl := rotr64 vl 20 in
  let wl := add64 wl (N.land (sub64 slen 1) 63) in
  let u := add64 u y in
  let y := add64 y u in
  let x := mul64 (rotr64 (add64 (add64 (sub64 y x) vl) a1) 37) mul in
  let y := mul64 (rotr64 (xor (xor y vh) a6) 42) mul in
  let x := xor x (mul64 wh 9) in
  let y := add64 y (add64 vl a5) in
  let z := mul64 (rotr64 (add64 z wl) 33) mul in
  let '(vl, vh) := S_weak_words a0 a1 a2 a3 (mul64 vh mul) (add64 x wl) in
  let '(wl, wh) := S_weak_words a4 a5 a6 a7 (add64 z wh) (add64 y a2) in
  S_uo_h (sub64 (add64 (S_hash_len16_mul (add64 vl x) (xor wl y) mul) z) u)
       (xor (S_uo_h (add64 vh y) (add64 wh z) K2 30) x) K2 31.
Definition S_cm_round (x0 x1 : N) (r : N * N * N * N) : N * N * N * N :=
  let '(a, b, c, d) := r in
  let a := xor a (mul64 (S_shift_mix (mul64 x0 K1)) K1) in
  let a := mul64 a K1 in
  let b := xor b a in
  let c := xor c (mul64 (S_shift_mix (mul64 x1 K1)) K1) in
  let c := mul64 c K1 in
  let d := xor d c in
  (a, b, c, d).
Definition S_cc_middle (r : R7) : R7 :=
  let '(x, y, z, v1, v2, w1, w2) := r in
  let x := add64 x (mul64 (rotr64 (add64 v1 z) 49) K0) in
  let y := add64 (mul64 y K0) (rotr64 w2 37) in
  let z := add64 (mul64 z K0) (rotr64 w1 27) in
  let w1 := mul64 w1 9 in
  let v1 := mul64 v1 K0 in
  (x, y, z, v1, v2, w1, w2).
Definition S_cc_tail_round (w4 : N * N * N * N) (r : R7) : R7 :=
  let '(b0, b1, b2, b3) := w4 in
  let '(x, y, z, v1, v2, w1, w2) := r in
  let y := add64 (mul64 (rotr64 (add64 x y) 42) K0) v2 in
  let w1 := add64 w1 b2 in
  let x := add64 (mul64 x K0) w1 in
  let z := add64 z (add64 w2 b0) in
  let w2 := add64 w2 v1 in
  let '(v1, v2) := S_weak_words b0 b1 b2 b3 (add64 v1 z) v2 in
  let v1 := mul64 v1 K0 in
  (x, y, z, v1, v2, w1, w2).
Definition S_cc_final (r : R7) : N * N :=
  let '(x, y, z, v1, v2, w1, w2) := r in
  let x := S_hash_len16 x v1 in
  let y := S_hash_len16 (add64 y z) w1 in
  (add64 (S_hash_len16 (add64 x v2) w2) y, S_hash_len16 (add64 x w2) (add64 y v2)).
Definition S_h32_13_words (slen seed a b c d e f : N) : N :=
  let h := add32 (add32 (mul32 d C1) slen) seed in
  let a := add32 (rotr32 a 12) f in
  let h := add32 (S_mur c h) a in
  let a := add32 (rotr32 a 3) c in
  let h := add32 (S_mur e h) a in
  let a := add32 (rotr32 (add32 a f) 12) d in
  let h := add32 (S_mur (xor b seed) h) a in
  S_fmix h.
Definition S_mk_round (a b c d e : N) (r : N * N * N) : N * N * N :=
  let '(h, g, f) := r in
  let h := add32 h a in
  let g := add32 g b in
  let f := add32 f c in
  let h := add32 (S_mur d h) e in
  let g := add32 (S_mur c g) a in
  let f := add32 (S_mur (add32 b (mul32 e C1)) f) d in
  let f := add32 f g in
  let g := add32 g f in
  (h, g, f).
Definition S_mk_init (slen x4 x8 x16 x12 x20 : N) : N * N * N :=
  let h := slen in
  let g := mul32 C1 slen in
  let f := g in
  let a0 := S_mur_begin x4 in
  let a1 := S_mur_begin x8 in
  let a2 := S_mur_begin x16 in
  let a3 := S_mur_begin x12 in
  let a4 := S_mur_begin x20 in
  let h := S_mur_end (xor h a0) in
  let h := S_mur_end (xor h a2) in
  let g := S_mur_end (xor g a1) in
  let g := S_mur_end (xor g a3) in
  let f := add32 f a4 in
  let f := add32 (rotr32 f 19) 113 in
  (h, g, f).
Definition S_mk_final (r : N * N * N) : N :=
  let '(h, g, f) := r in
  let g := mul32 (rotr32 g 11) C1 in
  let g := mul32 (rotr32 g 17) C1 in
  let f := mul32 (rotr32 f 11) C1 in
  let f := mul32 (rotr32 f 17) C1 in
  let h := S_mur_end (add32 h g) in
  let h := mul32 (rotr32 h 17) C1 in
  let h := S_mur_end (add32 h f) in
  mul32 (rotr32 h 17) C1.

(** ** 64 bit hash *)
Definition spec_0to16 (s : list N) : N :=
  let n := length s in
  let mul := add64 K2 (mul64 (N.of_nat n) 2) in
  if (8 <=? n)%nat then
    let a := add64 (w64 s 0) K2 in
    let b := w64 s (n - 8) in
    S_hash_len16_mul (add64 (mul64 (rotr64 b 37) mul) a) (mul64 (add64 (rotr64 a 25) b) mul) mul
  else if (4 <=? n)%nat then
    S_hash_len16_mul (N.of_nat n + 8 * w32 s 0) (w32 s (n - 4)) mul
  else if (1 <=? n)%nat then
    let y := nth 0 s 0 + 256 * nth (n / 2) s 0 in
    let z := N.of_nat n + 4 * nth (n - 1) s 0 in
    mul64 (S_shift_mix (xor (mul64 y K2) (mul64 z K0))) K2
  else K2.
Definition spec_upto64 (s : list N) : N :=
  let n := length s in
  if (n <=? 16)%nat then spec_0to16 s
  else if (n <=? 32)%nat then
    S_hash_len17to32_words (len64 s) (w64 s 0) (w64 s 8) (w64 s (n - 16)) (w64 s (n - 8))
  else
    S_hash_len33to64_words (len64 s) (w64 s 0) (w64 s 8) (w64 s 16) (w64 s 24)
      (w64 s (n - 32)) (w64 s (n - 24)) (w64 s (n - 16)) (w64 s (n - 8)).
(** Keys longer than 64 bytes: all whole blocks that end before the last byte, and
    then the last 64 bytes of the key. *)
Definition spec_over64 (s : list N) (seed0 seed1 : N) : N :=
  let n := length s in
  let y := add64 (mul64 seed1 K2) 113 in
  let z := mul64 (S_shift_mix (mul64 y K2)) K2 in
  let u := sub64 seed0 z in
  let mul := add64 K2 (N.land u 0x82) in
  let r := iterate ((n - 1) / 64) (fun i => S_uo_round mul (block64 s (64 * i)))
             (u, mul64 seed0 K2, y, z, seed0, seed1, 0, 0) in
  S_uo_final (len64 s) mul (block64 s (n - 64)) r.
Definition spec_hash64 (s : list N) : N :=
  if (length s <=? 64)%nat then spec_upto64 s else spec_over64 s 81 0.
Definition spec_hash64_seeds (s : list N) (seed0 seed1 : N) : N :=
  if (length s <=? 64)%nat then S_hash_len16 (sub64 (spec_upto64 s) seed0) seed1
  else spec_over64 s seed0 seed1.
Definition spec_hash64_seed (s : list N) (seed : N) : N :=
  if (length s <=? 64)%nat then S_hash_len16 (sub64 (spec_upto64 s) K2) seed
  else spec_over64 s 0 seed.

(** ** 128 bit hash *)
Definition spec_murmur (s : list N) (lo hi : N) : N * N :=
  let n := length s in
  let '(a, b, c, d) :=
    if (n <=? 16)%nat then
      let a := mul64 (S_shift_mix (mul64 lo K1)) K1 in
      let c := add64 (mul64 hi K1) (spec_0to16 s) in
      (a, hi, c, S_shift_mix (add64 a (if (8 <=? n)%nat then w64 s 0 else c)))
    else
      let c := S_hash_len16 (add64 (w64 s (n - 8)) K1) lo in
      let d := S_hash_len16 (add64 hi (len64 s)) (add64 c (w64 s (n - 16))) in
      iterate ((n - 1) / 16) (fun i => S_cm_round (w64 s (16 * i)) (w64 s (16 * i + 8))) (add64 lo d, hi, c, d) in
  let a := S_hash_len16 a c in
  let b := S_hash_len16 d b in
  (xor a b, S_hash_len16 b a).
(** All whole 128 byte blocks, as 64 byte halves, and then the last bytes of the key
    in 32 byte steps from the end, until the remainder is covered. *)
Definition spec_128_long (s : list N) (lo hi : N) : N * N :=
  let n := length s in
  let z := mul64 (len64 s) K1 in
  let v1 := add64 (mul64 (rotr64 (xor hi K1) 49) K1) (w64 s 0) in
  let v2 := add64 (mul64 (rotr64 v1 42) K1) (w64 s 8) in
  let w1 := add64 (mul64 (rotr64 (add64 hi z) 35) K1) lo in
  let w2 := mul64 (rotr64 (add64 lo (w64 s 88)) 53) K1 in
  let r := iterate (2 * (n / 128)) (fun i => S_na_round (block64 s (64 * i))) (lo, hi, z, v1, v2, w1, w2) in
  let r := iterate ((n mod 128 + 31) / 32)
             (fun i => let o := (n - 32 * S i)%nat in
                       S_cc_tail_round (w64 s o, w64 s (o + 8), w64 s (o + 16), w64 s (o + 24)))
             (S_cc_middle r) in
  S_cc_final r.
Definition spec_hash128_seed (s : list N) (lo hi : N) : N * N :=
  if (length s <? 128)%nat then spec_murmur s lo hi else spec_128_long s lo hi.
Definition spec_hash128 (s : list N) : N * N :=
  if (16 <=? length s)%nat then spec_hash128_seed (skipn 16 s) (w64 s 0) (add64 (w64 s 8) K0)
  else spec_hash128_seed s K0 K1.

(** ** 32 bit hash *)
(** A byte read as a signed number, modulo 2^32. *)
Definition signed8 (b : N) : N := if b <? 128 then b else 2 ^ 32 - (256 - b).
Definition spec32_0to4 (s : list N) (seed : N) : N :=
  let bs := fold_left (fun l x => l ++ [add32 (mul32 (last l seed) C1) (signed8 x)]) s [] in
  let c := fold_left N.lxor bs 9 in
  S_fmix (S_mur (last bs seed) (S_mur (len32 s) c)).
Definition spec32_5to12 (s : list N) (seed : N) : N :=
  let n := length s in
  let a := add32 (N.of_nat n) (w32 s 0) in
  let b := add32 (N.of_nat n * 5) (w32 s (n - 4)) in
  let c := add32 9 (w32 s (if (8 <=? n)%nat then 4 else 0)) in
  S_fmix (xor seed (S_mur c (S_mur b (S_mur a (add32 (N.of_nat n * 5) seed))))).
Definition spec32_13to24 (s : list N) (seed : N) : N :=
  let n := length s in
  S_h32_13_words (len32 s) seed (w32 s (n / 2 - 4)) (w32 s 4) (w32 s (n - 8)) (w32 s (n / 2)) (w32 s 0) (w32 s (n - 4)).
Definition spec_hash32 (s : list N) : N :=
  let n := length s in
  if (n <=? 4)%nat then spec32_0to4 s 0
  else if (n <=? 12)%nat then spec32_5to12 s 0
  else if (n <=? 24)%nat then spec32_13to24 s 0
  else
    S_mk_final
      (iterate ((n - 1) / 20)
         (fun i => let o := (20 * i)%nat in
                   S_mk_round (w32 s o) (w32 s (o + 4)) (w32 s (o + 8)) (w32 s (o + 12)) (w32 s (o + 16)))
         (S_mk_init (len32 s) (w32 s (n - 4)) (w32 s (n - 8)) (w32 s (n - 16)) (w32 s (n - 12)) (w32 s (n - 20)))).
Definition spec_hash32_seed (s : list N) (seed : N) : N :=
  let n := length s in
  if (n <=? 4)%nat then spec32_0to4 s seed
  else if (n <=? 12)%nat then spec32_5to12 s seed
  else if (n <=? 24)%nat then spec32_13to24 s (mul32 seed C1)
  else S_mur (add32 (spec_hash32 (skipn 24 s)) seed) (spec32_13to24 (firstn 24 s) (xor seed (len32 s))).
