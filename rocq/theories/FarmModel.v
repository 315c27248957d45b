(** Model of package farm (farm/*.go).

    Arithmetic on uint64/uint32 wraps; Go ints (lengths and indices) are [Z], so
    that a negative index is visible and panics.  Inside one straight-line piece of
    code all fetches are done first and the arithmetic, a pure function of the words
    read, afterwards: every failing fetch is the same run time panic, so the order
    is not observable. *)
From Coq Require Import NArith ZArith List Arith.
From Verif Require Import Words Mem.
Import ListNotations.
Open Scope N_scope.

(** basics.go:4-10. *)
Definition fk0 : N := 0xc3a5c85c97cb3127.
Definition fk1 : N := 0xb492b66fbe98f273.
Definition fk2 : N := 0x9ae16a3b2f90404f.
Definition fc1 : N := 0xcc9e2d51.
Definition fc2 : N := 0x1b873593.

(** rotate32, platform.go:3-9; rotate64, 11-17. *)
Definition rotate32 (val shift : N) : N :=
  if shift =? 0 then val else N.lor (shr val shift) (shl32 val (32 - shift)).
Definition rotate64 (val shift : N) : N :=
  if shift =? 0 then val else N.lor (shr val shift) (shl64 val (64 - shift)).

(** s[i] with a Go int index (farmhashcc.go:30, farmhashna.go:38-40). *)
Definition idxz (s : list N) (i : Z) : res N := if (i <? 0)%Z then Panics else idx s (Z.to_nat i).
(** s[i:] with a Go int index (platform.go:19-26, farmhashcc.go:101, 153). *)
Definition tailz (s : list N) (i : Z) : res (list N) := if (i <? 0)%Z then Panics else tail_from s (Z.to_nat i).
(** len(s) (farmhashcc.go:8). *)
Definition zlen (s : list N) : Z := Z.of_nat (length s).
(** uint64(len(s)), uint32(len(s)) (farmhashna.go:22, farmhashmk.go:5). *)
Definition ulen64 (s : list N) : N := wrap 64 (N.of_nat (length s)).
Definition ulen32 (s : list N) : N := wrap 32 (N.of_nat (length s)).

(** fetch32, platform.go:19-21. *)
Definition fetch32 (s : list N) (i : Z) : res N :=
  b0 <~ idxz s (i + 0) ;; b1 <~ idxz s (i + 1) ;; b2 <~ idxz s (i + 2) ;; b3 <~ idxz s (i + 3) ;;
  Ok (N.lor (N.lor (N.lor b0 (shl32 b1 8)) (shl32 b2 16)) (shl32 b3 24)).
(** fetch64, platform.go:23-26. *)
Definition fetch64 (s : list N) (i : Z) : res N :=
  b0 <~ idxz s (i + 0) ;; b1 <~ idxz s (i + 1) ;; b2 <~ idxz s (i + 2) ;; b3 <~ idxz s (i + 3) ;;
  b4 <~ idxz s (i + 4) ;; b5 <~ idxz s (i + 5) ;; b6 <~ idxz s (i + 6) ;; b7 <~ idxz s (i + 7) ;;
  Ok (N.lor (N.lor (N.lor (N.lor (N.lor (N.lor (N.lor b0 (shl64 b1 8)) (shl64 b2 16)) (shl64 b3 24))
     (shl64 b4 32)) (shl64 b5 40)) (shl64 b6 48)) (shl64 b7 56)).

(** fmix, basics.go:13-20. *)
Definition fmix (h : N) : N :=
  let h := xor h (shr h 16) in
  let h := mul32 h 0x85ebca6b in
  let h := xor h (shr h 13) in
  let h := mul32 h 0xc2b2ae35 in
  xor h (shr h 16).
(** h = rotate32(h, 19); h*5 + 0xe6546b64: the end of mur (basics.go:28-29), also
    inlined in farmhashmk.go:38-49, 77-81. *)
Definition mur_end (h : N) : N := add32 (mul32 (rotate32 h 19) 5) 0xe6546b64.
(** a = rotate32(a * c1, 17) * c2: the beginning of mur (basics.go:24-26), also
    farmhashmk.go:33-37. *)
Definition mur_begin (a : N) : N := mul32 (rotate32 (mul32 a fc1) 17) fc2.
(** mur, basics.go:22-30. *)
Definition mur (a h : N) : N := mur_end (xor h (mur_begin a)).

(** ** 64 bits: farmhashna.go *)

(** shiftMix, farmhashna.go:3-5. *)
Definition shift_mix (val : N) : N := xor val (shr val 47).
(** hashLen16Mul, farmhashna.go:11-19. *)
Definition hash_len16_mul (u v mul : N) : N :=
  let a := mul64 (xor u v) mul in
  let a := xor a (shr a 47) in
  let b := mul64 (xor v a) mul in
  let b := xor b (shr b 47) in
  mul64 b mul.
(** hash128to64, farmhashcc.go:37-46. *)
Definition hash128to64 (lo hi : N) : N :=
  let kmul := 0x9ddfea08eb382d69 in
  let a := mul64 (xor lo hi) kmul in
  let a := xor a (shr a 47) in
  let b := mul64 (xor hi a) kmul in
  let b := xor b (shr b 47) in
  mul64 b kmul.
(** hashLen16, farmhashna.go:7-9. *)
Definition hash_len16 (u v : N) : N := hash128to64 u v.

(** hashLen0to16, farmhashna.go:21-46. *)
Definition hash_len0to16 (s : list N) : res N :=
  let slen := ulen64 s in
  if 8 <=? slen then
    let mul := add64 fk2 (mul64 slen 2) in
    x <~ fetch64 s 0 ;;
    b <~ fetch64 s (Z.of_N (sub64 slen 8)) ;;
    let a := add64 x fk2 in
    let c := add64 (mul64 (rotate64 b 37) mul) a in
    let d := mul64 (add64 (rotate64 a 25) b) mul in
    Ok (hash_len16_mul c d mul)
  else if 4 <=? slen then
    let mul := add64 fk2 (mul64 slen 2) in
    a <~ fetch32 s 0 ;;
    b <~ fetch32 s (Z.of_N (sub64 slen 4)) ;;
    Ok (hash_len16_mul (add64 slen (shl64 a 3)) b mul)
  else if 0 <? slen then
    a <~ idxz s 0 ;;
    b <~ idxz s (Z.of_N (shr slen 1)) ;;
    c <~ idxz s (Z.of_N (sub64 slen 1)) ;;
    let y := add32 a (shl32 b 8) in
    let z := add32 (wrap 32 slen) (shl32 c 2) in
    Ok (mul64 (shift_mix (xor (mul64 y fk2) (mul64 z fk0))) fk2)
  else Ok fk2.

(** hashLen17to32, farmhashna.go:50-58. *)
Definition hash_len17to32_words (slen x0 x1 y1 y0 : N) : N :=
  let mul := add64 fk2 (mul64 slen 2) in
  let a := mul64 x0 fk1 in
  let b := x1 in
  let c := mul64 y0 mul in
  let d := mul64 y1 fk2 in
  hash_len16_mul (add64 (add64 (rotate64 (add64 a b) 43) (rotate64 c 30)) d)
                 (add64 (add64 a (rotate64 (add64 b fk2) 18)) c) mul.
Definition hash_len17to32 (s : list N) : res N :=
  x0 <~ fetch64 s 0 ;; x1 <~ fetch64 s 8 ;;
  y0 <~ fetch64 s (zlen s - 8) ;; y1 <~ fetch64 s (zlen s - 16) ;;
  Ok (hash_len17to32_words (ulen64 s) x0 x1 y1 y0).

(** weakHashLen32WithSeedsWords, farmhashna.go:62-70. *)
Definition weak_words (w x y z a b : N) : N * N :=
  let a := add64 a w in
  let b := rotate64 (add64 (add64 b a) z) 21 in
  let c := a in
  let a := add64 a x in
  let a := add64 a y in
  let b := add64 b (rotate64 a 44) in
  (add64 a z, add64 b c).
(** weakHashLen32WithSeeds, farmhashna.go:73-80. *)
Definition weak_hash (s : list N) (a b : N) : res (N * N) :=
  w <~ fetch64 s 0 ;; x <~ fetch64 s 8 ;; y <~ fetch64 s 16 ;; z <~ fetch64 s 24 ;;
  Ok (weak_words w x y z a b).

(** hashLen33to64, farmhashna.go:83-97. *)
Definition hash_len33to64_words (slen x0 x1 x2 x3 y3 y2 y1 y0 : N) : N :=
  let mul := add64 fk2 (mul64 slen 2) in
  let a := mul64 x0 fk2 in
  let b := x1 in
  let c := mul64 y0 mul in
  let d := mul64 y1 fk2 in
  let y := add64 (add64 (rotate64 (add64 a b) 43) (rotate64 c 30)) d in
  let z := hash_len16_mul y (add64 (add64 a (rotate64 (add64 b fk2) 18)) c) mul in
  let e := mul64 x2 mul in
  let f := x3 in
  let g := mul64 (add64 y y3) mul in
  let h := mul64 (add64 z y2) mul in
  hash_len16_mul (add64 (add64 (rotate64 (add64 e f) 43) (rotate64 g 30)) h)
                 (add64 (add64 e (rotate64 (add64 f a) 18)) g) mul.
Definition hash_len33to64 (s : list N) : res N :=
  x0 <~ fetch64 s 0 ;; x1 <~ fetch64 s 8 ;;
  y0 <~ fetch64 s (zlen s - 8) ;; y1 <~ fetch64 s (zlen s - 16) ;;
  x2 <~ fetch64 s 16 ;; x3 <~ fetch64 s 24 ;;
  y3 <~ fetch64 s (zlen s - 32) ;; y2 <~ fetch64 s (zlen s - 24) ;;
  Ok (hash_len33to64_words (ulen64 s) x0 x1 x2 x3 y3 y2 y1 y0).

(** The eight words of a 64 byte block, read by the loops below directly and
    through weakHashLen32WithSeeds(s, ...) and weakHashLen32WithSeeds(s[32:], ...)
    (farmhashna.go:126-133, farmhashcc.go:117-133). *)
Definition words8 : Type := N * N * N * N * N * N * N * N.
Definition fetch_words8 (s : list N) : res words8 :=
  a0 <~ fetch64 s 0 ;; a1 <~ fetch64 s 8 ;; a2 <~ fetch64 s 16 ;; a3 <~ fetch64 s 24 ;;
  s32 <~ tail_from s 32 ;;
  a4 <~ fetch64 s32 0 ;; a5 <~ fetch64 s32 8 ;; a6 <~ fetch64 s32 16 ;; a7 <~ fetch64 s32 24 ;;
  b5 <~ fetch64 s 40 ;; b6 <~ fetch64 s 48 ;;
  Ok (a0, a1, a2, a3, a4, b5, b6, a7).

(** Registers x, y, z, v1, v2, w1, w2 (farmhashna.go:114-118, farmhashcc.go:105-109). *)
Definition reg7 : Type := N * N * N * N * N * N * N.
(** The body of the loop of naHash64 (farmhashna.go:126-133), the same text as
    farmhashcc.go:117-124 and 126-133. *)
Definition na_round (ws : words8) (r : reg7) : reg7 :=
  let '(a0, a1, a2, a3, a4, a5, a6, a7) := ws in
  let '(x, y, z, v1, v2, w1, w2) := r in
  let x := mul64 (rotate64 (add64 (add64 (add64 x y) v1) a1) 37) fk1 in
  let y := mul64 (rotate64 (add64 (add64 y v2) a6) 42) fk1 in
  let x := xor x w2 in
  let y := add64 y (add64 v1 a5) in
  let z := mul64 (rotate64 (add64 z w1) 33) fk1 in
  let '(v1, v2) := weak_words a0 a1 a2 a3 (mul64 v2 fk1) (add64 x w1) in
  let '(w1, w2) := weak_words a4 a5 a6 a7 (add64 z w2) (add64 y a2) in
  (z, y, x, v1, v2, w1, w2).
(** farmhashna.go:125-135. *)
Fixpoint na_loop (fuel : nat) (s : list N) (r : reg7) : res reg7 :=
  if Nat.ltb 64 (length s) then
    match fuel with
    | O => NoFuel
    | S fuel => ws <~ fetch_words8 s ;; s <~ tail_from s 64 ;; na_loop fuel s (na_round ws r)
    end
  else Ok r.
(** farmhashna.go:136-153. *)
Definition na_final (slen : N) (ws : words8) (r : reg7) : N :=
  let '(a0, a1, a2, a3, a4, a5, a6, a7) := ws in
  let '(x, y, z, v1, v2, w1, w2) := r in
  let mul := add64 fk1 (shl64 (N.land z 0xff) 1) in
  let w1 := add64 w1 (N.land (sub64 slen 1) 63) in
  let v1 := add64 v1 w1 in
  let w1 := add64 w1 v1 in
  let x := mul64 (rotate64 (add64 (add64 (add64 x y) v1) a1) 37) mul in
  let y := mul64 (rotate64 (add64 (add64 y v2) a6) 42) mul in
  let x := xor x (mul64 w2 9) in
  let y := add64 y (add64 (mul64 v1 9) a5) in
  let z := mul64 (rotate64 (add64 z w1) 33) mul in
  let '(v1, v2) := weak_words a0 a1 a2 a3 (mul64 v2 mul) (add64 x w1) in
  let '(w1, w2) := weak_words a4 a5 a6 a7 (add64 z w2) (add64 y a2) in
  let '(z, x) := (x, z) in
  hash_len16_mul (add64 (add64 (hash_len16_mul v1 w1 mul) (mul64 (shift_mix y) fk0)) z)
                 (add64 (hash_len16_mul v2 w2 mul) x) mul.
(** endIdx + ((slen-1) & 63) - 63, farmhashna.go:122-123 and farmhashuo.go:28-29. *)
Definition last64_idx (s : list N) : Z :=
  let slen := zlen s in
  (((slen - 1) / 64) * 64 + Z.land (slen - 1) 63 - 63)%Z.
(** naHash64, farmhashna.go:99-154. *)
Definition na_hash64 (s : list N) : res N :=
  if (length s <=? 32)%nat then
    if (length s <=? 16)%nat then hash_len0to16 s else hash_len17to32 s
  else if (length s <=? 64)%nat then hash_len33to64 s
  else
    let y := 2480279821605975764 in
    let z := mul64 (shift_mix (add64 (mul64 y fk2) 113)) fk2 in
    x0 <~ fetch64 s 0 ;;
    let x := add64 (mul64 81 fk2) x0 in
    last64 <~ tailz s (last64_idx s) ;;
    r <~ na_loop (length s) s (x, y, z, 0, 0, 0, 0) ;;
    ws <~ fetch_words8 last64 ;;
    Ok (na_final (ulen64 s) ws r).
(** naHash64WithSeeds, farmhashna.go:160-162; naHash64WithSeed, 156-158. *)
Definition na_hash64_with_seeds (s : list N) (seed0 seed1 : N) : res N :=
  h <~ na_hash64 s ;; Ok (hash_len16 (sub64 h seed0) seed1).
Definition na_hash64_with_seed (s : list N) (seed : N) : res N := na_hash64_with_seeds s fk2 seed.

(** ** 64 bits: farmhashuo.go *)

(** uoH, farmhashuo.go:3-8. *)
Definition uo_h (x y mul r : N) : N :=
  let a := mul64 (xor x y) mul in
  let a := xor a (shr a 47) in
  let b := mul64 (xor y a) mul in
  mul64 (rotate64 b r) mul.
(** Registers u, x, y, z, v.lo, v.hi, w.lo, w.hi (farmhashuo.go:18-30). *)
Definition reg8 : Type := N * N * N * N * N * N * N * N.
(** The body of the loop, farmhashuo.go:33-78. *)
Definition uo_round (mul : N) (ws : words8) (r : reg8) : reg8 :=
  let '(a0, a1, a2, a3, a4, a5, a6, a7) := ws in
  let '(u, x, y, z, vl, vh, wl, wh) := r in
  let x := add64 x (add64 a0 a1) in
  let y := add64 y a2 in
  let z := add64 z a3 in
  let vl := add64 vl a4 in
  let vh := add64 vh (add64 a5 a1) in
  let wl := add64 wl a6 in
  let wh := add64 wh a7 in
  let x := rotate64 x 26 in
  let x := mul64 x 9 in
  let y := rotate64 y 29 in
  let z := mul64 z mul in
  let vl := rotate64 vl 33 in
  let vh := rotate64 vh 30 in
  let wl := xor wl x in
  let wl := mul64 wl 9 in
  let z := rotate64 z 32 in
  let z := add64 z wh in
  let wh := add64 wh z in
  let z := mul64 z 9 in
  let '(u, y) := (y, u) in
  let z := add64 z (add64 a0 a6) in
  let vl := add64 vl a2 in
  let vh := add64 vh a3 in
  let wl := add64 wl a4 in
  let wh := add64 wh (add64 a5 a6) in
  let x := add64 x a1 in
  let y := add64 y a7 in
  let y := add64 y vl in
  let vl := add64 vl (sub64 x y) in
  let vh := add64 vh wl in
  let wl := add64 wl vh in
  let wh := add64 wh (sub64 x y) in
  let x := add64 x wh in
  let wh := rotate64 wh 34 in
  let '(u, z) := (z, u) in
  (u, x, y, z, vl, vh, wl, wh).
(** The loop, farmhashuo.go:32-80. *)
Fixpoint uo_loop (mul : N) (fuel : nat) (s : list N) (r : reg8) : res reg8 :=
  if Nat.ltb 64 (length s) then
    match fuel with
    | O => NoFuel
    | S fuel => ws <~ fetch_words8 s ;; s <~ tail_from s 64 ;; uo_loop mul fuel s (uo_round mul ws r)
    end
  else Ok r.
(** farmhashuo.go:83-99. *)
Definition uo_final (slen mul : N) (ws : words8) (r : reg8) : N :=
  let '(a0, a1, a2, a3, a4, a5, a6, a7) := ws in
  let '(u, x, y, z, vl, vh, wl, wh) := r in
  let u := mul64 u 9 in
  let vh := rotate64 vh 28 in
  let vl := rotate64 vl 20 in
  let wl := add64 wl (N.land (sub64 slen 1) 63) in
  let u := add64 u y in
  let y := add64 y u in
  let x := mul64 (rotate64 (add64 (add64 (sub64 y x) vl) a1) 37) mul in
  let y := mul64 (rotate64 (xor (xor y vh) a6) 42) mul in
  let x := xor x (mul64 wh 9) in
  let y := add64 y (add64 vl a5) in
  let z := mul64 (rotate64 (add64 z wl) 33) mul in
  let '(vl, vh) := weak_words a0 a1 a2 a3 (mul64 vh mul) (add64 x wl) in
  let '(wl, wh) := weak_words a4 a5 a6 a7 (add64 z wh) (add64 y a2) in
  uo_h (sub64 (add64 (hash_len16_mul (add64 vl x) (xor wl y) mul) z) u)
       (xor (uo_h (add64 vh y) (add64 wh z) fk2 30) x) fk2 31.
(** Hash64WithSeeds, farmhashuo.go:10-100. *)
Definition hash64_with_seeds (s : list N) (seed0 seed1 : N) : res N :=
  if (length s <=? 64)%nat then na_hash64_with_seeds s seed0 seed1
  else
    let x := seed0 in
    let y := add64 (mul64 seed1 fk2) 113 in
    let z := mul64 (shift_mix (mul64 y fk2)) fk2 in
    let '(vl, vh) := (seed0, seed1) in
    let u := sub64 x z in
    let x := mul64 x fk2 in
    let mul := add64 fk2 (N.land u 0x82) in
    last64 <~ tailz s (last64_idx s) ;;
    r <~ uo_loop mul (length s) s (u, x, y, z, vl, vh, 0, 0) ;;
    ws <~ fetch_words8 last64 ;;
    Ok (uo_final (ulen64 s) mul ws r).
(** Hash64WithSeed, farmhashuo.go:102-107. *)
Definition farm_hash64_with_seed (s : list N) (seed : N) : res N :=
  if (length s <=? 64)%nat then na_hash64_with_seed s seed else hash64_with_seeds s 0 seed.
(** Hash64, farmhashuo.go:109-114; Fingerprint64, farmhashcc.go:179-181. *)
Definition farm_hash64 (s : list N) : res N :=
  if (length s <=? 64)%nat then na_hash64 s else hash64_with_seeds s 81 0.

(** ** 128 bits: farmhashcc.go *)

(** The body of the loop of cityMurmur, farmhashcc.go:75-80. *)
Definition cm_round (x0 x1 : N) (r : N * N * N * N) : N * N * N * N :=
  let '(a, b, c, d) := r in
  let a := xor a (mul64 (shift_mix (mul64 x0 fk1)) fk1) in
  let a := mul64 a fk1 in
  let b := xor b a in
  let c := xor c (mul64 (shift_mix (mul64 x1 fk1)) fk1) in
  let c := mul64 c fk1 in
  let d := xor d c in
  (a, b, c, d).
(** farmhashcc.go:74-86. *)
Fixpoint cm_loop (fuel : nat) (s : list N) (l : Z) (r : N * N * N * N) : res (N * N * N * N) :=
  match fuel with
  | O => NoFuel
  | S fuel =>
      x0 <~ fetch64 s 0 ;; x1 <~ fetch64 s 8 ;;
      let r := cm_round x0 x1 r in
      s <~ tail_from s 16 ;;
      let l := (l - 16)%Z in
      if (l <=? 0)%Z then Ok r else cm_loop fuel s l r
  end.
(** cityMurmur, farmhashcc.go:55-91. *)
Definition city_murmur (s : list N) (seed_lo seed_hi : N) : res (N * N) :=
  let a := seed_lo in
  let b := seed_hi in
  let l := (zlen s - 16)%Z in
  '(a, b, c, d) <~
    (if (l <=? 0)%Z then
       let a := mul64 (shift_mix (mul64 a fk1)) fk1 in
       h <~ hash_len0to16 s ;;
       let c := add64 (mul64 b fk1) h in
       d <~ (if (8 <=? length s)%nat then x <~ fetch64 s 0 ;; Ok (shift_mix (add64 a x))
             else Ok (shift_mix (add64 a c))) ;;
       Ok (a, b, c, d)
     else
       x <~ fetch64 s (zlen s - 8) ;;
       y <~ fetch64 s (zlen s - 16) ;;
       let c := hash_len16 (add64 x fk1) a in
       let d := hash_len16 (add64 b (ulen64 s)) (add64 c y) in
       let a := add64 a d in
       cm_loop (length s) s l (a, b, c, d)) ;;
  let a := hash_len16 a c in
  let b := hash_len16 d b in
  Ok (xor a b, hash_len16 b a).

(** The do-while loop of cityHash128WithSeed, farmhashcc.go:116-139: two rounds per
    iteration; returns the remaining length and the registers. *)
Fixpoint cc_loop (fuel : nat) (s : list N) (slen : Z) (r : reg7) : res (Z * reg7) :=
  match fuel with
  | O => NoFuel
  | S fuel =>
      ws <~ fetch_words8 s ;; s <~ tail_from s 64 ;; let r := na_round ws r in
      ws <~ fetch_words8 s ;; s <~ tail_from s 64 ;; let r := na_round ws r in
      let slen := (slen - 128)%Z in
      if (slen <? 128)%Z then Ok (slen, r) else cc_loop fuel s slen r
  end.
(** farmhashcc.go:140-144. *)
Definition cc_middle (r : reg7) : reg7 :=
  let '(x, y, z, v1, v2, w1, w2) := r in
  let x := add64 x (mul64 (rotate64 (add64 v1 z) 49) fk0) in
  let y := add64 (mul64 y fk0) (rotate64 w2 37) in
  let z := add64 (mul64 z fk0) (rotate64 w1 27) in
  let w1 := mul64 w1 9 in
  let v1 := mul64 v1 fk0 in
  (x, y, z, v1, v2, w1, w2).
(** farmhashcc.go:148-154; the four words are those of last[128-tail_done:]. *)
Definition cc_tail_round (w4 : N * N * N * N) (r : reg7) : reg7 :=
  let '(b0, b1, b2, b3) := w4 in
  let '(x, y, z, v1, v2, w1, w2) := r in
  let y := add64 (mul64 (rotate64 (add64 x y) 42) fk0) v2 in
  let w1 := add64 w1 b2 in
  let x := add64 (mul64 x fk0) w1 in
  let z := add64 z (add64 w2 b0) in
  let w2 := add64 w2 v1 in
  let '(v1, v2) := weak_words b0 b1 b2 b3 (add64 v1 z) v2 in
  let v1 := mul64 v1 fk0 in
  (x, y, z, v1, v2, w1, w2).
(** The four words read in one iteration: fetch64(last, 128-tail_done+16),
    fetch64(last, 128-tail_done) and weakHashLen32WithSeeds(last[128-tail_done:])
    (farmhashcc.go:148-154). *)
Definition fetch_words4 (last : list N) (i : Z) : res (N * N * N * N) :=
  c2 <~ fetch64 last (i + 16) ;; c0 <~ fetch64 last i ;;
  t <~ tailz last i ;;
  b0 <~ fetch64 t 0 ;; b1 <~ fetch64 t 8 ;; b2 <~ fetch64 t 16 ;; b3 <~ fetch64 t 24 ;;
  Ok (c0, b1, c2, b3).
(** farmhashcc.go:146-155. *)
Fixpoint cc_tail (fuel : nat) (last : list N) (tail_done slen : Z) (r : reg7) : res reg7 :=
  if (tail_done <? slen)%Z then
    match fuel with
    | O => NoFuel
    | S fuel =>
        let tail_done := (tail_done + 32)%Z in
        w4 <~ fetch_words4 last (128 - tail_done) ;;
        cc_tail fuel last tail_done slen (cc_tail_round w4 r)
    end
  else Ok r.
(** farmhashcc.go:160-163. *)
Definition cc_final (r : reg7) : N * N :=
  let '(x, y, z, v1, v2, w1, w2) := r in
  let x := hash_len16 x v1 in
  let y := hash_len16 (add64 y z) w1 in
  (add64 (hash_len16 (add64 x v2) w2) y, hash_len16 (add64 x w2) (add64 y v2)).
(** cityHash128WithSeed, farmhashcc.go:93-164. *)
Definition city_hash128_with_seed (s : list N) (seed_lo seed_hi : N) : res (N * N) :=
  let slen := zlen s in
  if (slen <? 128)%Z then city_murmur s seed_lo seed_hi
  else
    let end_idx := ((slen - 1) / 128 * 128)%Z in
    let last_block_idx := (end_idx + Z.land (slen - 1) 127 - 127)%Z in
    last <~ tailz s last_block_idx ;;
    let x := seed_lo in
    let y := seed_hi in
    let z := mul64 (ulen64 s) fk1 in
    f0 <~ fetch64 s 0 ;; f8 <~ fetch64 s 8 ;; f88 <~ fetch64 s 88 ;;
    let v1 := add64 (mul64 (rotate64 (xor y fk1) 49) fk1) f0 in
    let v2 := add64 (mul64 (rotate64 v1 42) fk1) f8 in
    let w1 := add64 (mul64 (rotate64 (add64 y z) 35) fk1) x in
    let w2 := mul64 (rotate64 (add64 x f88) 53) fk1 in
    '(slen, r) <~ cc_loop (length s) s slen (x, y, z, v1, v2, w1, w2) ;;
    r <~ cc_tail 5 last 0 slen (cc_middle r) ;;
    Ok (cc_final r).
(** cityHash128, farmhashcc.go:166-172; Fingerprint128 and Hash128 (174-177,
    187-189) return its two halves. *)
Definition farm_hash128 (s : list N) : res (N * N) :=
  if (16 <=? length s)%nat then
    t <~ tail_from s 16 ;;
    x <~ fetch64 s 0 ;; y <~ fetch64 s 8 ;;
    city_hash128_with_seed t x (add64 y fk0)
  else city_hash128_with_seed s fk0 fk1.
(** Hash128WithSeed, farmhashcc.go:191-194. *)
Definition farm_hash128_with_seed := city_hash128_with_seed.

(** ** 32 bits *)

(** hash32Len13to24Seed, farmhashcc.go:7-23. *)
Definition h32_13_words (slen seed a b c d e f : N) : N :=
  let h := add32 (add32 (mul32 d fc1) slen) seed in
  let a := add32 (rotate32 a 12) f in
  let h := add32 (mur c h) a in
  let a := add32 (rotate32 a 3) c in
  let h := add32 (mur e h) a in
  let a := add32 (rotate32 (add32 a f) 12) d in
  let h := add32 (mur (xor b seed) h) a in
  fmix h.
Definition hash32_len13to24 (s : list N) (seed : N) : res N :=
  let slen := zlen s in
  a <~ fetch32 s (-4 + Z.shiftr slen 1) ;;
  b <~ fetch32 s 4 ;;
  c <~ fetch32 s (slen - 8) ;;
  d <~ fetch32 s (Z.shiftr slen 1) ;;
  e <~ fetch32 s 0 ;;
  f <~ fetch32 s (slen - 4) ;;
  Ok (h32_13_words (ulen32 s) seed a b c d e f).

(** uint32(int8(b)): sign extension of a byte (farmhashcc.go:30-31). *)
Definition sext8 (b : N) : N := if b <? 128 then b else b + 0xffffff00.
(** hash32Len0to4, farmhashcc.go:25-35; the loop runs over the bytes. *)
Definition hash32_len0to4 (s : list N) (seed : N) : res N :=
  let '(b, c) := fold_left (fun '(b, c) x => let b := add32 (mul32 b fc1) (sext8 x) in (b, xor c b)) s (seed, 9) in
  Ok (fmix (mur b (mur (ulen32 s) c))).

(** hash32Len5to12, farmhashmk.go:3-13. *)
Definition hash32_len5to12 (s : list N) (seed : N) : res N :=
  let slen := zlen s in
  x <~ fetch32 s 0 ;; y <~ fetch32 s (slen - 4) ;; z <~ fetch32 s (Z.land (Z.shiftr slen 1) 4) ;;
  let a := ulen32 s in
  let b := wrap 32 (N.of_nat (length s) * 5) in
  let c := 9 in
  let d := add32 b seed in
  let a := add32 a x in
  let b := add32 b y in
  let c := add32 c z in
  Ok (fmix (xor seed (mur c (mur b (mur a d))))).

(** The body of the loop of Hash32, farmhashmk.go:59-66. *)
Definition mk_round (a b c d e : N) (r : N * N * N) : N * N * N :=
  let '(h, g, f) := r in
  let h := add32 h a in
  let g := add32 g b in
  let f := add32 f c in
  let h := add32 (mur d h) e in
  let g := add32 (mur c g) a in
  let f := add32 (mur (add32 b (mul32 e fc1)) f) d in
  let f := add32 f g in
  let g := add32 g f in
  (h, g, f).
(** farmhashmk.go:53-72. *)
Fixpoint mk_loop (fuel : nat) (s : list N) (iters : Z) (r : N * N * N) : res (N * N * N) :=
  match fuel with
  | O => NoFuel
  | S fuel =>
      a <~ fetch32 s 0 ;; b <~ fetch32 s 4 ;; c <~ fetch32 s 8 ;; d <~ fetch32 s 12 ;; e <~ fetch32 s 16 ;;
      let r := mk_round a b c d e r in
      s <~ tail_from s 20 ;;
      let iters := (iters - 1)%Z in
      if (iters =? 0)%Z then Ok r else mk_loop fuel s iters r
  end.
(** farmhashmk.go:30-51. *)
Definition mk_init (slen x4 x8 x16 x12 x20 : N) : N * N * N :=
  let h := slen in
  let g := mul32 fc1 slen in
  let f := g in
  let a0 := mur_begin x4 in
  let a1 := mur_begin x8 in
  let a2 := mur_begin x16 in
  let a3 := mur_begin x12 in
  let a4 := mur_begin x20 in
  let h := mur_end (xor h a0) in
  let h := mur_end (xor h a2) in
  let g := mur_end (xor g a1) in
  let g := mur_end (xor g a3) in
  let f := add32 f a4 in
  let f := add32 (rotate32 f 19) 113 in
  (h, g, f).
(** farmhashmk.go:73-83. *)
Definition mk_final (r : N * N * N) : N :=
  let '(h, g, f) := r in
  let g := mul32 (rotate32 g 11) fc1 in
  let g := mul32 (rotate32 g 17) fc1 in
  let f := mul32 (rotate32 f 11) fc1 in
  let f := mul32 (rotate32 f 17) fc1 in
  let h := mur_end (add32 h g) in
  let h := mul32 (rotate32 h 17) fc1 in
  let h := mur_end (add32 h f) in
  mul32 (rotate32 h 17) fc1.
(** Hash32, farmhashmk.go:15-84; Fingerprint32, farmhashcc.go:183-185. *)
Definition farm_hash32 (s : list N) : res N :=
  if (length s <=? 24)%nat then
    if (length s <=? 12)%nat then
      if (length s <=? 4)%nat then hash32_len0to4 s 0 else hash32_len5to12 s 0
    else hash32_len13to24 s 0
  else
    let slen := zlen s in
    x4 <~ fetch32 s (slen - 4) ;; x8 <~ fetch32 s (slen - 8) ;; x16 <~ fetch32 s (slen - 16) ;;
    x12 <~ fetch32 s (slen - 12) ;; x20 <~ fetch32 s (slen - 20) ;;
    let r := mk_init (ulen32 s) x4 x8 x16 x12 x20 in
    r <~ mk_loop (length s) s ((slen - 1) / 20) r ;;
    Ok (mk_final r).
(** Hash32WithSeed, farmhashmk.go:86-100. *)
Definition farm_hash32_with_seed (s : list N) (seed : N) : res N :=
  if (length s <=? 24)%nat then
    if (13 <=? length s)%nat then hash32_len13to24 s (mul32 seed fc1)
    else if (5 <=? length s)%nat then hash32_len5to12 s seed
    else hash32_len0to4 s seed
  else
    h <~ hash32_len13to24 (firstn 24 s) (xor seed (ulen32 s)) ;;
    t <~ tail_from s 24 ;;
    x <~ farm_hash32 t ;;
    Ok (mur (add32 x seed) h).
