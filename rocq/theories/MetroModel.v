(** Model of package metro (metro/metro64.go, metro/metro128.go).  All arithmetic
    is on uint64; binary.LittleEndian.UintNN(b) panics when b is too short and
    slicing b[n:] panics when n > len(b). *)
From Coq Require Import NArith List Arith.
From Verif Require Import Words Mem.
Import ListNotations.
Open Scope N_scope.

(** binary.LittleEndian.Uint64 / Uint32 / Uint16 of the first bytes of [p]
    (encoding/binary): an index check on the last byte read (metro64.go:24, 64, 70 and alike). *)
Definition le_uint (n : nat) (p : list N) : res N :=
  if Nat.leb n (length p) then Ok (le_load (firstn n p)) else Panics.

(** rotate_right, metro64.go:5-7. *)
Definition rotate_right (v k : N) : N := N.lor (shr v k) (shl64 v (64 - k)).

(** The array v of four registers, metro64.go:21, 98, metro128.go:14, 98. *)
Definition quad : Type := N * N * N * N.

(** metro64.go:23-36, 100-113, metro128.go:23-36, 107-120: the loop over blocks of
    32 bytes, the same text in all four functions up to the constants. *)
Fixpoint metro_loop (k0 k1 k2 k3 : N) (fuel : nat) (ptr : list N) (v : quad) : res (list N * quad) :=
  if Nat.leb 32 (length ptr) then
    match fuel with
    | O => NoFuel
    | S fuel =>
        let '(v0, v1, v2, v3) := v in
        x <~ le_uint 8 ptr ;; let v0 := add64 v0 (mul64 x k0) in
        ptr <~ tail_from ptr 8 ;;
        let v0 := add64 (rotate_right v0 29) v2 in
        x <~ le_uint 8 ptr ;; let v1 := add64 v1 (mul64 x k1) in
        ptr <~ tail_from ptr 8 ;;
        let v1 := add64 (rotate_right v1 29) v3 in
        x <~ le_uint 8 ptr ;; let v2 := add64 v2 (mul64 x k2) in
        ptr <~ tail_from ptr 8 ;;
        let v2 := add64 (rotate_right v2 29) v0 in
        x <~ le_uint 8 ptr ;; let v3 := add64 v3 (mul64 x k3) in
        ptr <~ tail_from ptr 8 ;;
        let v3 := add64 (rotate_right v3 29) v1 in
        metro_loop k0 k1 k2 k3 fuel ptr (v0, v1, v2, v3)
    end
  else Ok (ptr, v).

(** metro64.go:38-41, 115-118, metro128.go:38-41, 122-125: mixing of the four
    registers after the loop; the rotation counts differ. *)
Definition metro_mix (k0 k1 r1 r2 r3 r4 : N) (v : quad) : quad :=
  let '(v0, v1, v2, v3) := v in
  let v2 := xor v2 (mul64 (rotate_right (add64 (mul64 (add64 v0 v3) k0) v1) r1) k1) in
  let v3 := xor v3 (mul64 (rotate_right (add64 (mul64 (add64 v1 v2) k1) v0) r2) k0) in
  let v0 := xor v0 (mul64 (rotate_right (add64 (mul64 (add64 v0 v2) k0) v3) r3) k1) in
  let v1 := xor v1 (mul64 (rotate_right (add64 (mul64 (add64 v1 v3) k1) v2) r4) k0) in
  (v0, v1, v2, v3).

(** Hash64_1, metro64.go:9-85, line 63 tests len(ptr) > 4. *)
Definition hash64_1 (key : list N) (seed : N) : res N :=
  let k0 := 0xC83A91E1 in let k1 := 0x8648DBDB in let k2 := 0x7BDEC03B in let k3 := 0x2F5870A5 in
  let ptr := key in
  let hash := add64 (mul64 (add64 seed k2) k0) (wrap 64 (N.of_nat (length key))) in
  '(ptr, hash) <~
    (if Nat.leb 32 (length ptr) then
       '(ptr, v) <~ metro_loop k0 k1 k2 k3 (length key) ptr (hash, hash, hash, hash) ;;
       let '(v0, v1, _, _) := metro_mix k0 k1 33 33 33 33 v in
       Ok (ptr, add64 hash (xor v0 v1))
     else Ok (ptr, hash)) ;;
  '(ptr, hash) <~
    (if Nat.leb 16 (length ptr) then
       x <~ le_uint 8 ptr ;; let v0 := add64 hash (mul64 x k0) in
       ptr <~ tail_from ptr 8 ;;
       let v0 := mul64 (rotate_right v0 33) k1 in
       x <~ le_uint 8 ptr ;; let v1 := add64 hash (mul64 x k1) in
       ptr <~ tail_from ptr 8 ;;
       let v1 := mul64 (rotate_right v1 33) k2 in
       let v0 := xor v0 (add64 (rotate_right (mul64 v0 k0) 35) v1) in
       let v1 := xor v1 (add64 (rotate_right (mul64 v1 k3) 35) v0) in
       Ok (ptr, add64 hash v1)
     else Ok (ptr, hash)) ;;
  '(ptr, hash) <~
    (if Nat.leb 8 (length ptr) then
       x <~ le_uint 8 ptr ;; let hash := add64 hash (mul64 x k3) in
       ptr <~ tail_from ptr 8 ;;
       Ok (ptr, xor hash (mul64 (rotate_right hash 33) k1))
     else Ok (ptr, hash)) ;;
  '(ptr, hash) <~
    (if Nat.ltb 4 (length ptr) then
       x <~ le_uint 4 ptr ;; let hash := add64 hash (mul64 x k3) in
       ptr <~ tail_from ptr 4 ;;
       Ok (ptr, xor hash (mul64 (rotate_right hash 15) k1))
     else Ok (ptr, hash)) ;;
  '(ptr, hash) <~
    (if Nat.leb 2 (length ptr) then
       x <~ le_uint 2 ptr ;; let hash := add64 hash (mul64 x k3) in
       ptr <~ tail_from ptr 2 ;;
       Ok (ptr, xor hash (mul64 (rotate_right hash 13) k1))
     else Ok (ptr, hash)) ;;
  hash <~
    (if Nat.leb 1 (length ptr) then
       x <~ idx ptr 0 ;; let hash := add64 hash (mul64 x k3) in
       Ok (xor hash (mul64 (rotate_right hash 25) k1))
     else Ok hash) ;;
  let hash := xor hash (rotate_right hash 33) in
  let hash := mul64 hash k0 in
  let hash := xor hash (rotate_right hash 33) in
  Ok hash.

(** Hash64_2, metro64.go:87-162. *)
Definition hash64_2 (key : list N) (seed : N) : res N :=
  let k0 := 0xD6D018F5 in let k1 := 0xA2AA033B in let k2 := 0x62992FC1 in let k3 := 0x30BC5B29 in
  let ptr := key in
  let hash := add64 (mul64 (add64 seed k2) k0) (wrap 64 (N.of_nat (length key))) in
  '(ptr, hash) <~
    (if Nat.leb 32 (length ptr) then
       '(ptr, v) <~ metro_loop k0 k1 k2 k3 (length key) ptr (hash, hash, hash, hash) ;;
       let '(v0, v1, _, _) := metro_mix k0 k1 30 30 30 30 v in
       Ok (ptr, add64 hash (xor v0 v1))
     else Ok (ptr, hash)) ;;
  '(ptr, hash) <~
    (if Nat.leb 16 (length ptr) then
       x <~ le_uint 8 ptr ;; let v0 := add64 hash (mul64 x k2) in
       ptr <~ tail_from ptr 8 ;;
       let v0 := mul64 (rotate_right v0 29) k3 in
       x <~ le_uint 8 ptr ;; let v1 := add64 hash (mul64 x k2) in
       ptr <~ tail_from ptr 8 ;;
       let v1 := mul64 (rotate_right v1 29) k3 in
       let v0 := xor v0 (add64 (rotate_right (mul64 v0 k0) 34) v1) in
       let v1 := xor v1 (add64 (rotate_right (mul64 v1 k3) 34) v0) in
       Ok (ptr, add64 hash v1)
     else Ok (ptr, hash)) ;;
  '(ptr, hash) <~
    (if Nat.leb 8 (length ptr) then
       x <~ le_uint 8 ptr ;; let hash := add64 hash (mul64 x k3) in
       ptr <~ tail_from ptr 8 ;;
       Ok (ptr, xor hash (mul64 (rotate_right hash 36) k1))
     else Ok (ptr, hash)) ;;
  '(ptr, hash) <~
    (if Nat.leb 4 (length ptr) then
       x <~ le_uint 4 ptr ;; let hash := add64 hash (mul64 x k3) in
       ptr <~ tail_from ptr 4 ;;
       Ok (ptr, xor hash (mul64 (rotate_right hash 15) k1))
     else Ok (ptr, hash)) ;;
  '(ptr, hash) <~
    (if Nat.leb 2 (length ptr) then
       x <~ le_uint 2 ptr ;; let hash := add64 hash (mul64 x k3) in
       ptr <~ tail_from ptr 2 ;;
       Ok (ptr, xor hash (mul64 (rotate_right hash 15) k1))
     else Ok (ptr, hash)) ;;
  hash <~
    (if Nat.leb 1 (length ptr) then
       x <~ idx ptr 0 ;; let hash := add64 hash (mul64 x k3) in
       Ok (xor hash (mul64 (rotate_right hash 23) k1))
     else Ok hash) ;;
  let hash := xor hash (rotate_right hash 28) in
  let hash := mul64 hash k0 in
  let hash := xor hash (rotate_right hash 29) in
  Ok hash.

(** Hash128_1, metro128.go:5-88. *)
Definition hash128_1 (key : list N) (seed : N) : res (N * N) :=
  let k0 := 0xC83A91E1 in let k1 := 0x8648DBDB in let k2 := 0x7BDEC03B in let k3 := 0x2F5870A5 in
  let ptr := key in
  let len := wrap 64 (N.of_nat (length ptr)) in
  let v0 := add64 (mul64 (sub64 seed k0) k3) len in
  let v1 := add64 (mul64 (add64 seed k1) k2) len in
  '(ptr, v0, v1) <~
    (if Nat.leb 32 (length ptr) then
       let v2 := add64 (mul64 (add64 seed k0) k2) len in
       let v3 := add64 (mul64 (sub64 seed k1) k3) len in
       '(ptr, v) <~ metro_loop k0 k1 k2 k3 (length key) ptr (v0, v1, v2, v3) ;;
       let '(v0, v1, _, _) := metro_mix k0 k1 26 26 26 30 v in
       Ok (ptr, v0, v1)
     else Ok (ptr, v0, v1)) ;;
  '(ptr, v0, v1) <~
    (if Nat.leb 16 (length ptr) then
       x <~ le_uint 8 ptr ;; let v0 := add64 v0 (mul64 x k2) in
       ptr <~ tail_from ptr 8 ;;
       let v0 := mul64 (rotate_right v0 33) k3 in
       x <~ le_uint 8 ptr ;; let v1 := add64 v1 (mul64 x k2) in
       ptr <~ tail_from ptr 8 ;;
       let v1 := mul64 (rotate_right v1 33) k3 in
       let v0 := xor v0 (mul64 (rotate_right (add64 (mul64 v0 k2) v1) 17) k1) in
       let v1 := xor v1 (mul64 (rotate_right (add64 (mul64 v1 k3) v0) 17) k0) in
       Ok (ptr, v0, v1)
     else Ok (ptr, v0, v1)) ;;
  '(ptr, v0) <~
    (if Nat.leb 8 (length ptr) then
       x <~ le_uint 8 ptr ;; let v0 := add64 v0 (mul64 x k2) in
       ptr <~ tail_from ptr 8 ;;
       let v0 := mul64 (rotate_right v0 33) k3 in
       let v0 := xor v0 (mul64 (rotate_right (add64 (mul64 v0 k2) v1) 20) k1) in
       Ok (ptr, v0)
     else Ok (ptr, v0)) ;;
  '(ptr, v1) <~
    (if Nat.leb 4 (length ptr) then
       x <~ le_uint 4 ptr ;; let v1 := add64 v1 (mul64 x k2) in
       ptr <~ tail_from ptr 4 ;;
       let v1 := mul64 (rotate_right v1 33) k3 in
       let v1 := xor v1 (mul64 (rotate_right (add64 (mul64 v1 k3) v0) 18) k0) in
       Ok (ptr, v1)
     else Ok (ptr, v1)) ;;
  '(ptr, v0) <~
    (if Nat.leb 2 (length ptr) then
       x <~ le_uint 2 ptr ;; let v0 := add64 v0 (mul64 x k2) in
       ptr <~ tail_from ptr 2 ;;
       let v0 := mul64 (rotate_right v0 33) k3 in
       let v0 := xor v0 (mul64 (rotate_right (add64 (mul64 v0 k2) v1) 24) k1) in
       Ok (ptr, v0)
     else Ok (ptr, v0)) ;;
  v1 <~
    (if Nat.leb 1 (length ptr) then
       x <~ idx ptr 0 ;; let v1 := add64 v1 (mul64 x k2) in
       let v1 := mul64 (rotate_right v1 33) k3 in
       let v1 := xor v1 (mul64 (rotate_right (add64 (mul64 v1 k3) v0) 24) k0) in
       Ok v1
     else Ok v1) ;;
  let v0 := add64 v0 (rotate_right (add64 (mul64 v0 k0) v1) 13) in
  let v1 := add64 v1 (rotate_right (add64 (mul64 v1 k1) v0) 37) in
  let v0 := add64 v0 (rotate_right (add64 (mul64 v0 k2) v1) 13) in
  let v1 := add64 v1 (rotate_right (add64 (mul64 v1 k3) v0) 37) in
  Ok (v0, v1).

(** Hash128_2, metro128.go:90-172. *)
Definition hash128_2 (key : list N) (seed : N) : res (N * N) :=
  let k0 := 0xD6D018F5 in let k1 := 0xA2AA033B in let k2 := 0x62992FC1 in let k3 := 0x30BC5B29 in
  let ptr := key in
  let len := wrap 64 (N.of_nat (length ptr)) in
  let v0 := add64 (mul64 (sub64 seed k0) k3) len in
  let v1 := add64 (mul64 (add64 seed k1) k2) len in
  '(ptr, v0, v1) <~
    (if Nat.leb 32 (length ptr) then
       let v2 := add64 (mul64 (add64 seed k0) k2) len in
       let v3 := add64 (mul64 (sub64 seed k1) k3) len in
       '(ptr, v) <~ metro_loop k0 k1 k2 k3 (length key) ptr (v0, v1, v2, v3) ;;
       let '(v0, v1, _, _) := metro_mix k0 k1 33 33 33 33 v in
       Ok (ptr, v0, v1)
     else Ok (ptr, v0, v1)) ;;
  '(ptr, v0, v1) <~
    (if Nat.leb 16 (length ptr) then
       x <~ le_uint 8 ptr ;; let v0 := add64 v0 (mul64 x k2) in
       ptr <~ tail_from ptr 8 ;;
       let v0 := mul64 (rotate_right v0 29) k3 in
       x <~ le_uint 8 ptr ;; let v1 := add64 v1 (mul64 x k2) in
       ptr <~ tail_from ptr 8 ;;
       let v1 := mul64 (rotate_right v1 29) k3 in
       let v0 := xor v0 (mul64 (rotate_right (add64 (mul64 v0 k2) v1) 29) k1) in
       let v1 := xor v1 (mul64 (rotate_right (add64 (mul64 v1 k3) v0) 29) k0) in
       Ok (ptr, v0, v1)
     else Ok (ptr, v0, v1)) ;;
  '(ptr, v0) <~
    (if Nat.leb 8 (length ptr) then
       x <~ le_uint 8 ptr ;; let v0 := add64 v0 (mul64 x k2) in
       ptr <~ tail_from ptr 8 ;;
       let v0 := mul64 (rotate_right v0 29) k3 in
       let v0 := xor v0 (mul64 (rotate_right (add64 (mul64 v0 k2) v1) 29) k1) in
       Ok (ptr, v0)
     else Ok (ptr, v0)) ;;
  '(ptr, v1) <~
    (if Nat.leb 4 (length ptr) then
       x <~ le_uint 4 ptr ;; let v1 := add64 v1 (mul64 x k2) in
       ptr <~ tail_from ptr 4 ;;
       let v1 := mul64 (rotate_right v1 29) k3 in
       let v1 := xor v1 (mul64 (rotate_right (add64 (mul64 v1 k3) v0) 25) k0) in
       Ok (ptr, v1)
     else Ok (ptr, v1)) ;;
  '(ptr, v0) <~
    (if Nat.leb 2 (length ptr) then
       x <~ le_uint 2 ptr ;; let v0 := add64 v0 (mul64 x k2) in
       ptr <~ tail_from ptr 2 ;;
       let v0 := mul64 (rotate_right v0 29) k3 in
       let v0 := xor v0 (mul64 (rotate_right (add64 (mul64 v0 k2) v1) 30) k1) in
       Ok (ptr, v0)
     else Ok (ptr, v0)) ;;
  v1 <~
    (if Nat.leb 1 (length ptr) then
       x <~ idx ptr 0 ;; let v1 := add64 v1 (mul64 x k2) in
       let v1 := mul64 (rotate_right v1 29) k3 in
       let v1 := xor v1 (mul64 (rotate_right (add64 (mul64 v1 k3) v0) 18) k0) in
       Ok v1
     else Ok v1) ;;
  let v0 := add64 v0 (rotate_right (add64 (mul64 v0 k0) v1) 33) in
  let v1 := add64 v1 (rotate_right (add64 (mul64 v1 k1) v0) 33) in
  let v0 := add64 v0 (rotate_right (add64 (mul64 v0 k2) v1) 33) in
  let v1 := add64 v1 (rotate_right (add64 (mul64 v1 k3) v0) 33) in
  Ok (v0, v1).
