(** Model of package keccakpg (keccakpg/keccak.go).  Slices are modelled with their
    backing arrays, because Write keeps the slice it is given. *)
From Coq Require Import NArith ZArith List Arith Lia.
From Verif Require Import Words ListLemmas Mem.
Import ListNotations.
Open Scope N_scope.

(** ** Memory: arrays of bytes; a slice is a window of an array (Go's runtime
    representation of []byte).  The nil slice has length and capacity 0
    (used by keccakpg/keccak.go:82-122). *)
Definition heap : Type := list (list N).
Record slice := mkSlice { arr : nat; off : nat; len : nat; cap : nat }.
Definition nil_slice : slice := mkSlice 0 0 0 0.
Definition array (h : heap) (a : nat) : list N := nth a h [].
Definition read (h : heap) (s : slice) : list N := firstn (len s) (skipn (off s) (array h (arr s))).
(** s[:n] and s[n:] for 0 <= n <= len(s) (keccak.go:90-91, 102-103). *)
Definition upto (s : slice) (n : nat) : slice := mkSlice (arr s) (off s) n (cap s).
Definition from (s : slice) (n : nat) : slice := mkSlice (arr s) (off s + n) (len s - n) (cap s - n).
Definition store (h : heap) (a o : nat) (bs : list N) : heap :=
  let l := array h a in upd h a (firstn o l ++ bs ++ skipn (o + length bs) l).
(** append(s, bs...): in place when the capacity suffices, else into a new array whose
    capacity is chosen by the runtime ([grow], any function) (keccak.go:90, 122). *)
Definition append (grow : nat -> nat -> nat) (h : heap) (s : slice) (bs : list N) : heap * slice :=
  let n := (len s + length bs)%nat in
  if Nat.leb n (cap s) then (store h (arr s) (off s + len s) bs, mkSlice (arr s) (off s) n (cap s))
  else let c := Nat.max n (grow (cap s) n) in
       (h ++ [read h s ++ bs ++ repeat 0 (c - n)], mkSlice (length h) 0 n c).

(** stdRounds, keccak.go:10; the tables, 12-37. *)
Definition stdRounds : Z := 24.
Definition roundConstants : list N := [
  0x0000000000000001; 0x0000000000008082; 0x800000000000808A; 0x8000000080008000;
  0x000000000000808B; 0x0000000080000001; 0x8000000080008081; 0x8000000000008009;
  0x000000000000008A; 0x0000000000000088; 0x0000000080008009; 0x000000008000000A;
  0x000000008000808B; 0x800000000000008B; 0x8000000000008089; 0x8000000000008003;
  0x8000000000008002; 0x8000000000000080; 0x000000000000800A; 0x800000008000000A;
  0x8000000080008081; 0x8000000000008080; 0x0000000080000001; 0x8000000080008008].
Definition rotationConstants : list N := [
  1; 3; 6; 10; 15; 21; 28; 36; 45; 55; 2; 14; 27; 41; 56; 8; 25; 43; 62; 18; 39; 61; 20; 44].
Definition piLane : list nat := [
  10; 7; 11; 17; 18; 3; 5; 16; 8; 21; 24; 4; 15; 23; 19; 13; 12; 2; 20; 14; 22; 9; 6; 1]%nat.

(** type keccak, keccak.go:39-45. *)
Record keccak := mkKeccak { S_ : list N; size : Z; blockSize : Z; rounds : Z; buf : slice }.

(** newKeccak, keccak.go:47-56; the division truncates. *)
Definition newKeccak (bitlen r : Z) : keccak :=
  let sz := Z.quot bitlen 8 in mkKeccak (repeat 0 25) sz (200 - 2 * sz) r nil_slice.
(** NewCustom and New160 .. New512, keccak.go:58-80. *)
Definition NewCustom (bits r : Z) : keccak := newKeccak bits r.
Definition New160 : keccak := newKeccak 160 stdRounds.
Definition New224 : keccak := newKeccak 224 stdRounds.
Definition New256 : keccak := newKeccak 256 stdRounds.
Definition New384 : keccak := newKeccak 384 stdRounds.
Definition New512 : keccak := newKeccak 512 stdRounds.

(** rotl64, keccak.go:140-142. *)
Definition rotl64 (x n : N) : N := N.lor (shl64 x n) (shr x (64 - n)).
(** uint64le, keccak.go:203-213: v[0..7]. *)
Definition uint64le (v : list N) : res N := if Nat.leb 8 (length v) then Ok (le_load (firstn 8 v)) else Panics.
(** putUint64le, keccak.go:215-224. *)
Definition putUint64le (x : N) : list N := le_store 8 x.

(** The four steps of a round, keccak.go:157-166, 168-175, 177-185, 188. *)
Definition get (s : list N) (i : nat) : N := nth i s 0.
Definition theta (s : list N) : list N :=
  let bc := map (fun i => xor (xor (xor (xor (get s i) (get s (5 + i))) (get s (10 + i))) (get s (15 + i))) (get s (20 + i))) (seq 0 5) in
  fold_left (fun s i =>
    let t := xor (get bc ((i + 4) mod 5)) (rotl64 (get bc ((i + 1) mod 5)) 1) in
    fold_left (fun s j => upd s (i + j) (xor (get s (i + j)) t)) [0; 5; 10; 15; 20]%nat s) (seq 0 5) s.
Definition rhopi (s : list N) : list N :=
  fst (fold_left (fun '(s, temp) i =>
    let j := nth i piLane 0%nat in
    (upd s j (rotl64 temp (nth i rotationConstants 0)), get s j)) (seq 0 24) (s, get s 1)).
Definition ones64 : N := 0xffffffffffffffff.
Definition chi (s : list N) : list N :=
  fold_left (fun s j =>
    let bc := map (fun i => get s (j + i)) (seq 0 5) in
    fold_left (fun s i => upd s (j + i)
      (xor (get s (j + i)) (N.land (xor (get bc ((i + 1) mod 5)) ones64) (get bc ((i + 2) mod 5))))) (seq 0 5) s)
    [0; 5; 10; 15; 20]%nat s.
Definition iota (c : N) (s : list N) : list N := upd s 0 (xor (get s 0) c).
(** The rounds loop, keccak.go:154-189; roundConstants[r] panics for r >= 24. *)
Fixpoint rounds_loop (n r : nat) (s : list N) : res (list N) :=
  match n with
  | O => Ok s
  | S n => c <~ idx roundConstants r ;; rounds_loop n (S r) (iota c (chi (rhopi (theta s))))
  end.
(** The xor loop, keccak.go:150-152. *)
Fixpoint xor_loop (n i : nat) (s block : list N) : res (list N) :=
  match n with
  | O => Ok s
  | S n => x <~ idx s i ;; t <~ tail_from block (i * 8) ;; w <~ uint64le t ;; xor_loop n (S i) (upd s i (xor x w)) block
  end.
(** f, keccak.go:144-190, on the contents of the block; returns the new k.S.
    blockSize/8 truncates. *)
Definition f (k : keccak) (s block : list N) : res (list N) :=
  if Z.eqb (Z.of_nat (length block)) (blockSize k) then
    s <~ xor_loop (Z.to_nat (Z.quot (blockSize k) 8)) 0 s block ;;
    rounds_loop (Z.to_nat (rounds k)) 0 s
  else Panics.
Definition withS (k : keccak) (s : list N) : keccak := mkKeccak s (size k) (blockSize k) (rounds k) (buf k).
Definition withBuf (k : keccak) (b : slice) : keccak := mkKeccak (S_ k) (size k) (blockSize k) (rounds k) b.

(** The loop of Write, keccak.go:101-104. *)
Fixpoint write_loop (fuel : nat) (h : heap) (k : keccak) (b : slice) : res (keccak * slice) :=
  match fuel with
  | O => NoFuel
  | S fuel =>
      if Z.leb (blockSize k) (Z.of_nat (len b)) then
        if Z.ltb (blockSize k) 0 then Panics else
        let n := Z.to_nat (blockSize k) in
        s <~ f k (S_ k) (read h (upto b n)) ;;
        write_loop fuel h (withS k s) (from b n)
      else Ok (k, b)
  end.
(** Write, keccak.go:82-109; the returned count is len(b), the error nil. *)
Definition Write (grow : nat -> nat -> nat) (fuel : nat) (h : heap) (k : keccak) (b : slice) : res (heap * keccak * nat) :=
  let n := len b in
  if Nat.ltb 0 (len (buf k)) then
    let x := Z.min (blockSize k - Z.of_nat (len (buf k))) (Z.of_nat (len b)) in
    if Z.ltb x 0 then Panics else
    let x := Z.to_nat x in
    let '(h, nb) := append grow h (buf k) (read h (upto b x)) in
    let b := from b x in
    if Z.ltb (Z.of_nat (len nb)) (blockSize k) then Ok (h, withBuf k nb, n)
    else
      s <~ f k (S_ k) (read h nb) ;;
      '(k, b) <~ write_loop fuel h (withS (withBuf k nil_slice) s) b ;; Ok (h, withBuf k b, n)
  else
    '(k, b) <~ write_loop fuel h k b ;; Ok (h, withBuf k b, n).
(** pad, keccak.go:192-201 (of the contents of k.buf). *)
Definition pad (k : keccak) (pending : list N) : res (list N) :=
  if Z.ltb (blockSize k) 0 then Panics else
  let n := Z.to_nat (blockSize k) in
  let padded := firstn n pending ++ repeat 0 (n - length pending) in
  if Nat.ltb (length pending) n then
    let padded := upd padded (length pending) 0x01 in
    Ok (upd padded (n - 1) (N.lor (get padded (n - 1)) 0x80))
  else Panics.
(** Sum, keccak.go:111-123: the copy k is dropped. *)
Definition Sum (grow : nat -> nat -> nat) (h : heap) (k : keccak) (b : slice) : res (heap * slice) :=
  last <~ pad k (read h (buf k)) ;;
  s <~ f k (S_ k) last ;;
  let out := concat (map putUint64le s) in
  if (Z.ltb (size k) 0 || Z.ltb (Z.of_nat (length out)) (size k))%bool then Panics
  else Ok (append grow h b (firstn (Z.to_nat (size k)) out)).
(** Reset, keccak.go:125-130; Size, 132-134; BlockSize, 136-138. *)
Definition Reset (k : keccak) : keccak := mkKeccak (map (fun _ => 0) (S_ k)) (size k) (blockSize k) (rounds k) nil_slice.
Definition Size (k : keccak) : Z := size k.
Definition BlockSize (k : keccak) : Z := blockSize k.
