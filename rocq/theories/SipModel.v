(** Model of package siphash (portable Go code and streaming digest) and of
    package siphashpg.  The amd64 assembly is in SipAsmModel.v. *)
From Coq Require Import ZArith.
From Verif Require Import Words Blocks.
Open Scope N_scope.

(** The internal state v0, v1, v2, v3 (siphash/siphash.go:26). *)
Definition sst : Type := N * N * N * N.

(** One unrolled SipHash round, siphash/hash.go:29-45.  Every "Round n" group of
    siphash/hash.go, siphash/hash128.go and siphash/siphash.go is textually the
    same 14 assignments (checked by tools/check_sip_rounds.py), so they are
    modelled by this one function. *)
Definition sip_round (s : sst) : sst :=
  let '(v0, v1, v2, v3) := s in
  let v0 := add64 v0 v1 in
  let v1 := rotl64 v1 13 in
  let v1 := xor v1 v0 in
  let v0 := rotl64 v0 32 in
  let v2 := add64 v2 v3 in
  let v3 := rotl64 v3 16 in
  let v3 := xor v3 v2 in
  let v0 := add64 v0 v3 in
  let v3 := rotl64 v3 21 in
  let v3 := xor v3 v0 in
  let v2 := add64 v2 v1 in
  let v1 := rotl64 v1 17 in
  let v1 := xor v1 v2 in
  let v2 := rotl64 v2 32 in
  (v0, v1, v2, v3).

(** siphash/hash.go:26-66 and siphash.go:84-124: one message word [m]. *)
Definition sip_compress (s : sst) (m : N) : sst :=
  let '(v0, v1, v2, v3) := s in
  let v3 := xor v3 m in
  let s := sip_round (v0, v1, v2, v3) in
  let s := sip_round s in
  let '(v0, v1, v2, v3) := s in
  let v0 := xor v0 m in
  (v0, v1, v2, v3).

(** The loop body including the load of [m] (hash.go:24-25, siphash.go:81-82);
    [b] is [p[:8]], the guard [len(p) >= 8] makes the eight loads in range. *)
Definition sip_block (s : sst) (b : list N) : sst := sip_compress s (le_load b).

(** The four words of hash.go:16-19, siphash.go:62-65. *)
Definition sip_iv (k0 k1 : N) : sst :=
  (xor k0 0x736f6d6570736575, xor k1 0x646f72616e646f6d,
   xor k0 0x6c7967656e657261, xor k1 0x7465646279746573).

(** hash.go:71-92, hash128.go:75-96, siphashpg/siphash.go:153-180: the
    fall-through switch collecting the last [len(p) < 8] bytes into [t].
    [nth _ p 0] is [p[i]]; in case n only indices < n = len(p) are used, so the
    default 0 is never taken. *)
Definition sip_tail (t : N) (p : list N) : N :=
  let c1 t := N.lor t (nth 0 p 0) in
  let c2 t := c1 (N.lor t (shl64 (nth 1 p 0) 8)) in
  let c3 t := c2 (N.lor t (shl64 (nth 2 p 0) 16)) in
  let c4 t := c3 (N.lor t (shl64 (nth 3 p 0) 24)) in
  let c5 t := c4 (N.lor t (shl64 (nth 4 p 0) 32)) in
  let c6 t := c5 (N.lor t (shl64 (nth 5 p 0) 40)) in
  let c7 t := c6 (N.lor t (shl64 (nth 6 p 0) 48)) in
  match length p with
  | 7%nat => c7 t | 6%nat => c6 t | 5%nat => c5 t | 4%nat => c4 t
  | 3%nat => c3 t | 2%nat => c2 t | 1%nat => c1 t
  | _ => t
  end.

(** [v0 ^ v1 ^ v2 ^ v3], hash.go:215. *)
Definition sip_fold (s : sst) : N :=
  let '(v0, v1, v2, v3) := s in xor (xor (xor v0 v1) v2) v3.

(** hash.go:137-215, siphash.go:168-247. *)
Definition sip_final64 (s : sst) : N :=
  let '(v0, v1, v2, v3) := s in
  let v2 := xor v2 0xff in
  sip_fold (sip_round (sip_round (sip_round (sip_round (v0, v1, v2, v3))))).

(** hash128.go:141-301, siphash.go:260-421. *)
Definition sip_final128 (s : sst) : N * N :=
  let '(v0, v1, v2, v3) := s in
  let v2 := xor v2 0xee in
  let s := sip_round (sip_round (sip_round (sip_round (v0, v1, v2, v3)))) in
  let r0 := sip_fold s in
  let '(v0, v1, v2, v3) := s in
  let v1 := xor v1 0xdd in
  let s := sip_round (sip_round (sip_round (sip_round (v0, v1, v2, v3)))) in
  let r1 := sip_fold s in
  (r0, r1).

(** [uint64(len(p))]; a Go length is below 2^63, so no truncation happens, but it
    is written (hash.go:20). *)
Definition len64 (p : list N) : N := wrap 64 (N.of_nat (length p)).

(** Hash, siphash/hash.go:14-216. *)
Definition sip_hash (k0 k1 : N) (p : list N) : N :=
  let t := shl64 (len64 p) 56 in
  let '(s, p) := absorb 8 sip_block (sip_iv k0 k1) p in
  let t := sip_tail t p in
  sip_final64 (sip_compress s t).

(** [v1 ^= 0xee], hash128.go:24, siphash.go:68-70. *)
Definition xor_v1_ee (s : sst) : sst :=
  let '(v0, v1, v2, v3) := s in (v0, xor v1 0xee, v2, v3).

(** Hash128, siphash/hash128.go:16-302. *)
Definition sip_hash128 (k0 k1 : N) (p : list N) : N * N :=
  let s := xor_v1_ee (sip_iv k0 k1) in
  let t := shl64 (len64 p) 56 in
  let '(s, p) := absorb 8 sip_block s p in
  let t := sip_tail t p in
  sip_final128 (sip_compress s t).

(** ** The streaming digest *)

(** type digest, siphash/siphash.go:25-32.  [dx] is the array x [8]byte. *)
Record sip_digest := mkSip {
  dv : sst; dk0 : N; dk1 : N; dt : N; dnx : nat; dx : list N; dsize : nat
}.

(** Reset, siphash.go:61-71 (the buffer x keeps its bytes). *)
Definition sip_reset (d : sip_digest) : sip_digest :=
  let v := sip_iv (dk0 d) (dk1 d) in
  let v := if Nat.eqb (dsize d) 16 then xor_v1_ee v else v in
  mkSip v (dk0 d) (dk1 d) 0 0 (dx d) (dsize d).

(** newDigest, siphash.go:35-47: [None] is the panic on a bad size or a key
    shorter than 16 bytes (index out of range). *)
Definition sip_new_digest (size : nat) (key : list N) : option sip_digest :=
  if negb (Nat.eqb size 8) && negb (Nat.eqb size 16) then None
  else
    k0 <- load64 key 0 ;;
    k1 <- load64 key 8 ;;
    Some (sip_reset (mkSip (0, 0, 0, 0) k0 k1 0 0 (repeat 0 8) size)).

(** New and New128, siphash.go:50-59. *)
Definition sip_new (key : list N) : option sip_digest := sip_new_digest 8 key.
Definition sip_new128 (key : list N) : option sip_digest := sip_new_digest 16 key.

(** blocks, siphash.go:77-130; the loop drops a rest shorter than a block. *)
Definition sip_blocks (v : sst) (p : list N) : sst := fst (absorb 8 sip_block v p).

(** [copy(x[off:], p)] on an array: new contents and the count copied (siphash.go:140, 153). *)
Definition copy_at (x : list N) (off : nat) (p : list N) : list N * nat :=
  let n := Nat.min (length x - off) (length p) in
  (firstn off x ++ firstn n p ++ skipn (off + n) x, n).

(** Write, siphash.go:132-156: the new digest (the results are [len(p), nil]). *)
Definition sip_write_d (d : sip_digest) (p : list N) : sip_digest :=
  let t := addw 8 (dt d) (wrap 8 (N.of_nat (length p))) in
  let d := mkSip (dv d) (dk0 d) (dk1 d) t (dnx d) (dx d) (dsize d) in
  let '(d, p) :=
    if Nat.ltb 0 (dnx d) then
      let n := length p in
      let n := if Nat.ltb (8 - dnx d) n then (8 - dnx d)%nat else n in
      let '(x, c) := copy_at (dx d) (dnx d) p in
      let nx := (dnx d + c)%nat in
      let d := if Nat.eqb nx 8
               then mkSip (sip_blocks (dv d) x) (dk0 d) (dk1 d) t 0 x (dsize d)
               else mkSip (dv d) (dk0 d) (dk1 d) t nx x (dsize d) in
      (d, skipn n p)
    else (d, p) in
  let '(d, p) :=
    if Nat.leb 8 (length p) then
      let n := N.to_nat (N.ldiff (N.of_nat (length p)) 7) in
      (mkSip (sip_blocks (dv d) (firstn n p)) (dk0 d) (dk1 d) t (dnx d) (dx d) (dsize d), skipn n p)
    else (d, p) in
  if Nat.ltb 0 (length p) then
    let '(x, c) := copy_at (dx d) 0 p in
    mkSip (dv d) (dk0 d) (dk1 d) t c x (dsize d)
  else d.

(** Write with its result nn (siphash.go:133, 155). *)
Definition sip_write (d : sip_digest) (p : list N) : sip_digest * nat := (sip_write_d d p, length p).

(** siphash.go:162-165 and 254-257: the final block. *)
Definition sip_last (d : sip_digest) : list N :=
  firstn (dnx d) (dx d) ++ repeat 0 (7 - dnx d) ++ [dt d].

(** Sum64, siphash.go:158-248 (works on a copy of the digest). *)
Definition sip_sum64 (d : sip_digest) : N := sip_final64 (sip_blocks (dv d) (sip_last d)).
(** sum128, siphash.go:250-422. *)
Definition sip_sum128 (d : sip_digest) : N * N := sip_final128 (sip_blocks (dv d) (sip_last d)).

(** Sum, siphash.go:424-457. *)
Definition sip_sum (d : sip_digest) (inp : list N) : list N :=
  if Nat.eqb (dsize d) 8 then inp ++ le_store 8 (sip_sum64 d)
  else let '(r0, r1) := sip_sum128 d in inp ++ le_store 8 r0 ++ le_store 8 r1.

(** Size and BlockSize, siphash.go:73-75. *)
Definition sip_size (d : sip_digest) : nat := dsize d.
Definition sip_block_size (_ : sip_digest) : nat := 8.

(** ** Package siphashpg *)

(** rotl, siphashpg/siphash.go:29-31. *)
Definition pg_rotl (x b : N) : N := N.lor (shl64 x b) (shr x (sub64 64 b)).

(** U8tou64le, siphashpg/siphash.go:33-40; [None]: index out of range. *)
Definition u8tou64le (p : list N) : option N := load64 p 0.

(** U64tou8le, siphashpg/siphash.go:42-50: the loop over the 8-byte result. *)
Fixpoint u64tou8le_loop (n : nat) (v : N) : list N :=
  match n with
  | O => []
  | S n => wrap 8 (N.land v 0xFF) :: u64tou8le_loop n (shr v 8)
  end.
Definition u64tou8le (v : N) : list N := u64tou8le_loop 8 v.

(** The closure sipround, siphashpg/siphash.go:86-91. *)
Definition pg_sipround (s : sst) : sst :=
  let '(v0, v1, v2, v3) := s in
  let v0 := add64 v0 v1 in let v1 := pg_rotl v1 13 in let v1 := xor v1 v0 in let v0 := pg_rotl v0 32 in
  let v2 := add64 v2 v3 in let v3 := pg_rotl v3 16 in let v3 := xor v3 v2 in
  let v0 := add64 v0 v3 in let v3 := pg_rotl v3 21 in let v3 := xor v3 v0 in
  let v2 := add64 v2 v1 in let v1 := pg_rotl v1 17 in let v1 := xor v1 v2 in let v2 := pg_rotl v2 32 in
  (v0, v1, v2, v3).

(** siprounda and siproundb, siphashpg/siphash.go:52-62 (unused halves). *)
Definition pg_siprounda (s : sst) : sst :=
  let '(v0, v1, v2, v3) := s in
  let v0 := add64 v0 v1 in let v1 := pg_rotl v1 13 in let v1 := xor v1 v0 in let v0 := pg_rotl v0 32 in
  let v2 := add64 v2 v3 in let v3 := pg_rotl v3 16 in let v3 := xor v3 v2 in
  (v0, v1, v2, v3).
Definition pg_siproundb (s : sst) : sst :=
  let '(v0, v1, v2, v3) := s in
  let v0 := add64 v0 v3 in let v3 := pg_rotl v3 21 in let v3 := xor v3 v0 in
  let v2 := add64 v2 v1 in let v1 := pg_rotl v1 17 in let v1 := xor v1 v2 in let v2 := pg_rotl v2 32 in
  (v0, v1, v2, v3).

(** [for i := 0; i < n; i++ { sipround() }], siphashpg/siphash.go:129-133 etc. *)
Definition pg_rounds (n : Z) (s : sst) : sst := Nat.iter (Z.to_nat n) pg_sipround s.

(** siphashpg/siphash.go:123-134: one word.  sliceUI64 reinterprets the slice as
    64-bit words; on a little-endian machine k64[cnt] is the little-endian word
    of bytes 8*cnt..8*cnt+7, i.e. of the first 8 bytes of the advancing [in].
    The big-endian reading of the same memory is [pg_block_m] of EndianModel.v. *)
Definition pg_block (cr : Z) (s : sst) (b : list N) : sst :=
  let m := le_load b in
  let '(v0, v1, v2, v3) := s in
  let v3 := xor v3 m in
  let '(v0, v1, v2, v3) := pg_rounds cr (v0, v1, v2, v3) in
  let v0 := xor v0 m in
  (v0, v1, v2, v3).

(** Siphash, siphashpg/siphash.go:83-219 (the [fast] branch, which is the one
    taken: fast is the constant true).  [None] is panic("siphash").  The result
    rb is 0 unless dbl. *)
Definition pg_siphash (inp k : list N) (cr dr : Z) (dbl : bool) : option (N * N) :=
  if negb (Nat.eqb (length k) 16) || (cr <=? 0)%Z || (dr <=? 0)%Z then None
  else
    let v0 := 0x736f6d6570736575 in
    let v1 := 0x646f72616e646f6d in
    let v2 := 0x6c7967656e657261 in
    let v3 := 0x7465646279746573 in
    k0 <- u8tou64le k ;;
    k1 <- u8tou64le (skipn 8 k) ;;
    let b := shl64 (len64 inp) 56 in
    let v3 := xor v3 k1 in
    let v2 := xor v2 k0 in
    let v1 := xor v1 k1 in
    let v0 := xor v0 k0 in
    let v1 := if dbl then xor v1 0xee else v1 in
    let '(s, inp) := absorb 8 (pg_block cr) (v0, v1, v2, v3) inp in
    let b := sip_tail b inp in
    let '(v0, v1, v2, v3) := s in
    let v3 := xor v3 b in
    let '(v0, v1, v2, v3) := pg_rounds cr (v0, v1, v2, v3) in
    let v0 := xor v0 b in
    let v2 := if dbl then xor v2 0xee else xor v2 0xff in
    let '(v0, v1, v2, v3) := pg_rounds dr (v0, v1, v2, v3) in
    let b := xor (xor (xor v0 v1) v2) v3 in
    let ra := b in
    if dbl then
      let v1 := xor v1 0xdd in
      let '(v0, v1, v2, v3) := pg_rounds dr (v0, v1, v2, v3) in
      let b := xor (xor (xor v0 v1) v2) v3 in
      Some (ra, b)
    else Some (ra, 0).
