(** The hash functions of /repo that reinterpret the bytes of the key as machine
    words through package unsafe, as functions of the byte order of the machine.
    The other models of this development fix the little-endian machine. *)
From Coq Require Import ZArith List.
From Verif Require Import Words Mem Blocks SipModel Mm3Model JenkinsModel SmallModel SpookyModel.
Open Scope N_scope.

(** The byte order of the machine (GOARCH): amd64, 386, arm are little-endian,
    ppc64, s390x, mips big-endian.  The question "what are the right test vectors
    for big-endian machines" is in crapwow/crapwow.go:10-13; the same conversion
    is in jenkins/jenkins.go:110-115 and 290-295, spooky/spooky.go:56-61 and
    siphashpg/siphash.go:77-79. *)
Inductive machine := Little | Big.

(** A word read from memory: the load through a *uint32 or *uint64 at
    murmur3/murmur32.go:49 and 116, murmur3/murmur128.go:61-62,
    jenkins/jenkins.go:739-741, and through the slices of words named above. *)
Definition mload (m : machine) (b : list N) : N :=
  match m with Little => le_load b | Big => be_load b end.

(** ** murmur3 *)

(** One iteration of bmix, murmur3/murmur32.go:48-58, and of the loop of Sum32,
    115-125: [mm32_block] on either machine. *)
Definition mm32_block_m (m : machine) (h1 : N) (b : list N) : N :=
  let k1 := mload m b in
  let k1 := mm32_k1 k1 in
  let h1 := xor h1 k1 in
  let h1 := N.lor (shl32 h1 13) (shr h1 19) in
  add32 (mul32 h1 5) 0xe6546b64.
(** Sum32, murmur3/murmur32.go:105-154; the tail is read byte by byte (129-143). *)
Definition mm_sum32_m (m : machine) (data : list N) : N :=
  let '(h1, tail) := absorb 4 (mm32_block_m m) 0 data in
  let h1 := mm32_tail h1 tail in
  let h1 := xor h1 (wrap 32 (N.of_nat (length data))) in
  mm32_fmix h1.
(** One iteration of bmix, murmur3/murmur128.go:60-81: the two words of
    [*[2]uint64]. *)
Definition mm128_block_m (m : machine) (h : N * N) (b : list N) : N * N :=
  let '(h1, h2) := h in
  let k1 := mload m (firstn 8 b) in
  let k2 := mload m (skipn 8 b) in
  let k1 := mm128_k1 k1 in
  let h1 := xor h1 k1 in
  let h1 := N.lor (shl64 h1 27) (shr h1 37) in
  let h1 := add64 h1 h2 in
  let h1 := add64 (mul64 h1 5) 0x52dce729 in
  let k2 := mm128_k2 k2 in
  let h2 := xor h2 k2 in
  let h2 := N.lor (shl64 h2 31) (shr h2 33) in
  let h2 := add64 h2 h1 in
  let h2 := add64 (mul64 h2 5) 0x38495ab5 in
  (h1, h2).
(** Sum128 and Sum64, murmur3/murmur128.go:184-189 and murmur3/murmur64.go:39-45. *)
Definition mm_sum128_m (m : machine) (data : list N) : N * N :=
  let '(h, tail) := absorb 16 (mm128_block_m m) (0, 0) data in
  mm128_final (mm128_tail h tail) (N.of_nat (length data)).
Definition mm_sum64_m (m : machine) (data : list N) : N := let '(h1, _) := mm_sum128_m m data in h1.
(** Write of the digests, murmur3/murmur.go:34-59, over the bmix of that machine. *)
Definition mm_write32_m (m : machine) := mm_write 4 (mm32_block_m m).
Definition mm_write128_m (m : machine) := mm_write 16 (mm128_block_m m).

(** ** jenkins *)

(** Word [i] of the slices made by sliceUI32 and sliceUI64,
    jenkins/jenkins.go:113-115 and 293-295. *)
Definition word32_m (m : machine) (k : list N) (i : nat) : res N :=
  if Nat.ltb i (length k / 4) then Ok (mload m (firstn 4 (skipn (4 * i) k))) else Panics.
Definition word64_m (m : machine) (k : list N) (i : nat) : res N :=
  if Nat.ltb i (length k / 8) then Ok (mload m (firstn 8 (skipn (8 * i) k))) else Panics.

(** The fast loop of Hash232, jenkins/jenkins.go:128-138. *)
Fixpoint h232_fast_m (m : machine) (fuel : nat) (k0 k : list N) (cnt : nat) (l : N) (s : tri) : res (list N * N * tri) :=
  if 12 <=? l then
    match fuel with
    | O => NoFuel
    | S fuel =>
        let '(a, b, c) := s in
        x <~ word32_m m k0 (0 + cnt) ;; let a := add32 a x in
        y <~ word32_m m k0 (1 + cnt) ;; let b := add32 b y in
        z <~ word32_m m k0 (2 + cnt) ;; let c := add32 c z in
        k <~ tail_from k 12 ;;
        h232_fast_m m fuel k0 k (cnt + 3) (sub32 l 12) (mix32 (a, b, c))
    end
  else Ok (k, l, s).
(** Hash232, jenkins/jenkins.go:121-191.  The byte loop ([fast] false, 140-146)
    does not depend on the machine. *)
Definition hash232_m (m : machine) (fast : bool) (k : list N) (seed : N) : res N :=
  let l := wrap 32 (N.of_nat (length k)) in
  let s := (0x9e3779b9, 0x9e3779b9, seed) in
  let fuel := S (length k) in
  '(k, l, s) <~ (if fast then h232_fast_m m fuel k k 0 l s else h232_slow fuel k l s) ;;
  let '(a, b, c) := s in
  s <~ h232_tail k l (a, b, add32 c l) ;;
  let '(_, _, c) := mix32 s in
  Ok c.

(** The fast loop of Hash264, jenkins/jenkins.go:313-328. *)
Fixpoint h264_fast_m (m : machine) (fuel : nat) (k0 k : list N) (cnt : nat) (i length_ : N) (s : tri) : res (list N * N * tri) :=
  if 24 <=? i then
    match fuel with
    | O => NoFuel
    | S fuel =>
        let '(a, b, c) := s in
        x <~ word64_m m k0 (0 + cnt) ;; let a := add64 a x in
        y <~ word64_m m k0 (1 + cnt) ;; let b := add64 b y in
        z <~ word64_m m k0 (2 + cnt) ;; let c := add64 c z in
        let s := mix64f (mix64e (mix64d (mix64c (mix64b (mix64a (a, b, c)))))) in
        k <~ tail_from k 24 ;;
        h264_fast_m m fuel k0 k (cnt + 3) (sub64 i 24) (sub64 length_ 24) s
    end
  else Ok (k, length_, s).
(** Hash264, jenkins/jenkins.go:301-419. *)
Definition hash264_m (m : machine) (fast : bool) (k : list N) (seed : N) : res N :=
  let l := wrap 64 (N.of_nat (length k)) in
  let s := (0x9e3779b97f4a7c13, 0x9e3779b97f4a7c13, seed) in
  let fuel := S (length k) in
  '(k, l, s) <~ (if fast then h264_fast_m m fuel k k 0 l l s else h264_slow fuel k l l s) ;;
  let '(a, b, c) := s in
  let c := add64 c l in
  if Nat.ltb 23 (length k) then Panics
  else
  s <~ h264_tail k l (a, b, c) ;;
  let '(_, _, c) := mix64alt s in
  Ok c.

(** The four bytes behind &k[i] read as a uint32, jenkins/jenkins.go:739-741 and
    762-788. *)
Definition peek_m (m : machine) (k : list N) (i n : nat) : res N := l <~ peek k i n ;; Ok (mload m l).
(** jenkins/jenkins.go:737-745. *)
Fixpoint j364_loop_m (m : machine) (fuel : nat) (k : list N) (len : Z) (s : tri) : res (list N * Z * tri) :=
  if (12 <? len)%Z then
    match fuel with
    | O => NoFuel
    | S fuel =>
        let '(a, b, c) := s in
        x <~ peek_m m k 0 4 ;; let a := add32 a x in
        y <~ peek_m m k 4 4 ;; let b := add32 b y in
        z <~ peek_m m k 8 4 ;; let c := add32 c z in
        k <~ tail_from k 12 ;;
        j364_loop_m m fuel k (len - 12)%Z (mix2 (mix1 (a, b, c)))
    end
  else Ok (k, len, s).
(** The switch, jenkins/jenkins.go:760-802: whole words by pointer, the bytes
    after them one at a time. *)
Definition j364_tail_m (m : machine) (k : list N) (len : Z) (s : tri) : res (N * N + tri) :=
  let '(a, b, c) := s in
  let at_ r i sh := x <~ idx k i ;; Ok (add32 r (shl32 x sh)) in
  let pt r i := x <~ peek_m m k i 4 ;; Ok (add32 r x) in
  let c1 (s : tri) := let '(a, b, c) := s in a <~ at_ a 0%nat 0 ;; Ok (inr (a, b, c)) in
  let c2 (s : tri) := let '(a, b, c) := s in a <~ at_ a 1%nat 8 ;; c1 (a, b, c) in
  let c3 (s : tri) := let '(a, b, c) := s in a <~ at_ a 2%nat 16 ;; c2 (a, b, c) in
  let c4 (s : tri) := let '(a, b, c) := s in a <~ pt a 0%nat ;; Ok (inr (a, b, c)) in
  let c5 (s : tri) := let '(a, b, c) := s in b <~ at_ b 4%nat 0 ;; c4 (a, b, c) in
  let c6 (s : tri) := let '(a, b, c) := s in b <~ at_ b 5%nat 8 ;; c5 (a, b, c) in
  let c7 (s : tri) := let '(a, b, c) := s in b <~ at_ b 6%nat 16 ;; c6 (a, b, c) in
  let c8 (s : tri) := let '(a, b, c) := s in a <~ pt a 0%nat ;; b <~ pt b 4%nat ;; Ok (inr (a, b, c)) in
  let c9 (s : tri) := let '(a, b, c) := s in c <~ at_ c 8%nat 0 ;; c8 (a, b, c) in
  let c10 (s : tri) := let '(a, b, c) := s in c <~ at_ c 9%nat 8 ;; c9 (a, b, c) in
  let c11 (s : tri) := let '(a, b, c) := s in c <~ at_ c 10%nat 16 ;; c10 (a, b, c) in
  let c12 (s : tri) := let '(a, b, c) := s in
    a <~ pt a 0%nat ;; b <~ pt b 4%nat ;; c <~ pt c 8%nat ;; Ok (inr (a, b, c)) in
  match len with
  | 12%Z => c12 (a, b, c) | 11%Z => c11 (a, b, c) | 10%Z => c10 (a, b, c) | 9%Z => c9 (a, b, c)
  | 8%Z => c8 (a, b, c) | 7%Z => c7 (a, b, c) | 6%Z => c6 (a, b, c) | 5%Z => c5 (a, b, c)
  | 4%Z => c4 (a, b, c) | 3%Z => c3 (a, b, c) | 2%Z => c2 (a, b, c) | 1%Z => c1 (a, b, c)
  | 0%Z => Ok (inl (c, b))
  | _ => Ok (inr (a, b, c))
  end.
(** Jenkins364, jenkins/jenkins.go:700-806. *)
Definition jenkins364_m (m : machine) (k : list N) (len : Z) (pc pb : N) : res (N * N) :=
  let len := if (len =? 0)%Z then Z.of_nat (length k) else len in
  let ul := wrap 32 (N.of_nat (length k)) in
  let a := add32 (add32 0xdeadbeef ul) pc in
  let b := a in
  let c := a in
  let c := add32 c pb in
  '(k, len, s) <~ j364_loop_m m (S (Z.to_nat len)) k len (a, b, c) ;;
  r <~ j364_tail_m m k len s ;;
  match r with
  | inl v => Ok v
  | inr s => let '(a, b, c) := final2 (final1 s) in Ok (c, b)
  end.

(** ** crapwow *)

(** sliceUI32, crapwow/crapwow.go:14-16. *)
Definition sliceUI32_m (m : machine) (b : list N) : list N :=
  map (fun i => mload m (firstn 4 (skipn (4 * i) b))) (seq 0 (length b / 4)).
(** CrapWow, crapwow/crapwow.go:18-71: whole words through the slice of words, the
    last bytes one at a time. *)
Definition CrapWow_m (m : machine) (key : list N) (seed : N) : res N :=
  let l := length key in
  let h := wrap 32 (N.of_nat l) in
  let k := add32 (add32 h seed) cw_n in
  '(l, key4, key, hk) <~ cw_loop (S l) l (sliceUI32_m m key) key (h, k) ;;
  '(l, key, hk) <~
    (if Nat.leb 4 l then
       x <~ idx key4 0 ;; let hk := cwmixb x hk in
       key4 <~ tail_from key4 1 ;; key <~ tail_from key 4 ;; Ok ((l - 4)%nat, key, hk)
     else Ok (l, key, hk)) ;;
  hk <~
    (if Nat.eqb l 3 then
       c <~ idx key 2 ;; b <~ idx key 1 ;; a <~ idx key 0 ;;
       Ok (cwmixa (N.land (N.lor (N.lor (shl32 c 16) (shl32 b 8)) a) (2 ^ 24 - 1)) hk)
     else if Nat.eqb l 2 then
       b <~ idx key 1 ;; a <~ idx key 0 ;; Ok (cwmixa (N.land (N.lor (shl32 b 8) a) (2 ^ 16 - 1)) hk)
     else if Nat.eqb l 1 then
       a <~ idx key 0 ;; Ok (cwmixa (N.land a (2 ^ 8 - 1)) hk)
     else Ok hk) ;;
  let '(h, k) := hk in
  let '(h, k) := cwmixb (xor h (add32 k cw_n)) (h, k) in
  Ok (xor k h).

(** ** siphashpg *)

(** One word, siphashpg/siphash.go:123-134 (the [fast] branch, which is taken on
    every machine). *)
Definition pg_block_m (m : machine) (cr : Z) (s : sst) (b : list N) : sst :=
  let x := mload m b in
  let '(v0, v1, v2, v3) := s in
  let v3 := xor v3 x in
  let '(v0, v1, v2, v3) := pg_rounds cr (v0, v1, v2, v3) in
  let v0 := xor v0 x in
  (v0, v1, v2, v3).
(** Siphash, siphashpg/siphash.go:83-219.  The key is read by U8tou64le, byte by
    byte. *)
Definition pg_siphash_m (m : machine) (inp k : list N) (cr dr : Z) (dbl : bool) : option (N * N) :=
  if negb (Nat.eqb (length k) 16) || (cr <=? 0)%Z || (dr <=? 0)%Z then None
  else
    let v0 := 0x736f6d6570736575 in
    let v1 := 0x646f72616e646f6d in
    let v2 := 0x6c7967656e657261 in
    let v3 := 0x7465646279746573 in
    k0 <- u8tou64le k ;;
    k1 <- u8tou64le (skipn 8 k) ;;
    let b := shl64 (len64 inp) 56 in
    let v3 := xor v3 k1 in
    let v2 := xor v2 k0 in
    let v1 := xor v1 k1 in
    let v0 := xor v0 k0 in
    let v1 := if dbl then xor v1 0xee else v1 in
    let '(s, inp) := absorb 8 (pg_block_m m cr) (v0, v1, v2, v3) inp in
    let b := sip_tail b inp in
    let '(v0, v1, v2, v3) := s in
    let v3 := xor v3 b in
    let '(v0, v1, v2, v3) := pg_rounds cr (v0, v1, v2, v3) in
    let v0 := xor v0 b in
    let v2 := if dbl then xor v2 0xee else xor v2 0xff in
    let '(v0, v1, v2, v3) := pg_rounds dr (v0, v1, v2, v3) in
    let b := xor (xor (xor v0 v1) v2) v3 in
    let ra := b in
    if dbl then
      let v1 := xor v1 0xdd in
      let '(v0, v1, v2, v3) := pg_rounds dr (v0, v1, v2, v3) in
      let b := xor (xor (xor v0 v1) v2) v3 in
      Some (ra, b)
    else Some (ra, 0).

(** ** spooky *)

(** sliceUI64, spooky/spooky.go:59-61. *)
Fixpoint words_of_m (m : machine) (n : nat) (s : list N) : list N :=
  match n with O => [] | S n => mload m (firstn 8 s) :: words_of_m m n (skipn 8 s) end.
Definition sliceUI64_m (m : machine) (s : list N) : list N := words_of_m m (length s / 8) s.
(** The loop over whole blocks, spooky/spooky.go:155-163. *)
Fixpoint long_loop_m (m : machine) (fuel : nat) (s : list N) (l : nat) (h : list N) : res (list N * list N) :=
  if Nat.leb 96 l then
    match fuel with
    | O => NoFuel
    | S fuel => h <~ Mix (sliceUI64_m m s) h ;; s <~ tail_from s 96 ;; long_loop_m m fuel s (l - 96) h
    end
  else Ok (s, h).
(** SpookyHash128, spooky/spooky.go:137-183.  The short keys (141-144) are read
    byte by byte; the last block of a long key is a buffer of bytes (168-173) read
    as words again. *)
Definition SpookyHash128_m (m : machine) (s : list N) (hash1 hash2 : N) : res (N * N) :=
  let len := length s in
  if Nat.ltb len 192 then SpookyHashShort s hash1 hash2
  else
    let rem := (len mod 96)%nat in
    let h := [hash1; hash2; sc_const; hash1; hash2; sc_const; hash1; hash2; sc_const; hash1; hash2; sc_const] in
    '(s, h) <~ long_loop_m m len s len h ;;
    if negb (Nat.eqb (length s) rem) then Panics
    else
      b <~ last_block s rem ;;
      h <~ End_ (sliceUI64_m m b) h ;;
      Ok (nth 0 h 0, nth 1 h 0).
