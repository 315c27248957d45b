(** Model of package murmur3. *)
From Verif Require Import Words Blocks SipModel.
Open Scope N_scope.

(** ** 32 bits *)

(** murmur3/murmur32.go:16-19. *)
Definition c1_32 : N := 0xcc9e2d51.
Definition c2_32 : N := 0x1b873593.

(** murmur32.go:51-53, 77-79, 118-120, 139-141: scrambling of one word. *)
Definition mm32_k1 (k1 : N) : N :=
  let k1 := mul32 k1 c1_32 in
  let k1 := N.lor (shl32 k1 15) (shr k1 17) in
  mul32 k1 c2_32.

(** One iteration of bmix (murmur32.go:48-58) and of the loop of Sum32
    (murmur32.go:115-125); [b] is the 4 bytes at the cursor, read through a
    *uint32, i.e. little-endian on the supported machines.  The counted loop over
    nblocks = len/4 blocks is the block loop [absorb 4]. *)
Definition mm32_block (h1 : N) (b : list N) : N :=
  let k1 := le_load b in
  let k1 := mm32_k1 k1 in
  let h1 := xor h1 k1 in
  let h1 := N.lor (shl32 h1 13) (shr h1 19) in
  add32 (mul32 h1 5) 0xe6546b64.

(** murmur32.go:67-81 and 129-143: the tail switch; [len & 3].  The indices are
    below the case number; a tail shorter than that cannot occur ([nth] default
    never used). *)
Definition mm32_tail (h1 : N) (tail : list N) : N :=
  let k1 := 0 in
  let c1 k1 := let k1 := xor k1 (nth 0 tail 0) in xor h1 (mm32_k1 k1) in
  let c2 k1 := c1 (xor k1 (shl32 (nth 1 tail 0) 8)) in
  let c3 k1 := c2 (xor k1 (shl32 (nth 2 tail 0) 16)) in
  match N.land (N.of_nat (length tail)) 3 with
  | 3 => c3 k1 | 2 => c2 k1 | 1 => c1 k1 | _ => h1
  end.

(** murmur32.go:85-89 and 147-151. *)
Definition mm32_fmix (h1 : N) : N :=
  let h1 := xor h1 (shr h1 16) in
  let h1 := mul32 h1 0x85ebca6b in
  let h1 := xor h1 (shr h1 13) in
  let h1 := mul32 h1 0xc2b2ae35 in
  xor h1 (shr h1 16).

(** Sum32, murmur32.go:105-154. *)
Definition mm_sum32 (data : list N) : N :=
  let '(h1, tail) := absorb 4 mm32_block 0 data in
  let h1 := mm32_tail h1 tail in
  let h1 := xor h1 (wrap 32 (N.of_nat (length data))) in
  mm32_fmix h1.

(** ** 128 bits *)

(** murmur128.go:10-11. *)
Definition c1_128 : N := 0x87c37b91114253d5.
Definition c2_128 : N := 0x4cf5ad432745937f.

(** murmur128.go:64-66, 143-145 and 73-75, 113-115. *)
Definition mm128_k1 (k1 : N) : N :=
  let k1 := mul64 k1 c1_128 in
  let k1 := N.lor (shl64 k1 31) (shr k1 33) in
  mul64 k1 c2_128.
Definition mm128_k2 (k2 : N) : N :=
  let k2 := mul64 k2 c2_128 in
  let k2 := N.lor (shl64 k2 33) (shr k2 31) in
  mul64 k2 c1_128.

(** One iteration of bmix, murmur128.go:60-81; the 16 bytes are read as two
    uint64 (little-endian machine). *)
Definition mm128_block (h : N * N) (b : list N) : N * N :=
  let '(h1, h2) := h in
  let k1 := le_load (firstn 8 b) in
  let k2 := le_load (skipn 8 b) in
  let k1 := mm128_k1 k1 in
  let h1 := xor h1 k1 in
  let h1 := N.lor (shl64 h1 27) (shr h1 37) in
  let h1 := add64 h1 h2 in
  let h1 := add64 (mul64 h1 5) 0x52dce729 in
  let k2 := mm128_k2 k2 in
  let h2 := xor h2 k2 in
  let h2 := N.lor (shl64 h2 31) (shr h2 33) in
  let h2 := add64 h2 h1 in
  let h2 := add64 (mul64 h2 5) 0x38495ab5 in
  (h1, h2).

(** murmur128.go:90-147: the tail switch, [len & 15]. *)
Definition mm128_tail (h : N * N) (tail : list N) : N * N :=
  let '(h1, h2) := h in
  let x k i s := xor k (shl64 (nth i tail 0) s) in
  let c1 h2 k1 := let k1 := x k1 0%nat 0 in (xor h1 (mm128_k1 k1), h2) in
  let c2 h2 k1 := c1 h2 (x k1 1%nat 8) in
  let c3 h2 k1 := c2 h2 (x k1 2%nat 16) in
  let c4 h2 k1 := c3 h2 (x k1 3%nat 24) in
  let c5 h2 k1 := c4 h2 (x k1 4%nat 32) in
  let c6 h2 k1 := c5 h2 (x k1 5%nat 40) in
  let c7 h2 k1 := c6 h2 (x k1 6%nat 48) in
  let c8 h2 k1 := c7 h2 (x k1 7%nat 56) in
  let c9 k2 := let k2 := x k2 8%nat 0 in c8 (xor h2 (mm128_k2 k2)) 0 in
  let c10 k2 := c9 (x k2 9%nat 8) in
  let c11 k2 := c10 (x k2 10%nat 16) in
  let c12 k2 := c11 (x k2 11%nat 24) in
  let c13 k2 := c12 (x k2 12%nat 32) in
  let c14 k2 := c13 (x k2 13%nat 40) in
  let c15 k2 := c14 (x k2 14%nat 48) in
  match N.land (N.of_nat (length tail)) 15 with
  | 15 => c15 0 | 14 => c14 0 | 13 => c13 0 | 12 => c12 0 | 11 => c11 0 | 10 => c10 0 | 9 => c9 0
  | 8 => c8 h2 0 | 7 => c7 h2 0 | 6 => c6 h2 0 | 5 => c5 h2 0 | 4 => c4 h2 0 | 3 => c3 h2 0
  | 2 => c2 h2 0 | 1 => c1 h2 0 | _ => (h1, h2)
  end.

(** fmix64, murmur128.go:164-171. *)
Definition fmix64 (k : N) : N :=
  let k := xor k (shr k 33) in
  let k := mul64 k 0xff51afd7ed558ccd in
  let k := xor k (shr k 33) in
  let k := mul64 k 0xc4ceb9fe1a85ec53 in
  xor k (shr k 33).

(** murmur128.go:149-161: the end of Sum128, after the tail. *)
Definition mm128_final (h : N * N) (clen : N) : N * N :=
  let '(h1, h2) := h in
  let h1 := xor h1 (wrap 64 clen) in
  let h2 := xor h2 (wrap 64 clen) in
  let h1 := add64 h1 h2 in
  let h2 := add64 h2 h1 in
  let h1 := fmix64 h1 in
  let h2 := fmix64 h2 in
  let h1 := add64 h1 h2 in
  let h2 := add64 h2 h1 in
  (h1, h2).

(** ** The digests *)

(** type digest, murmur.go:25-30, together with the registers of digest32 /
    digest128 ([mh]).  tail is always nil or buf[:mnt]; it is kept as the length
    [mnt].  clen is a Go int; its overflow at 2^63 bytes is not modelled. *)
Record mdigest (S : Type) := mkMm { mclen : N; mnt : nat; mbuf : list N; mh : S }.
Arguments mkMm {S}. Arguments mclen {S}. Arguments mnt {S}. Arguments mbuf {S}. Arguments mh {S}.

(** The field tail, murmur.go:28. *)
Definition mtail {S} (d : mdigest S) : list N := firstn (mnt d) (mbuf d).

(** Write, murmur.go:34-59, for block size [B] (Size() of the bmixer) and block
    function [f].  append(d.tail, q...) writes q into buf behind the tail: the
    capacity of d.tail is 16 and the total never exceeds B <= 16.  The final copy
    is Go's overlapping copy, which behaves as if the source were read first. *)
Definition mm_write {S} (B : nat) (f : S -> list N -> S) (d : mdigest S) (p : list N) : mdigest S * nat :=
  let n := length p in
  let clen := mclen d + N.of_nat n in
  let '(buf, h, p) :=
    if Nat.ltb 0 (mnt d) then
      let nfree := (B - mnt d)%nat in
      if Nat.ltb nfree (length p) then
        let '(buf, _) := copy_at (mbuf d) (mnt d) (firstn nfree p) in
        let block := firstn (mnt d + nfree) buf in
        let p := skipn nfree p in
        let '(h, _) := absorb B f (mh d) block in
        (buf, h, p)
      else
        let '(buf, _) := copy_at (mbuf d) (mnt d) p in
        (buf, mh d, firstn (mnt d + length p) buf)
    else (mbuf d, mh d, p) in
  let '(h, tail) := absorb B f h p in
  let '(buf, nn) := copy_at buf 0 tail in
  (mkMm clen nn buf h, n).

(** Reset, murmur.go:61-65; reset, murmur32.go:36 and murmur128.go:43. *)
Definition mm_reset {S} (h0 : S) (d : mdigest S) : mdigest S := mkMm 0 0 (mbuf d) h0.
(** New32, murmur32.go:27-32; New128, murmur128.go:34-39; New64, murmur64.go:17-20. *)
Definition mm_new {S} (h0 : S) : mdigest S := mm_reset h0 (mkMm 0 0 (repeat 0 16) h0).
Definition mm_new32 : mdigest N := mm_new 0.
Definition mm_new128 : mdigest (N * N) := mm_new (0, 0).
Definition mm_new64 : mdigest (N * N) := mm_new128.

(** Write (murmur.go:34-59) of the three digests: Size and bmix of murmur32.go:34, 44-61 and
    of murmur128.go:41, 56-84. *)
Definition mm_write32 := mm_write 4 mm32_block.
Definition mm_write128 := mm_write 16 mm128_block.

(** digest32.Sum32, murmur32.go:63-92. *)
Definition mm_dsum32 (d : mdigest N) : N :=
  let h1 := mm32_tail (mh d) (mtail d) in
  let h1 := xor h1 (wrap 32 (mclen d)) in
  mm32_fmix h1.
(** digest128.Sum128, murmur128.go:86-162. *)
Definition mm_dsum128 (d : mdigest (N * N)) : N * N :=
  mm128_final (mm128_tail (mh d) (mtail d)) (mclen d).
(** digest64.Sum64, murmur64.go:29-32. *)
Definition mm_dsum64 (d : mdigest (N * N)) : N := let '(h1, _) := mm_dsum128 d in h1.

(** Sum, murmur32.go:38-41, murmur64.go:22-27, murmur128.go:45-54. *)
Definition mm_sum_bytes32 (d : mdigest N) (b : list N) : list N := b ++ be_store 4 (mh d).
Definition mm_sum_bytes64 (d : mdigest (N * N)) (b : list N) : list N := let '(h1, _) := mh d in b ++ be_store 8 h1.
Definition mm_sum_bytes128 (d : mdigest (N * N)) (b : list N) : list N :=
  let '(h1, h2) := mh d in b ++ be_store 8 h1 ++ be_store 8 h2.

(** Size, murmur32.go:34 and murmur128.go:41.  digest64 (murmur64.go:15) has no
    Size of its own: the one promoted from the embedded bmixer interface is that
    of the *digest128 stored there by New128 (murmur128.go:36). *)
Definition mm_size32 (_ : mdigest N) : nat := 4.
Definition mm_size128 (_ : mdigest (N * N)) : nat := 16.
Definition mm_size64 (d : mdigest (N * N)) : nat := mm_size128 d.

(** Sum128 and Sum64, murmur128.go:184-189 and murmur64.go:39-45: a digest whose
    tail is a view of the data (not of buf). *)
Definition mm_sum128 (data : list N) : N * N :=
  let '(h, tail) := absorb 16 mm128_block (0, 0) data in
  mm128_final (mm128_tail h tail) (N.of_nat (length data)).
Definition mm_sum64 (data : list N) : N := let '(h1, _) := mm_sum128 data in h1.
