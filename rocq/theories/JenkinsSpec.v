(** Independent specification of Bob Jenkins' lookup2 and lookup3 (after his
    lookup2.c and lookup3.c), of the 64-bit variant used by /repo, and of what a
    lookup3 digest object shows to its user.  Integer arithmetic modulo 2^w. *)
From Verif Require Import Words Mem DigestSpec Mm3Spec.
Open Scope N_scope.

Definition madd (w x y : N) : N := (x + y) mod 2 ^ w.
Definition msub (w x y : N) : N := (x + (2 ^ w - y mod 2 ^ w)) mod 2 ^ w.
Definition mshl (w x k : N) : N := (x * 2 ^ k) mod 2 ^ w.
Definition mshr (x k : N) : N := x / 2 ^ k.

(** Adding a block, zero padded to three words of [n] bytes, to the registers. *)
Definition add_block (w : N) (n : nat) (s : N * N * N) (blk : list N) : N * N * N :=
  let '(a, b, c) := s in
  (madd w a (le_int (firstn n blk)),
   madd w b (le_int (firstn n (skipn n blk))),
   madd w c (le_int (firstn n (skipn (n + n) blk)))).

(** ** lookup3 (hashlittle2) *)
Definition l3_mix (s : N * N * N) : N * N * N :=
  let '(a, b, c) := s in
  let a := N.lxor (msub 32 a c) (rol 32 c 4) in let c := madd 32 c b in
  let b := N.lxor (msub 32 b a) (rol 32 a 6) in let a := madd 32 a c in
  let c := N.lxor (msub 32 c b) (rol 32 b 8) in let b := madd 32 b a in
  let a := N.lxor (msub 32 a c) (rol 32 c 16) in let c := madd 32 c b in
  let b := N.lxor (msub 32 b a) (rol 32 a 19) in let a := madd 32 a c in
  let c := N.lxor (msub 32 c b) (rol 32 b 4) in let b := madd 32 b a in
  (a, b, c).
Definition l3_fl (x y k : N) : N := msub 32 (N.lxor x y) (rol 32 y k).
Definition l3_final (s : N * N * N) : N * N * N :=
  let '(a, b, c) := s in
  let c := l3_fl c b 14 in
  let a := l3_fl a c 11 in
  let b := l3_fl b a 25 in
  let c := l3_fl c b 16 in
  let a := l3_fl a c 4 in
  let b := l3_fl b a 14 in
  let c := l3_fl c b 24 in
  (a, b, c).
(** All blocks of 12 bytes but the last are mixed; the last one (1 to 12 bytes) is
    zero padded and finalised. *)
Fixpoint l3_run (fuel : nat) (s : N * N * N) (m : list N) : N * N * N :=
  match fuel with
  | O => s
  | S f => if (length m <=? 12)%nat then l3_final (add_block 32 4 s (pad0 12 m))
           else l3_run f (l3_mix (add_block 32 4 s (firstn 12 m))) (skipn 12 m)
  end.
(** The pair (primary, secondary) for initial values [pc], [pb]; the empty message
    needs no mixing. *)
Definition lookup3 (m : list N) (pc pb : N) : N * N :=
  let i := (0xdeadbeef + N.of_nat (length m) + pc) mod 2 ^ 32 in
  let s := (i, i, (i + pb) mod 2 ^ 32) in
  match m with
  | [] => (snd s, i)
  | _ => let '(_, b, c) := l3_run (length m) s m in (c, b)
  end.

(** The bytes of a slice of 32-bit words on a little-endian machine. *)
Definition wbytes (ws : list N) : list N := flat_map (le_store 4) ws.
(** The pair as one 64-bit word. *)
Definition word64_of (v : N * N) : N := fst v + 2 ^ 32 * snd v.

(** ** lookup2 *)
Definition l2_mix (s : N * N * N) : N * N * N :=
  let line x y z t := N.lxor (msub 32 (msub 32 x y) z) t in
  let '(a, b, c) := s in
  let a := line a b c (mshr c 13) in
  let b := line b c a (mshl 32 a 8) in
  let c := line c a b (mshr b 13) in
  let a := line a b c (mshr c 12) in
  let b := line b c a (mshl 32 a 16) in
  let c := line c a b (mshr b 5) in
  let a := line a b c (mshr c 3) in
  let b := line b c a (mshl 32 a 10) in
  let c := line c a b (mshr b 15) in
  (a, b, c).
(** The last, incomplete block: [n] is the number added to c together with the
    bytes 8.. of the block (the low byte of c is reserved for it); [first]
    says into which register byte 0 goes. *)
Definition l2_last (first_in_a : bool) (s : N * N * N) (n : N) (r : list N) : N * N * N :=
  let '(a, b, c) := s in
  let r := pad0 12 r in
  let b0 := nth 0 r 0 in
  let a := madd 32 a (256 * le_int (firstn 3 (skipn 1 r))) in
  let b := madd 32 b (le_int (firstn 4 (skipn 4 r))) in
  let c := madd 32 c (n + 256 * le_int (firstn 3 (skipn 8 r))) in
  if first_in_a then (madd 32 a b0, b, c) else (a, b, madd 32 c b0).
(** [total_len]: the length added is that of the whole key rather than that of the
    incomplete block. *)
Definition lookup2_gen (total_len first_in_a : bool) (m : list N) (seed : N) : N :=
  let '(bs, r) := blocks 12 m in
  let s := fold_left (fun s b => l2_mix (add_block 32 4 s b)) bs (0x9e3779b9, 0x9e3779b9, seed) in
  let n := N.of_nat (length (if total_len then m else r)) in
  snd (l2_mix (l2_last first_in_a s n r)).
(** Jenkins' function. *)
Definition lookup2 := lookup2_gen true true.

(** ** The 64-bit variant of /repo: lookup8's constants and shifts with another
    grouping of the operations in a line. *)
Definition l8_mix (s : N * N * N) : N * N * N :=
  let line x y z t := msub 64 x (N.lxor (msub 64 y z) t) in
  let '(a, b, c) := s in
  let a := line a b c (mshr c 43) in
  let b := line b c a (mshl 64 a 9) in
  let c := line c a b (mshr b 8) in
  let a := line a b c (mshr c 38) in
  let b := line b c a (mshl 64 a 23) in
  let c := line c a b (mshr b 5) in
  let a := line a b c (mshr c 35) in
  let b := line b c a (mshl 64 a 49) in
  let c := line c a b (mshr b 11) in
  let a := line a b c (mshr c 12) in
  let b := line b c a (mshl 64 a 18) in
  let c := line c a b (mshr b 22) in
  (a, b, c).
Definition l8_last (s : N * N * N) (n : N) (r : list N) : N * N * N :=
  let '(a, b, c) := s in
  let r := pad0 24 r in
  (madd 64 a (le_int (firstn 8 r)), madd 64 b (le_int (firstn 8 (skipn 8 r))),
   madd 64 c (n + 256 * le_int (firstn 7 (skipn 16 r)))).
Definition lookup8v (m : list N) (seed : N) : N :=
  let '(bs, r) := blocks 24 m in
  let s := fold_left (fun s b => l8_mix (add_block 64 8 s b)) bs
             (0x9e3779b97f4a7c13, 0x9e3779b97f4a7c13, seed) in
  snd (l8_mix (l8_last s (N.of_nat (length r)) r)).

(** ** Digest objects that chain: every Sum hashes the data collected since the
    last Reset, starting from the pair [v] that the previous Sum produced ([init]
    after a Reset).  [enc_sum] is the byte string appended by Sum, [enc_word] the
    word returned by Sum32/Sum64. *)
Fixpoint chain_history (enc_sum : N * N -> list N) (enc_word : N * N -> N) (init : N * N)
    (data : list N) (v : N * N) (ops : list dop) : list (dout N) :=
  match ops with
  | [] => []
  | DWrite p :: r => OWrote (length p) :: chain_history enc_sum enc_word init (data ++ p) v r
  | DSum inp :: r => let v := lookup3 data (fst v) (snd v) in
                     OBytes (inp ++ enc_sum v) :: chain_history enc_sum enc_word init data v r
  | DSum64 :: r => let v := lookup3 data (fst v) (snd v) in
                   OWord (enc_word v) :: chain_history enc_sum enc_word init data v r
  | DReset :: r => OUnit :: chain_history enc_sum enc_word init [] init r
  end.

(** Running an implementation whose methods may panic or read out of bounds. *)
Fixpoint run_history_res {D V} (write : D -> list N -> D * nat) (sum : D -> list N -> res (D * list N))
    (sum64 : D -> res (D * V)) (reset : D -> D) (d : D) (ops : list dop) : res (list (dout V)) :=
  match ops with
  | [] => Ok []
  | DWrite p :: r => let '(d', n) := write d p in
                     l <~ run_history_res write sum sum64 reset d' r ;; Ok (OWrote n :: l)
  | DSum inp :: r => '(d', o) <~ sum d inp ;;
                     l <~ run_history_res write sum sum64 reset d' r ;; Ok (OBytes o :: l)
  | DSum64 :: r => '(d', o) <~ sum64 d ;;
                   l <~ run_history_res write sum sum64 reset d' r ;; Ok (OWord o :: l)
  | DReset :: r => l <~ run_history_res write sum sum64 reset (reset d) r ;; Ok (OUnit :: l)
  end.
