(** Model of package jenkins (jenkins/jenkins.go). *)
From Coq Require Import NArith ZArith List Arith Lia Bool.
From Verif Require Import Words Mem.
Import ListNotations.
Open Scope N_scope.

(** Three registers (a, b, c) (jenkins.go:43-72). *)
Definition tri : Type := N * N * N.

(** ** Mixers.  In Go [-] and binary [^] have the same precedence and associate
    to the left: [a - b - c ^ d] is [((a - b) - c) ^ d], and [a -= b - c ^ d] is
    [a = a - ((b - c) ^ d)]. *)

(** mix32, jenkins.go:43-72. *)
Definition mix32 (s : tri) : tri :=
  let '(a, b, c) := s in
  let a := sub32 a b in let a := sub32 a c in let a := xor a (shr c 13) in
  let b := sub32 b c in let b := sub32 b a in let b := xor b (shl32 a 8) in
  let c := sub32 c a in let c := sub32 c b in let c := xor c (shr b 13) in
  let a := sub32 a b in let a := sub32 a c in let a := xor a (shr c 12) in
  let b := sub32 b c in let b := sub32 b a in let b := xor b (shl32 a 16) in
  let c := sub32 c a in let c := sub32 c b in let c := xor c (shr b 5) in
  let a := sub32 a b in let a := sub32 a c in let a := xor a (shr c 3) in
  let b := sub32 b c in let b := sub32 b a in let b := xor b (shl32 a 10) in
  let c := sub32 c a in let c := sub32 c b in let c := xor c (shr b 15) in
  (a, b, c).

(** mix32a, jenkins.go:74-85. *)
Definition mix32a (s : tri) : tri :=
  let '(a, b, c) := s in
  let a := xor (sub32 (sub32 a b) c) (shr c 13) in
  let b := xor (sub32 (sub32 b c) a) (shl32 a 8) in
  let c := xor (sub32 (sub32 c a) b) (shr b 13) in
  let a := xor (sub32 (sub32 a b) c) (shr c 12) in
  let b := xor (sub32 (sub32 b c) a) (shl32 a 16) in
  let c := xor (sub32 (sub32 c a) b) (shr b 5) in
  let a := xor (sub32 (sub32 a b) c) (shr c 3) in
  let b := xor (sub32 (sub32 b c) a) (shl32 a 10) in
  let c := xor (sub32 (sub32 c a) b) (shr b 15) in
  (a, b, c).

(** mix64, jenkins.go:194-232. *)
Definition mix64 (s : tri) : tri :=
  let '(a, b, c) := s in
  let a := sub64 a b in let a := sub64 a c in let a := xor a (shr c 43) in
  let b := sub64 b c in let b := sub64 b a in let b := xor b (shl64 a 9) in
  let c := sub64 c a in let c := sub64 c b in let c := xor c (shr b 8) in
  let a := sub64 a b in let a := sub64 a c in let a := xor a (shr c 38) in
  let b := sub64 b c in let b := sub64 b a in let b := xor b (shl64 a 23) in
  let c := sub64 c a in let c := sub64 c b in let c := xor c (shr b 5) in
  let a := sub64 a b in let a := sub64 a c in let a := xor a (shr c 35) in
  let b := sub64 b c in let b := sub64 b a in let b := xor b (shl64 a 49) in
  let c := sub64 c a in let c := sub64 c b in let c := xor c (shr b 11) in
  let a := sub64 a b in let a := sub64 a c in let a := xor a (shr c 12) in
  let b := sub64 b c in let b := sub64 b a in let b := xor b (shl64 a 18) in
  let c := sub64 c a in let c := sub64 c b in let c := xor c (shr b 22) in
  (a, b, c).

(** mix64alt, jenkins.go:235-249. *)
Definition mix64alt (s : tri) : tri :=
  let '(a, b, c) := s in
  let a := sub64 a (xor (sub64 b c) (shr c 43)) in
  let b := sub64 b (xor (sub64 c a) (shl64 a 9)) in
  let c := sub64 c (xor (sub64 a b) (shr b 8)) in
  let a := sub64 a (xor (sub64 b c) (shr c 38)) in
  let b := sub64 b (xor (sub64 c a) (shl64 a 23)) in
  let c := sub64 c (xor (sub64 a b) (shr b 5)) in
  let a := sub64 a (xor (sub64 b c) (shr c 35)) in
  let b := sub64 b (xor (sub64 c a) (shl64 a 49)) in
  let c := sub64 c (xor (sub64 a b) (shr b 11)) in
  let a := sub64 a (xor (sub64 b c) (shr c 12)) in
  let b := sub64 b (xor (sub64 c a) (shl64 a 18)) in
  let c := sub64 c (xor (sub64 a b) (shr b 22)) in
  (a, b, c).

(** mix64a ... mix64f, jenkins.go:252-286. *)
Definition mix64a (s : tri) : tri :=
  let '(a, b, c) := s in
  let a := sub64 a (xor (sub64 b c) (shr c 43)) in
  let b := sub64 b (xor (sub64 c a) (shl64 a 9)) in
  (a, b, c).
Definition mix64b (s : tri) : tri :=
  let '(a, b, c) := s in
  let c := sub64 c (xor (sub64 a b) (shr b 8)) in
  let a := sub64 a (xor (sub64 b c) (shr c 38)) in
  (a, b, c).
Definition mix64c (s : tri) : tri :=
  let '(a, b, c) := s in
  let b := sub64 b (xor (sub64 c a) (shl64 a 23)) in
  let c := sub64 c (xor (sub64 a b) (shr b 5)) in
  (a, b, c).
Definition mix64d (s : tri) : tri :=
  let '(a, b, c) := s in
  let a := sub64 a (xor (sub64 b c) (shr c 35)) in
  let b := sub64 b (xor (sub64 c a) (shl64 a 49)) in
  (a, b, c).
Definition mix64e (s : tri) : tri :=
  let '(a, b, c) := s in
  let c := sub64 c (xor (sub64 a b) (shr b 11)) in
  let a := sub64 a (xor (sub64 b c) (shr c 12)) in
  (a, b, c).
Definition mix64f (s : tri) : tri :=
  let '(a, b, c) := s in
  let b := sub64 b (xor (sub64 c a) (shl64 a 18)) in
  let c := sub64 c (xor (sub64 a b) (shr b 22)) in
  (a, b, c).

(** rot, jenkins.go:469-471. *)
Definition jrot (x k : N) : N := N.lor (shl32 x k) (shr x (sub32 32 k)).
(** mix1, jenkins.go:474-487; mix2, 489-502. *)
Definition mix1 (s : tri) : tri :=
  let '(a, b, c) := s in
  let a := sub32 a c in let a := xor a (jrot c 4) in let c := add32 c b in
  let b := sub32 b a in let b := xor b (jrot a 6) in let a := add32 a c in
  let c := sub32 c b in let c := xor c (jrot b 8) in let b := add32 b a in
  (a, b, c).
Definition mix2 (s : tri) : tri :=
  let '(a, b, c) := s in
  let a := sub32 a c in let a := xor a (jrot c 16) in let c := add32 c b in
  let b := sub32 b a in let b := xor b (jrot a 19) in let a := add32 a c in
  let c := sub32 c b in let c := xor c (jrot b 4) in let b := add32 b a in
  (a, b, c).
(** final1, jenkins.go:512-526; final2, 528-539. *)
Definition final1 (s : tri) : tri :=
  let '(a, b, c) := s in
  let c := xor c b in let c := sub32 c (jrot b 14) in
  let a := xor a c in let a := sub32 a (jrot c 11) in
  let b := xor b a in let b := sub32 b (jrot a 25) in
  let c := xor c b in let c := sub32 c (jrot b 16) in
  (a, b, c).
Definition final2 (s : tri) : tri :=
  let '(a, b, c) := s in
  let a := xor a c in let a := sub32 a (jrot c 4) in
  let b := xor b a in let b := sub32 b (jrot a 14) in
  let c := xor c b in let c := sub32 c (jrot b 24) in
  (a, b, c).
(** The closures mix and final of XHashWords, jenkins.go:624-662. *)
Definition xmix (s : tri) : tri :=
  let '(a, b, c) := s in
  let a := sub32 a c in let a := xor a (jrot c 4) in let c := add32 c b in
  let b := sub32 b a in let b := xor b (jrot a 6) in let a := add32 a c in
  let c := sub32 c b in let c := xor c (jrot b 8) in let b := add32 b a in
  let a := sub32 a c in let a := xor a (jrot c 16) in let c := add32 c b in
  let b := sub32 b a in let b := xor b (jrot a 19) in let a := add32 a c in
  let c := sub32 c b in let c := xor c (jrot b 4) in let b := add32 b a in
  (a, b, c).
Definition xfinal (s : tri) : tri :=
  let '(a, b, c) := s in
  let c := xor c b in let c := sub32 c (jrot b 14) in
  let a := xor a c in let a := sub32 a (jrot c 11) in
  let b := xor b a in let b := sub32 b (jrot a 25) in
  let c := xor c b in let c := sub32 c (jrot b 16) in
  let a := xor a c in let a := sub32 a (jrot c 4) in
  let b := xor b a in let b := sub32 b (jrot a 14) in
  let c := xor c b in let c := sub32 c (jrot b 24) in
  (a, b, c).

(** ** lookup2, 32 bits *)

(** Word [i] of the slice made by sliceUI32 (jenkins.go:113-115), which has
    len(in)/4 elements: an ordinary checked index. *)
Definition word32 (k : list N) (i : nat) : res N :=
  if Nat.ltb i (length k / 4) then Ok (le_load (firstn 4 (skipn (4 * i) k))) else Panics.
(** Word [i] of the slice made by sliceUI64, jenkins.go:293-295. *)
Definition word64 (k : list N) (i : nat) : res N :=
  if Nat.ltb i (length k / 8) then Ok (le_load (firstn 8 (skipn (8 * i) k))) else Panics.

(** jenkins.go:128-138: the fast loop; [k0] is the whole key (k32 is a view of
    it), [k] the advancing slice, [l] a uint32. *)
Fixpoint h232_fast (fuel : nat) (k0 k : list N) (cnt : nat) (l : N) (s : tri) : res (list N * N * tri) :=
  if 12 <=? l then
    match fuel with
    | O => NoFuel
    | S fuel =>
        let '(a, b, c) := s in
        x <~ word32 k0 (0 + cnt) ;; let a := add32 a x in
        y <~ word32 k0 (1 + cnt) ;; let b := add32 b y in
        z <~ word32 k0 (2 + cnt) ;; let c := add32 c z in
        k <~ tail_from k 12 ;;
        h232_fast fuel k0 k (cnt + 3) (sub32 l 12) (mix32 (a, b, c))
    end
  else Ok (k, l, s).

(** jenkins.go:140-146: a word of the byte loop. *)
Definition byte_word (k : list N) (i : nat) : res N :=
  b0 <~ idx k (i + 0) ;; b1 <~ idx k (i + 1) ;; b2 <~ idx k (i + 2) ;; b3 <~ idx k (i + 3) ;;
  Ok (add32 (add32 (add32 b0 (shl32 b1 8)) (shl32 b2 16)) (shl32 b3 24)).
(** The loop around it (jenkins.go:140-146). *)
Fixpoint h232_slow (fuel : nat) (k : list N) (l : N) (s : tri) : res (list N * N * tri) :=
  if 12 <=? l then
    match fuel with
    | O => NoFuel
    | S fuel =>
        let '(a, b, c) := s in
        x <~ byte_word k 0 ;; let a := add32 a x in
        y <~ byte_word k 4 ;; let b := add32 b y in
        z <~ byte_word k 8 ;; let c := add32 c z in
        k <~ tail_from k 12 ;;
        h232_slow fuel k (sub32 l 12) (mix32 (a, b, c))
    end
  else Ok (k, l, s).

(** jenkins.go:149-188: the tail switch of Hash232.  Note [c += k[0]] in case 1. *)
Definition h232_tail (k : list N) (l : N) (s : tri) : res tri :=
  let '(a, b, c) := s in
  let at_ r i sh := x <~ idx k i ;; Ok (add32 r (shl32 x sh)) in
  let c0 s := Ok s in
  let c1 (s : tri) := let '(a, b, c) := s in c <~ at_ c 0%nat 0 ;; c0 (a, b, c) in
  let c2 (s : tri) := let '(a, b, c) := s in a <~ at_ a 1%nat 8 ;; c1 (a, b, c) in
  let c3 (s : tri) := let '(a, b, c) := s in a <~ at_ a 2%nat 16 ;; c2 (a, b, c) in
  let c4 (s : tri) := let '(a, b, c) := s in a <~ at_ a 3%nat 24 ;; c3 (a, b, c) in
  let c5 (s : tri) := let '(a, b, c) := s in b <~ at_ b 4%nat 0 ;; c4 (a, b, c) in
  let c6 (s : tri) := let '(a, b, c) := s in b <~ at_ b 5%nat 8 ;; c5 (a, b, c) in
  let c7 (s : tri) := let '(a, b, c) := s in b <~ at_ b 6%nat 16 ;; c6 (a, b, c) in
  let c8 (s : tri) := let '(a, b, c) := s in b <~ at_ b 7%nat 24 ;; c7 (a, b, c) in
  let c9 (s : tri) := let '(a, b, c) := s in c <~ at_ c 8%nat 8 ;; c8 (a, b, c) in
  let c10 (s : tri) := let '(a, b, c) := s in c <~ at_ c 9%nat 16 ;; c9 (a, b, c) in
  let c11 (s : tri) := let '(a, b, c) := s in c <~ at_ c 10%nat 24 ;; c10 (a, b, c) in
  match l with
  | 11 => c11 (a, b, c) | 10 => c10 (a, b, c) | 9 => c9 (a, b, c) | 8 => c8 (a, b, c)
  | 7 => c7 (a, b, c) | 6 => c6 (a, b, c) | 5 => c5 (a, b, c) | 4 => c4 (a, b, c)
  | 3 => c3 (a, b, c) | 2 => c2 (a, b, c) | 1 => c1 (a, b, c) | 0 => c0 (a, b, c)
  | _ => Panics                      (* panic("HashWords32") *)
  end.

(** Hash232, jenkins.go:121-191; [fast] is the local variable of that name, which
    the code sets to true.  The length is converted to uint32. *)
Definition hash232_with (fast : bool) (k : list N) (seed : N) : res N :=
  let l := wrap 32 (N.of_nat (length k)) in
  let s := (0x9e3779b9, 0x9e3779b9, seed) in
  let fuel := S (length k) in
  '(k, l, s) <~ (if fast then h232_fast fuel k k 0 l s else h232_slow fuel k l s) ;;
  let '(a, b, c) := s in
  s <~ h232_tail k l (a, b, add32 c l) ;;
  let '(_, _, c) := mix32 s in
  Ok c.
(** [var fast = true], jenkins.go:122. *)
Definition hash232 := hash232_with true.

(** ** lookup8-style, 64 bits *)

(** jenkins.go:313-328: the fast loop. *)
Fixpoint h264_fast (fuel : nat) (k0 k : list N) (cnt : nat) (i length_ : N) (s : tri) : res (list N * N * tri) :=
  if 24 <=? i then
    match fuel with
    | O => NoFuel
    | S fuel =>
        let '(a, b, c) := s in
        x <~ word64 k0 (0 + cnt) ;; let a := add64 a x in
        y <~ word64 k0 (1 + cnt) ;; let b := add64 b y in
        z <~ word64 k0 (2 + cnt) ;; let c := add64 c z in
        let s := mix64f (mix64e (mix64d (mix64c (mix64b (mix64a (a, b, c)))))) in
        k <~ tail_from k 24 ;;
        h264_fast fuel k0 k (cnt + 3) (sub64 i 24) (sub64 length_ 24) s
    end
  else Ok (k, length_, s).
(** jenkins.go:330-338: a word of the byte loop, and the loop. *)
Definition byte_word64 (k : list N) (i : nat) : res N :=
  b0 <~ idx k (i + 0) ;; b1 <~ idx k (i + 1) ;; b2 <~ idx k (i + 2) ;; b3 <~ idx k (i + 3) ;;
  b4 <~ idx k (i + 4) ;; b5 <~ idx k (i + 5) ;; b6 <~ idx k (i + 6) ;; b7 <~ idx k (i + 7) ;;
  Ok (N.lor (N.lor (N.lor (N.lor (N.lor (N.lor (N.lor b0 (shl64 b1 8)) (shl64 b2 16)) (shl64 b3 24))
     (shl64 b4 32)) (shl64 b5 40)) (shl64 b6 48)) (shl64 b7 56)).
Fixpoint h264_slow (fuel : nat) (k : list N) (i length_ : N) (s : tri) : res (list N * N * tri) :=
  if 24 <=? i then
    match fuel with
    | O => NoFuel
    | S fuel =>
        let '(a, b, c) := s in
        x <~ byte_word64 k 0 ;; let a := add64 a x in
        y <~ byte_word64 k 8 ;; let b := add64 b y in
        z <~ byte_word64 k 16 ;; let c := add64 c z in
        let s := mix64alt (a, b, c) in
        k <~ tail_from k 24 ;;
        h264_slow fuel k (sub64 i 24) (sub64 length_ 24) s
    end
  else Ok (k, length_, s).

(** jenkins.go:344-415: the tail switch of Hash264 (case 1 has no fallthrough,
    which makes no difference). *)
Definition h264_tail (k : list N) (l : N) (s : tri) : res tri :=
  let '(a, b, c) := s in
  let at_ r i sh := x <~ idx k i ;; Ok (add64 r (shl64 x sh)) in
  let c1 (s : tri) := let '(a, b, c) := s in a <~ at_ a 0%nat 0 ;; Ok (a, b, c) in
  let c2 (s : tri) := let '(a, b, c) := s in a <~ at_ a 1%nat 8 ;; c1 (a, b, c) in
  let c3 (s : tri) := let '(a, b, c) := s in a <~ at_ a 2%nat 16 ;; c2 (a, b, c) in
  let c4 (s : tri) := let '(a, b, c) := s in a <~ at_ a 3%nat 24 ;; c3 (a, b, c) in
  let c5 (s : tri) := let '(a, b, c) := s in a <~ at_ a 4%nat 32 ;; c4 (a, b, c) in
  let c6 (s : tri) := let '(a, b, c) := s in a <~ at_ a 5%nat 40 ;; c5 (a, b, c) in
  let c7 (s : tri) := let '(a, b, c) := s in a <~ at_ a 6%nat 48 ;; c6 (a, b, c) in
  let c8 (s : tri) := let '(a, b, c) := s in a <~ at_ a 7%nat 56 ;; c7 (a, b, c) in
  let c9 (s : tri) := let '(a, b, c) := s in b <~ at_ b 8%nat 0 ;; c8 (a, b, c) in
  let c10 (s : tri) := let '(a, b, c) := s in b <~ at_ b 9%nat 8 ;; c9 (a, b, c) in
  let c11 (s : tri) := let '(a, b, c) := s in b <~ at_ b 10%nat 16 ;; c10 (a, b, c) in
  let c12 (s : tri) := let '(a, b, c) := s in b <~ at_ b 11%nat 24 ;; c11 (a, b, c) in
  let c13 (s : tri) := let '(a, b, c) := s in b <~ at_ b 12%nat 32 ;; c12 (a, b, c) in
  let c14 (s : tri) := let '(a, b, c) := s in b <~ at_ b 13%nat 40 ;; c13 (a, b, c) in
  let c15 (s : tri) := let '(a, b, c) := s in b <~ at_ b 14%nat 48 ;; c14 (a, b, c) in
  let c16 (s : tri) := let '(a, b, c) := s in b <~ at_ b 15%nat 56 ;; c15 (a, b, c) in
  let c17 (s : tri) := let '(a, b, c) := s in c <~ at_ c 16%nat 8 ;; c16 (a, b, c) in
  let c18 (s : tri) := let '(a, b, c) := s in c <~ at_ c 17%nat 16 ;; c17 (a, b, c) in
  let c19 (s : tri) := let '(a, b, c) := s in c <~ at_ c 18%nat 24 ;; c18 (a, b, c) in
  let c20 (s : tri) := let '(a, b, c) := s in c <~ at_ c 19%nat 32 ;; c19 (a, b, c) in
  let c21 (s : tri) := let '(a, b, c) := s in c <~ at_ c 20%nat 40 ;; c20 (a, b, c) in
  let c22 (s : tri) := let '(a, b, c) := s in c <~ at_ c 21%nat 48 ;; c21 (a, b, c) in
  let c23 (s : tri) := let '(a, b, c) := s in c <~ at_ c 22%nat 56 ;; c22 (a, b, c) in
  match l with
  | 23 => c23 (a, b, c) | 22 => c22 (a, b, c) | 21 => c21 (a, b, c) | 20 => c20 (a, b, c)
  | 19 => c19 (a, b, c) | 18 => c18 (a, b, c) | 17 => c17 (a, b, c) | 16 => c16 (a, b, c)
  | 15 => c15 (a, b, c) | 14 => c14 (a, b, c) | 13 => c13 (a, b, c) | 12 => c12 (a, b, c)
  | 11 => c11 (a, b, c) | 10 => c10 (a, b, c) | 9 => c9 (a, b, c) | 8 => c8 (a, b, c)
  | 7 => c7 (a, b, c) | 6 => c6 (a, b, c) | 5 => c5 (a, b, c) | 4 => c4 (a, b, c)
  | 3 => c3 (a, b, c) | 2 => c2 (a, b, c) | 1 => c1 (a, b, c) | 0 => Ok (a, b, c)
  | _ => Panics                      (* panic("HashWords64") *)
  end.

(** Hash264, jenkins.go:301-419. *)
Definition hash264_with (fast : bool) (k : list N) (seed : N) : res N :=
  let l := wrap 64 (N.of_nat (length k)) in
  let s := (0x9e3779b97f4a7c13, 0x9e3779b97f4a7c13, seed) in
  let fuel := S (length k) in
  '(k, l, s) <~ (if fast then h264_fast fuel k k 0 l l s else h264_slow fuel k l l s) ;;
  let '(a, b, c) := s in
  let c := add64 c l in
  if Nat.ltb 23 (length k) then Panics   (* panic("Hash264") *)
  else
  s <~ h264_tail k l (a, b, c) ;;
  let '(_, _, c) := mix64alt s in
  Ok c.
(** [var fast = true], jenkins.go:302. *)
Definition hash264 := hash264_with true.

(** ** lookup3 on words *)

(** [k[i]] of a word slice (jenkins.go:550-552). *)
Definition widx := idx.
(** jenkins.go:548-556: the loop of HashWords332 (length a uint32) and of
    HashWordsLen / XHashWords (an int) over [mix]. *)
Fixpoint words_loop (dec : N -> N) (mix : tri -> tri) (fuel : nat) (k : list N) (i : nat) (len : N) (s : tri) : res (nat * N * tri) :=
  if 3 <? len then
    match fuel with
    | O => NoFuel
    | S fuel =>
        let '(a, b, c) := s in
        x <~ widx k (i + 0) ;; let a := add32 a x in
        y <~ widx k (i + 1) ;; let b := add32 b y in
        z <~ widx k (i + 2) ;; let c := add32 c z in
        words_loop dec mix fuel k (i + 3) (dec len) (mix (a, b, c))
    end
  else Ok (i, len, s).
(** jenkins.go:558-571: the switch. *)
Definition words_tail (fin : tri -> tri) (k : list N) (i : nat) (len : N) (s : tri) : res N :=
  let '(a, b, c) := s in
  let c1 (s : tri) := let '(a, b, c) := s in
    x <~ widx k (i + 0) ;; let '(_, _, c) := fin (add32 a x, b, c) in Ok c in
  let c2 (s : tri) := let '(a, b, c) := s in x <~ widx k (i + 1) ;; c1 (a, add32 b x, c) in
  let c3 (s : tri) := let '(a, b, c) := s in x <~ widx k (i + 2) ;; c2 (a, b, add32 c x) in
  match len with
  | 3 => c3 (a, b, c) | 2 => c2 (a, b, c) | 1 => c1 (a, b, c) | _ => Ok c
  end.
(** jenkins.go:544-546, 585-587, 663-665: the initial registers. *)
Definition words_init (k : list N) (seed : N) : tri :=
  let a := add32 (add32 0xdeadbeef (shl32 (wrap 32 (N.of_nat (length k))) 2)) seed in (a, a, a).
(** jenkins.go:553-554 and 567-568: the two halves in sequence. *)
Definition mix12 (s : tri) : tri := mix2 (mix1 s).
Definition final12 (s : tri) : tri := final2 (final1 s).

(** HashWords332, jenkins.go:541-573. *)
Definition hash_words332 (k : list N) (seed : N) : res N :=
  '(i, len, s) <~ words_loop (fun l => sub32 l 3) mix12 (S (length k)) k 0 (wrap 32 (N.of_nat (length k))) (words_init k seed) ;;
  words_tail final12 k i len s.
(** HashWordsLen, jenkins.go:575-618; [len] is a Go int, negative values skip
    the loop and match no case. *)
Definition hash_words_len (k : list N) (len : Z) (seed : N) : res N :=
  if (Z.of_nat (length k) * 4 <? len)%Z then Panics
  else if (len <? 0)%Z then let '(_, _, c) := words_init k seed in Ok c
  else
  '(i, len, s) <~ words_loop (fun l => l - 3) mix12 (S (Z.to_nat len)) k 0 (Z.to_N len) (words_init k seed) ;;
  words_tail final12 k i len s.
(** XHashWords, jenkins.go:622-691; its parameter length is overwritten. *)
Definition xhash_words (k : list N) (len : Z) (seed : N) : res N :=
  '(i, len, s) <~ words_loop (fun l => l - 3) xmix (S (length k)) k 0 (N.of_nat (length k)) (words_init k seed) ;;
  words_tail xfinal k i len s.

(** ** lookup3 on bytes *)

(** jenkins.go:737-745. *)
Fixpoint j364_loop (fuel : nat) (k : list N) (len : Z) (s : tri) : res (list N * Z * tri) :=
  if (12 <? len)%Z then
    match fuel with
    | O => NoFuel
    | S fuel =>
        let '(a, b, c) := s in
        x <~ peek_le k 0 4 ;; let a := add32 a x in
        y <~ peek_le k 4 4 ;; let b := add32 b y in
        z <~ peek_le k 8 4 ;; let c := add32 c z in
        k <~ tail_from k 12 ;;
        j364_loop fuel k (len - 12)%Z (mix2 (mix1 (a, b, c)))
    end
  else Ok (k, len, s).
(** jenkins.go:760-802: the switch, up to [return c, b] (result [inl]) or the end
    of the switch (result [inr], finalisation follows). *)
Definition j364_tail (k : list N) (len : Z) (s : tri) : res (N * N + tri) :=
  let '(a, b, c) := s in
  let at_ r i sh := x <~ idx k i ;; Ok (add32 r (shl32 x sh)) in
  let pt r i := x <~ peek_le k i 4 ;; Ok (add32 r x) in
  let c1 (s : tri) := let '(a, b, c) := s in a <~ at_ a 0%nat 0 ;; Ok (inr (a, b, c)) in
  let c2 (s : tri) := let '(a, b, c) := s in a <~ at_ a 1%nat 8 ;; c1 (a, b, c) in
  let c3 (s : tri) := let '(a, b, c) := s in a <~ at_ a 2%nat 16 ;; c2 (a, b, c) in
  let c4 (s : tri) := let '(a, b, c) := s in a <~ pt a 0%nat ;; Ok (inr (a, b, c)) in
  let c5 (s : tri) := let '(a, b, c) := s in b <~ at_ b 4%nat 0 ;; c4 (a, b, c) in
  let c6 (s : tri) := let '(a, b, c) := s in b <~ at_ b 5%nat 8 ;; c5 (a, b, c) in
  let c7 (s : tri) := let '(a, b, c) := s in b <~ at_ b 6%nat 16 ;; c6 (a, b, c) in
  let c8 (s : tri) := let '(a, b, c) := s in a <~ pt a 0%nat ;; b <~ pt b 4%nat ;; Ok (inr (a, b, c)) in
  let c9 (s : tri) := let '(a, b, c) := s in c <~ at_ c 8%nat 0 ;; c8 (a, b, c) in
  let c10 (s : tri) := let '(a, b, c) := s in c <~ at_ c 9%nat 8 ;; c9 (a, b, c) in
  let c11 (s : tri) := let '(a, b, c) := s in c <~ at_ c 10%nat 16 ;; c10 (a, b, c) in
  let c12 (s : tri) := let '(a, b, c) := s in
    a <~ pt a 0%nat ;; b <~ pt b 4%nat ;; c <~ pt c 8%nat ;; Ok (inr (a, b, c)) in
  match len with
  | 12%Z => c12 (a, b, c) | 11%Z => c11 (a, b, c) | 10%Z => c10 (a, b, c) | 9%Z => c9 (a, b, c)
  | 8%Z => c8 (a, b, c) | 7%Z => c7 (a, b, c) | 6%Z => c6 (a, b, c) | 5%Z => c5 (a, b, c)
  | 4%Z => c4 (a, b, c) | 3%Z => c3 (a, b, c) | 2%Z => c2 (a, b, c) | 1%Z => c1 (a, b, c)
  | 0%Z => Ok (inl (c, b))
  | _ => Ok (inr (a, b, c))
  end.

(** Jenkins364, jenkins.go:700-806. *)
Definition jenkins364 (k : list N) (len : Z) (pc pb : N) : res (N * N) :=
  let len := if (len =? 0)%Z then Z.of_nat (length k) else len in
  let ul := wrap 32 (N.of_nat (length k)) in
  let a := add32 (add32 0xdeadbeef ul) pc in
  let b := a in
  let c := a in
  let c := add32 c pb in
  '(k, len, s) <~ j364_loop (S (Z.to_nat len)) k len (a, b, c) ;;
  r <~ j364_tail k len s ;;
  match r with
  | inl v => Ok v
  | inr s => let '(a, b, c) := final2 (final1 s) in Ok (c, b)
  end.

(** HashString, jenkins.go:808-812. *)
Definition hash_string (s : list N) (pc pb : N) : res (N * N) := jenkins364 s (Z.of_nat (length s)) pc pb.
(** HashBytesLength, jenkins.go:814-821. *)
Definition hash_bytes_length (k : list N) (len : Z) (seed : N) : res N :=
  if (Z.of_nat (length k) <? len)%Z then Panics
  else '(r, _) <~ jenkins364 k len seed 0 ;; Ok r.
(** Sum32, jenkins.go:868-871. *)
Definition jsum32 (data : list N) (seed : N) : res N :=
  '(r, _) <~ jenkins364 data (Z.of_nat (length data)) seed seed ;; Ok r.

(** ** Digests *)

(** State332 / State332c, jenkins.go:826-837.  clen only counts. *)
Record st332 := mk332 { s332_hash : N; s332_seed : N; s332_pc : N; s332_pb : N; s332_tail : list N }.
(** Reset, jenkins.go:915-920. *)
Definition reset332 (d : st332) : st332 := mk332 (s332_hash d) (s332_seed d) (s332_seed d) (s332_seed d) [].
(** New and New332c, jenkins.go:874-887. *)
Definition new332 (seed : N) : st332 := reset332 (mk332 0 seed 0 0 []).
(** Write, jenkins.go:923-928. *)
Definition write332 (d : st332) (p : list N) : st332 * nat :=
  (mk332 (s332_hash d) (s332_seed d) (s332_pc d) (s332_pb d) (s332_tail d ++ p), length p).
(** Sum32, jenkins.go:939-943. *)
Definition sum32_332 (d : st332) : res (st332 * N) :=
  '(pc, pb) <~ jenkins364 (s332_tail d) (Z.of_nat (length (s332_tail d))) (s332_pc d) (s332_pb d) ;;
  Ok (mk332 pc (s332_seed d) pc pb (s332_tail d), pc).
(** Sum, jenkins.go:931-936. *)
Definition sum_332 (d : st332) (b : list N) : res (st332 * list N) :=
  '(d, h) <~ sum32_332 d ;; Ok (d, b ++ be_store 4 h).
(** Hash32, jenkins.go:946-964 (the seeds are not used). *)
Definition hash32_332 (d : st332) (b : list N) (seeds : list N) : res (st332 * N) :=
  '(pc, pb) <~ jenkins364 b (Z.of_nat (length b)) 0 0 ;;
  Ok (mk332 pc (s332_seed d) pc pb (s332_tail d), pc).

(** State364, jenkins.go:843-850. *)
Record st364 := mk364 { s364_hash : N; s364_seed : N; s364_pc : N; s364_pb : N; s364_tail : list N }.
(** Reset, jenkins.go:993-998. *)
Definition reset364 (d : st364) : st364 :=
  mk364 (s364_hash d) (s364_seed d) (wrap 32 (s364_seed d)) (wrap 32 (shr (s364_seed d) 32)) [].
(** New364, jenkins.go:969-974. *)
Definition new364 (seed : N) : st364 := reset364 (mk364 0 seed 0 0 []).
(** Write, jenkins.go:1001-1006. *)
Definition write364 (d : st364) (p : list N) : st364 * nat :=
  (mk364 (s364_hash d) (s364_seed d) (s364_pc d) (s364_pb d) (s364_tail d ++ p), length p).
(** Write64, jenkins.go:1016-1020. *)
Definition write64_364 (d : st364) (h : N) : st364 :=
  mk364 (s364_hash d) (s364_seed d) (s364_pc d) (s364_pb d) (s364_tail d ++ be_store 8 h).
(** Sum, jenkins.go:1009-1014: [uint64(d.pb<<32)] shifts within 32 bits. *)
Definition sum_364 (d : st364) (b : list N) : res (st364 * list N) :=
  '(pc, pb) <~ jenkins364 (s364_tail d) (Z.of_nat (length (s364_tail d))) (s364_pc d) (s364_pb d) ;;
  let h := N.lor (shl32 pb 32) pc in
  Ok (mk364 h (s364_seed d) pc pb (s364_tail d), b ++ be_store 8 h).
(** Sum64, jenkins.go:1023-1027. *)
Definition sum64_364 (d : st364) : res (st364 * N) :=
  '(pc, pb) <~ jenkins364 (s364_tail d) (Z.of_nat (length (s364_tail d))) (s364_pc d) (s364_pb d) ;;
  let h := N.lor (shl64 pb 32) pc in
  Ok (mk364 h (s364_seed d) pc pb (s364_tail d), h).
(** Hash64, jenkins.go:1029-1044: with no seed (or more than two) the registers
    left by the previous call are the seed. *)
Definition hash64_364 (d : st364) (b : list N) (seeds : list N) : res (st364 * N) :=
  let '(pc, pb) := match seeds with
                   | [s0; s1] => (wrap 32 s0, wrap 32 s1)
                   | [s0] => (wrap 32 s0, wrap 32 (shr s0 32))
                   | _ => (s364_pc d, s364_pb d)
                   end in
  '(pc, pb) <~ jenkins364 b (Z.of_nat (length b)) pc pb ;;
  let h := N.lor (shl64 pb 32) pc in
  Ok (mk364 h (s364_seed d) pc pb (s364_tail d), h).
(** Hash64S, jenkins.go:1046-1054. *)
Definition hash64s_364 (d : st364) (b : list N) (seed : N) : res (st364 * N) :=
  '(pc, pb) <~ jenkins364 b (Z.of_nat (length b)) (wrap 32 seed) (wrap 32 (shr seed 32)) ;;
  let h := N.lor (shl64 pb 32) pc in
  Ok (mk364 h (s364_seed d) pc pb (s364_tail d), h).

(** State232, jenkins.go:857-862. *)
Record st232 := mk232 { s232_hash : N; s232_seed : N; s232_tail : list N }.
(** Reset, jenkins.go:1083-1087: also clears the seed. *)
Definition reset232 (d : st232) : st232 := mk232 (s232_hash d) 0 [].
(** New232, jenkins.go:1059-1064. *)
Definition new232 (seed : N) : st232 := reset232 (mk232 0 seed []).
(** Write, jenkins.go:1090-1095. *)
Definition write232 (d : st232) (p : list N) : st232 * nat :=
  (mk232 (s232_hash d) (s232_seed d) (s232_tail d ++ p), length p).
(** Sum32, jenkins.go:1105-1108. *)
Definition sum32_232 (d : st232) : res (st232 * N) :=
  h <~ hash232 (s232_tail d) (s232_seed d) ;; Ok (mk232 h (s232_seed d) (s232_tail d), h).
(** Sum, jenkins.go:1098-1102. *)
Definition sum_232 (d : st232) (b : list N) : res (st232 * list N) :=
  '(d, h) <~ sum32_232 d ;; Ok (d, b ++ be_store 4 h).
(** Hash32, jenkins.go:1110-1117. *)
Definition hash32_232 (d : st232) (b : list N) (seeds : list N) : res (st232 * N) :=
  let seed := match seeds with [] => s232_seed d | _ => 0 end in
  h <~ hash232 b seed ;; Ok (mk232 h seed (s232_tail d), h).
