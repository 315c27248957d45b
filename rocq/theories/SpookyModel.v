(** Model of package spooky (spooky/spooky.go).

    The straight-line mixers are transcribed statement by statement (by
    tools/spooky_prog.py, from the Go text) into the little assignment language of
    SLP.v: register i is s_i or h_i, register 12+i is data[i]; [URotl k] is Rot64(x, k)
    (51-53).  Everything else is ordinary Gallina.  The machine is little-endian. *)
From Coq Require Import NArith List Arith.
From Verif Require Import Words Mem SLP.
Import ListNotations.
Open Scope N_scope.

(** sc_const, spooky.go:40 (a package variable that is never assigned). *)
Definition sc_const : N := 0xdeadbeefdeadbeef.
(** Mix, spooky.go:77-88. *)
Definition mix_prog : prog :=
  [Set_ 0 (E2 BAdd (EV 0) (EV 12)); Set_ 2 (E2 BXor (EV 2) (EV 10)); Set_ 11 (E2 BXor (EV 11) (EV 0)); Set_ 0 (E1 (URotl 11) (EV 0)); Set_ 11 (E2 BAdd (EV 11) (EV 1));
   Set_ 1 (E2 BAdd (EV 1) (EV 13)); Set_ 3 (E2 BXor (EV 3) (EV 11)); Set_ 0 (E2 BXor (EV 0) (EV 1)); Set_ 1 (E1 (URotl 32) (EV 1)); Set_ 0 (E2 BAdd (EV 0) (EV 2));
   Set_ 2 (E2 BAdd (EV 2) (EV 14)); Set_ 4 (E2 BXor (EV 4) (EV 0)); Set_ 1 (E2 BXor (EV 1) (EV 2)); Set_ 2 (E1 (URotl 43) (EV 2)); Set_ 1 (E2 BAdd (EV 1) (EV 3));
   Set_ 3 (E2 BAdd (EV 3) (EV 15)); Set_ 5 (E2 BXor (EV 5) (EV 1)); Set_ 2 (E2 BXor (EV 2) (EV 3)); Set_ 3 (E1 (URotl 31) (EV 3)); Set_ 2 (E2 BAdd (EV 2) (EV 4));
   Set_ 4 (E2 BAdd (EV 4) (EV 16)); Set_ 6 (E2 BXor (EV 6) (EV 2)); Set_ 3 (E2 BXor (EV 3) (EV 4)); Set_ 4 (E1 (URotl 17) (EV 4)); Set_ 3 (E2 BAdd (EV 3) (EV 5));
   Set_ 5 (E2 BAdd (EV 5) (EV 17)); Set_ 7 (E2 BXor (EV 7) (EV 3)); Set_ 4 (E2 BXor (EV 4) (EV 5)); Set_ 5 (E1 (URotl 28) (EV 5)); Set_ 4 (E2 BAdd (EV 4) (EV 6));
   Set_ 6 (E2 BAdd (EV 6) (EV 18)); Set_ 8 (E2 BXor (EV 8) (EV 4)); Set_ 5 (E2 BXor (EV 5) (EV 6)); Set_ 6 (E1 (URotl 39) (EV 6)); Set_ 5 (E2 BAdd (EV 5) (EV 7));
   Set_ 7 (E2 BAdd (EV 7) (EV 19)); Set_ 9 (E2 BXor (EV 9) (EV 5)); Set_ 6 (E2 BXor (EV 6) (EV 7)); Set_ 7 (E1 (URotl 57) (EV 7)); Set_ 6 (E2 BAdd (EV 6) (EV 8));
   Set_ 8 (E2 BAdd (EV 8) (EV 20)); Set_ 10 (E2 BXor (EV 10) (EV 6)); Set_ 7 (E2 BXor (EV 7) (EV 8)); Set_ 8 (E1 (URotl 55) (EV 8)); Set_ 7 (E2 BAdd (EV 7) (EV 9));
   Set_ 9 (E2 BAdd (EV 9) (EV 21)); Set_ 11 (E2 BXor (EV 11) (EV 7)); Set_ 8 (E2 BXor (EV 8) (EV 9)); Set_ 9 (E1 (URotl 54) (EV 9)); Set_ 8 (E2 BAdd (EV 8) (EV 10));
   Set_ 10 (E2 BAdd (EV 10) (EV 22)); Set_ 0 (E2 BXor (EV 0) (EV 8)); Set_ 9 (E2 BXor (EV 9) (EV 10)); Set_ 10 (E1 (URotl 22) (EV 10)); Set_ 9 (E2 BAdd (EV 9) (EV 11));
   Set_ 11 (E2 BAdd (EV 11) (EV 23)); Set_ 1 (E2 BXor (EV 1) (EV 9)); Set_ 10 (E2 BXor (EV 10) (EV 11)); Set_ 11 (E1 (URotl 46) (EV 11)); Set_ 10 (E2 BAdd (EV 10) (EV 0))].
(** EndPartial, spooky.go:110-121. *)
Definition end_partial_prog : prog :=
  [Set_ 11 (E2 BAdd (EV 11) (EV 1)); Set_ 2 (E2 BXor (EV 2) (EV 11)); Set_ 1 (E1 (URotl 44) (EV 1));
   Set_ 0 (E2 BAdd (EV 0) (EV 2)); Set_ 3 (E2 BXor (EV 3) (EV 0)); Set_ 2 (E1 (URotl 15) (EV 2));
   Set_ 1 (E2 BAdd (EV 1) (EV 3)); Set_ 4 (E2 BXor (EV 4) (EV 1)); Set_ 3 (E1 (URotl 34) (EV 3));
   Set_ 2 (E2 BAdd (EV 2) (EV 4)); Set_ 5 (E2 BXor (EV 5) (EV 2)); Set_ 4 (E1 (URotl 21) (EV 4));
   Set_ 3 (E2 BAdd (EV 3) (EV 5)); Set_ 6 (E2 BXor (EV 6) (EV 3)); Set_ 5 (E1 (URotl 38) (EV 5));
   Set_ 4 (E2 BAdd (EV 4) (EV 6)); Set_ 7 (E2 BXor (EV 7) (EV 4)); Set_ 6 (E1 (URotl 33) (EV 6));
   Set_ 5 (E2 BAdd (EV 5) (EV 7)); Set_ 8 (E2 BXor (EV 8) (EV 5)); Set_ 7 (E1 (URotl 10) (EV 7));
   Set_ 6 (E2 BAdd (EV 6) (EV 8)); Set_ 9 (E2 BXor (EV 9) (EV 6)); Set_ 8 (E1 (URotl 13) (EV 8));
   Set_ 7 (E2 BAdd (EV 7) (EV 9)); Set_ 10 (E2 BXor (EV 10) (EV 7)); Set_ 9 (E1 (URotl 38) (EV 9));
   Set_ 8 (E2 BAdd (EV 8) (EV 10)); Set_ 11 (E2 BXor (EV 11) (EV 8)); Set_ 10 (E1 (URotl 53) (EV 10));
   Set_ 9 (E2 BAdd (EV 9) (EV 11)); Set_ 0 (E2 BXor (EV 0) (EV 9)); Set_ 11 (E1 (URotl 42) (EV 11));
   Set_ 10 (E2 BAdd (EV 10) (EV 0)); Set_ 1 (E2 BXor (EV 1) (EV 10)); Set_ 0 (E1 (URotl 54) (EV 0))].
(** the additions of End, spooky.go:127-129. *)
Definition end_add_prog : prog :=
  [Set_ 0 (E2 BAdd (EV 0) (EV 12)); Set_ 1 (E2 BAdd (EV 1) (EV 13)); Set_ 2 (E2 BAdd (EV 2) (EV 14)); Set_ 3 (E2 BAdd (EV 3) (EV 15));
   Set_ 4 (E2 BAdd (EV 4) (EV 16)); Set_ 5 (E2 BAdd (EV 5) (EV 17)); Set_ 6 (E2 BAdd (EV 6) (EV 18)); Set_ 7 (E2 BAdd (EV 7) (EV 19));
   Set_ 8 (E2 BAdd (EV 8) (EV 20)); Set_ 9 (E2 BAdd (EV 9) (EV 21)); Set_ 10 (E2 BAdd (EV 10) (EV 22)); Set_ 11 (E2 BAdd (EV 11) (EV 23))].
(** ShortMix, spooky.go:202-213. *)
Definition short_mix_prog : prog :=
  [Set_ 2 (E1 (URotl 50) (EV 2)); Set_ 2 (E2 BAdd (EV 2) (EV 3)); Set_ 0 (E2 BXor (EV 0) (EV 2));
   Set_ 3 (E1 (URotl 52) (EV 3)); Set_ 3 (E2 BAdd (EV 3) (EV 0)); Set_ 1 (E2 BXor (EV 1) (EV 3));
   Set_ 0 (E1 (URotl 30) (EV 0)); Set_ 0 (E2 BAdd (EV 0) (EV 1)); Set_ 2 (E2 BXor (EV 2) (EV 0));
   Set_ 1 (E1 (URotl 41) (EV 1)); Set_ 1 (E2 BAdd (EV 1) (EV 2)); Set_ 3 (E2 BXor (EV 3) (EV 1));
   Set_ 2 (E1 (URotl 54) (EV 2)); Set_ 2 (E2 BAdd (EV 2) (EV 3)); Set_ 0 (E2 BXor (EV 0) (EV 2));
   Set_ 3 (E1 (URotl 48) (EV 3)); Set_ 3 (E2 BAdd (EV 3) (EV 0)); Set_ 1 (E2 BXor (EV 1) (EV 3));
   Set_ 0 (E1 (URotl 38) (EV 0)); Set_ 0 (E2 BAdd (EV 0) (EV 1)); Set_ 2 (E2 BXor (EV 2) (EV 0));
   Set_ 1 (E1 (URotl 37) (EV 1)); Set_ 1 (E2 BAdd (EV 1) (EV 2)); Set_ 3 (E2 BXor (EV 3) (EV 1));
   Set_ 2 (E1 (URotl 62) (EV 2)); Set_ 2 (E2 BAdd (EV 2) (EV 3)); Set_ 0 (E2 BXor (EV 0) (EV 2));
   Set_ 3 (E1 (URotl 34) (EV 3)); Set_ 3 (E2 BAdd (EV 3) (EV 0)); Set_ 1 (E2 BXor (EV 1) (EV 3));
   Set_ 0 (E1 (URotl 5) (EV 0)); Set_ 0 (E2 BAdd (EV 0) (EV 1)); Set_ 2 (E2 BXor (EV 2) (EV 0));
   Set_ 1 (E1 (URotl 36) (EV 1)); Set_ 1 (E2 BAdd (EV 1) (EV 2)); Set_ 3 (E2 BXor (EV 3) (EV 1))].
(** ShortEnd, spooky.go:230-240. *)
Definition short_end_prog : prog :=
  [Set_ 3 (E2 BXor (EV 3) (EV 2)); Set_ 2 (E1 (URotl 15) (EV 2)); Set_ 3 (E2 BAdd (EV 3) (EV 2));
   Set_ 0 (E2 BXor (EV 0) (EV 3)); Set_ 3 (E1 (URotl 52) (EV 3)); Set_ 0 (E2 BAdd (EV 0) (EV 3));
   Set_ 1 (E2 BXor (EV 1) (EV 0)); Set_ 0 (E1 (URotl 26) (EV 0)); Set_ 1 (E2 BAdd (EV 1) (EV 0));
   Set_ 2 (E2 BXor (EV 2) (EV 1)); Set_ 1 (E1 (URotl 51) (EV 1)); Set_ 2 (E2 BAdd (EV 2) (EV 1));
   Set_ 3 (E2 BXor (EV 3) (EV 2)); Set_ 2 (E1 (URotl 28) (EV 2)); Set_ 3 (E2 BAdd (EV 3) (EV 2));
   Set_ 0 (E2 BXor (EV 0) (EV 3)); Set_ 3 (E1 (URotl 9) (EV 3)); Set_ 0 (E2 BAdd (EV 0) (EV 3));
   Set_ 1 (E2 BXor (EV 1) (EV 0)); Set_ 0 (E1 (URotl 47) (EV 0)); Set_ 1 (E2 BAdd (EV 1) (EV 0));
   Set_ 2 (E2 BXor (EV 2) (EV 1)); Set_ 1 (E1 (URotl 54) (EV 1)); Set_ 2 (E2 BAdd (EV 2) (EV 1));
   Set_ 3 (E2 BXor (EV 3) (EV 2)); Set_ 2 (E1 (URotl 32) (EV 2)); Set_ 3 (E2 BAdd (EV 3) (EV 2));
   Set_ 0 (E2 BXor (EV 0) (EV 3)); Set_ 3 (E1 (URotl 25) (EV 3)); Set_ 0 (E2 BAdd (EV 0) (EV 3));
   Set_ 1 (E2 BXor (EV 1) (EV 0)); Set_ 0 (E1 (URotl 63) (EV 0)); Set_ 1 (E2 BAdd (EV 1) (EV 0))].

(** data[i] of a []uint64, for i = 0..11 (spooky.go:77-88, 127-129). *)
Definition twelve (data : list N) : res (list N) :=
  if Nat.leb 12 (length data) then Ok (firstn 12 data) else Panics.
(** Mix, spooky.go:76-90; the twelve parameters s0..s11 are a list. *)
Definition Mix (data s : list N) : res (list N) :=
  d <~ twelve data ;; Ok (firstn 12 (exec 64 mix_prog (s ++ d))).
(** EndPartial, spooky.go:109-123. *)
Definition EndPartial (h : list N) : list N := exec 64 end_partial_prog h.
(** End, spooky.go:126-134. *)
Definition End_ (data h : list N) : res (list N) :=
  d <~ twelve data ;; Ok (EndPartial (EndPartial (EndPartial (firstn 12 (exec 64 end_add_prog (h ++ d)))))).
(** ShortMix, spooky.go:201-215; ShortEnd, 229-242. *)
Definition ShortMix (h : list N) : list N := exec 64 short_mix_prog h.
Definition ShortEnd (h : list N) : list N := exec 64 short_end_prog h.

(** sliceUI64, spooky.go:59-61: the slice of len(in)/8 words over the same memory. *)
Fixpoint words_of (n : nat) (s : list N) : list N :=
  match n with O => [] | S n => le_load (firstn 8 s) :: words_of n (skipn 8 s) end.
Definition sliceUI64 (s : list N) : list N := words_of (length s / 8) s.

(** U8tou64le, spooky.go:244-246; U8tou32le, 248-250. *)
Definition U8tou64le (p : list N) : res N :=
  b0 <~ idx p 0 ;; b1 <~ idx p 1 ;; b2 <~ idx p 2 ;; b3 <~ idx p 3 ;;
  b4 <~ idx p 4 ;; b5 <~ idx p 5 ;; b6 <~ idx p 6 ;; b7 <~ idx p 7 ;;
  Ok (N.lor (N.lor (N.lor (N.lor (N.lor (N.lor (N.lor b0 (shl64 b1 8)) (shl64 b2 16)) (shl64 b3 24))
     (shl64 b4 32)) (shl64 b5 40)) (shl64 b6 48)) (shl64 b7 56)).
Definition U8tou32le (p : list N) : res N :=
  b0 <~ idx p 0 ;; b1 <~ idx p 1 ;; b2 <~ idx p 2 ;; b3 <~ idx p 3 ;;
  Ok (N.lor (N.lor (N.lor b0 (shl64 b1 8)) (shl64 b2 16)) (shl64 b3 24)).

(** The registers a, b, c, d, spooky.go:259-260. *)
Definition quad : Type := N * N * N * N.
(** a, b, c, d = ShortMix(a, b, c, d), spooky.go:272, 287. *)
Definition short_mix4 (r : quad) : quad :=
  let '(a, b, c, d) := r in
  let h := ShortMix [a; b; c; d] in (nth 0 h 0, nth 1 h 0, nth 2 h 0, nth 3 h 0).
(** The loop over complete sets of 32 bytes, spooky.go:266-279; returns the rest of
    the slice and the registers. *)
Fixpoint short_loop (fuel : nat) (s : list N) (l : nat) (r : quad) : res (list N * quad) :=
  if Nat.leb 32 l then
    match fuel with
    | O => NoFuel
    | S fuel =>
        let '(a, b, c, d) := r in
        x <~ U8tou64le s ;; let c := add64 c x in
        s <~ tail_from s 8 ;;
        x <~ U8tou64le s ;; let d := add64 d x in
        s <~ tail_from s 8 ;;
        let '(a, b, c, d) := short_mix4 (a, b, c, d) in
        x <~ U8tou64le s ;; let a := add64 a x in
        s <~ tail_from s 8 ;;
        x <~ U8tou64le s ;; let b := add64 b x in
        s <~ tail_from s 8 ;;
        short_loop fuel s (l - 32) (a, b, c, d)
    end
  else Ok (s, r).
(** in[i] << k added to x when the switch entered at case m or above (fallthrough)
    (spooky.go:297-346). *)
Definition byte_at (taken : bool) (s : list N) (i : nat) (k x : N) : res N :=
  if taken then b <~ idx s i ;; Ok (add64 x (shl64 b k)) else Ok x.
(** The switch on the remainder, spooky.go:297-350; a case falls through to the next
    lower one except at 12, 8, 4 and 1. *)
Definition short_tail (rem : nat) (s : list N) (c d : N) : res (N * N) :=
  if Nat.ltb 15 rem then Panics
  else if Nat.leb 12 rem then
    d <~ byte_at (Nat.leb 15 rem) s 14 48 d ;;
    d <~ byte_at (Nat.leb 14 rem) s 13 40 d ;;
    d <~ byte_at (Nat.leb 13 rem) s 12 32 d ;;
    t <~ tail_from s 8 ;; x <~ U8tou32le t ;; y <~ U8tou64le s ;;
    Ok (add64 c y, add64 d x)
  else if Nat.leb 8 rem then
    d <~ byte_at (Nat.leb 11 rem) s 10 16 d ;;
    d <~ byte_at (Nat.leb 10 rem) s 9 8 d ;;
    d <~ byte_at (Nat.leb 9 rem) s 8 0 d ;;
    y <~ U8tou64le s ;;
    Ok (add64 c y, d)
  else if Nat.leb 4 rem then
    c <~ byte_at (Nat.leb 7 rem) s 6 48 c ;;
    c <~ byte_at (Nat.leb 6 rem) s 5 40 c ;;
    c <~ byte_at (Nat.leb 5 rem) s 4 32 c ;;
    y <~ U8tou32le s ;;
    Ok (add64 c y, d)
  else if Nat.leb 1 rem then
    c <~ byte_at (Nat.leb 3 rem) s 2 16 c ;;
    c <~ byte_at (Nat.leb 2 rem) s 1 8 c ;;
    c <~ byte_at (Nat.leb 1 rem) s 0 0 c ;;
    Ok (c, d)
  else Ok (add64 c sc_const, add64 d sc_const).
(** SpookyHashShort, spooky.go:256-356. *)
Definition SpookyHashShort (s : list N) (hash1 hash2 : N) : res (N * N) :=
  let r := (hash1, hash2, sc_const, sc_const) in
  let len := length s in
  let rem := (len mod 32)%nat in
  '(s, rem, r) <~
    (if Nat.leb 16 len then
       '(s, r) <~ short_loop len s len r ;;
       if Nat.leb 16 rem then
         let '(a, b, c, d) := r in
         x <~ U8tou64le s ;; let c := add64 c x in
         s <~ tail_from s 8 ;;
         x <~ U8tou64le s ;; let d := add64 d x in
         s <~ tail_from s 8 ;;
         Ok (s, (rem - 16)%nat, short_mix4 (a, b, c, d))
       else Ok (s, rem, r)
     else Ok (s, rem, r)) ;;
  let '(a, b, c, d) := r in
  let d := add64 d (shl64 (N.of_nat len) 56) in
  '(c, d) <~ short_tail rem s c d ;;
  let h := ShortEnd [a; b; c; d] in
  Ok (nth 0 h 0, nth 1 h 0).

(** The loop over whole blocks, spooky.go:155-163. *)
Fixpoint long_loop (fuel : nat) (s : list N) (l : nat) (h : list N) : res (list N * list N) :=
  if Nat.leb 96 l then
    match fuel with
    | O => NoFuel
    | S fuel => h <~ Mix (sliceUI64 s) h ;; s <~ tail_from s 96 ;; long_loop fuel s (l - 96) h
    end
  else Ok (s, h).
(** b[k] = v for every byte of the rest, b[len(b)-1] = byte(remainder):
    spooky.go:138, 168-173; copying more than 96 bytes would panic. *)
Definition last_block (s : list N) (rem : nat) : res (list N) :=
  if Nat.ltb 96 (length s) then Panics
  else Ok (firstn 95 (s ++ repeat 0 (96 - length s)) ++ [N.of_nat rem mod 256]).
(** SpookyHash128, spooky.go:137-183. *)
Definition SpookyHash128 (s : list N) (hash1 hash2 : N) : res (N * N) :=
  let len := length s in
  if Nat.ltb len 192 then SpookyHashShort s hash1 hash2
  else
    let rem := (len mod 96)%nat in
    let h := [hash1; hash2; sc_const; hash1; hash2; sc_const; hash1; hash2; sc_const; hash1; hash2; sc_const] in
    '(s, h) <~ long_loop len s len h ;;
    if negb (Nat.eqb (length s) rem) then Panics
    else
      b <~ last_block s rem ;;
      h <~ End_ (sliceUI64 b) h ;;
      Ok (nth 0 h 0, nth 1 h 0).
(** Hash128, spooky.go:362-366; Hash64, 371-375; Hash32, 380-384. *)
Definition spooky_hash128 (s : list N) (seed : N) : res (N * N) := SpookyHash128 s seed seed.
Definition spooky_hash64 (s : list N) (seed : N) : res N := '(a, _) <~ SpookyHash128 s seed seed ;; Ok a.
Definition spooky_hash32 (s : list N) (seed : N) : res N := '(a, _) <~ SpookyHash128 s seed seed ;; Ok (wrap 32 a).
