(** Model of package gomap (gomap/hash32.go, hash64.go, add.go, unaligned1.go,
    unaligned2.go): a copy of the hash of Go's runtime.  A key is its bytes; a pointer
    into it is an offset.  A read through a pointer that leaves the key is [Overread]. *)
From Coq Require Import NArith List Arith Lia.
From Verif Require Import Words Mem.
Import ListNotations.
Open Scope N_scope.

(** Reads through an unsafe pointer; no bounds check at all
    (unaligned1.go:11-17 on pointers made by add, add.go:5-7). *)
Definition deref (b : list N) (p n : nat) : res (list N) :=
  if Nat.leb (p + n) (length b) then Ok (firstn n (skipn p b)) else Overread.
Definition byteAt (b : list N) (p : nat) : res N := l <~ deref b p 1 ;; Ok (nth 0 l 0).
(** readUnaligned32 and 64, unaligned1.go:11-17 (386, amd64: one little-endian load). *)
Definition readUnaligned32 (b : list N) (p : nat) : res N := l <~ deref b p 4 ;; Ok (le_load l).
Definition readUnaligned64 (b : list N) (p : nat) : res N := l <~ deref b p 8 ;; Ok (le_load l).
(** The same for other machines, unaligned2.go:12-20, on the bytes q. *)
Definition portable32 (q : list N) : N :=
  add32 (add32 (add32 (nth 0 q 0) (shl32 (nth 1 q 0) 8)) (shl32 (nth 2 q 0) 16)) (shl32 (nth 3 q 0) 24).
Definition portable64 (q : list N) : N :=
  add64 (add64 (add64 (add64 (add64 (add64 (add64 (nth 0 q 0) (shl64 (nth 1 q 0) 8)) (shl64 (nth 2 q 0) 16)) (shl64 (nth 3 q 0) 24))
    (shl64 (nth 4 q 0) 32)) (shl64 (nth 5 q 0) 40)) (shl64 (nth 6 q 0) 48)) (shl64 (nth 7 q 0) 56).

(** hash32.go:16-19. *)
Definition a1 : N := 3168982561.
Definition a2 : N := 3339683297.
Definition a3 : N := 832293441.
Definition a4 : N := 2336365089.
(** rotl_15 and rotl_11, hash32.go:85-90. *)
Definition rotl_15 (x : N) : N := N.lor (shl32 x 15) (shr x (32 - 15)).
Definition rotl_11 (x : N) : N := N.lor (shl32 x 11) (shr x (32 - 11)).

(** The loop of the default case, hash32.go:56-70; returns p, s and v1..v4. *)
Fixpoint loop32 (fuel : nat) (b : list N) (p s : nat) (v1 v2 v3 v4 : N) : res (nat * nat * (N * N * N * N)) :=
  match fuel with
  | O => NoFuel
  | S fuel =>
      if Nat.leb 16 s then
        w <~ readUnaligned32 b p ;;
        let v1 := mul32 (rotl_15 (xor v1 (mul32 w a1))) a2 in let p := (p + 4)%nat in
        w <~ readUnaligned32 b p ;;
        let v2 := mul32 (rotl_15 (xor v2 (mul32 w a1))) a2 in let p := (p + 4)%nat in
        w <~ readUnaligned32 b p ;;
        let v3 := mul32 (rotl_15 (xor v3 (mul32 w a1))) a2 in let p := (p + 4)%nat in
        w <~ readUnaligned32 b p ;;
        let v4 := mul32 (rotl_15 (xor v4 (mul32 w a1))) a2 in let p := (p + 4)%nat in
        loop32 fuel b p (s - 16) v1 v2 v3 v4
      else Ok (p, s, (v1, v2, v3, v4))
  end.
(** The switch at label tail, hash32.go:25-73; goto tail is the recursive call. *)
Fixpoint tail32 (fuel : nat) (b : list N) (p s : nat) (h : N) : res N :=
  match fuel with
  | O => NoFuel
  | S fuel =>
      if Nat.eqb s 0 then Ok h
      else if Nat.ltb s 4 then
        w0 <~ byteAt b p ;; w1 <~ byteAt b (p + Nat.div2 s) ;; w2 <~ byteAt b (p + (s - 1)) ;;
        let w := add32 (add32 w0 (shl32 w1 8)) (shl32 w2 16) in
        Ok (xor h (mul32 w a1))
      else if Nat.eqb s 4 then
        w <~ readUnaligned32 b p ;; Ok (xor h (mul32 w a1))
      else if Nat.leb s 8 then
        w <~ readUnaligned32 b p ;;
        let h := xor h (mul32 w a1) in let h := mul32 (rotl_15 h) a2 in let h := rotl_11 h in
        w <~ readUnaligned32 b (p + (s - 4)) ;;
        Ok (xor h (mul32 w a1))
      else if Nat.leb s 16 then
        w <~ readUnaligned32 b p ;;
        let h := xor h (mul32 w a1) in let h := mul32 (rotl_15 h) a2 in let h := rotl_11 h in
        w <~ readUnaligned32 b (p + 4) ;;
        let h := xor h (mul32 w a1) in let h := mul32 (rotl_15 h) a2 in let h := rotl_11 h in
        w <~ readUnaligned32 b (p + (s - 8)) ;;
        let h := xor h (mul32 w a1) in let h := mul32 (rotl_15 h) a2 in let h := rotl_11 h in
        w <~ readUnaligned32 b (p + (s - 4)) ;;
        Ok (xor h (mul32 w a1))
      else
        '(p, s, (v1, v2, v3, v4)) <~ loop32 (S (length b)) b p s h (add32 h a1) (add32 h a2) (add32 h a3) ;;
        tail32 fuel b p s (add32 (add32 (add32 (mul32 (rotl_11 v1) a1) (mul32 (rotl_11 v2) a2)) (mul32 (rotl_11 v3) a3)) (mul32 (rotl_11 v4) a4))
  end.
(** Hash32, hash32.go:13-80: &b[0] panics on the empty key. *)
Definition Hash32 (b : list N) (seed : N) : res N :=
  match b with
  | [] => Panics
  | _ =>
      h <~ tail32 2 b 0 (length b) (add32 seed (wrap 32 (N.of_nat (length b)))) ;;
      let h := xor h (shr h 17) in let h := mul32 h a3 in let h := xor h (shr h 13) in let h := mul32 h a4 in
      Ok (xor h (shr h 16))
  end.

(** hash64.go:16-19. *)
Definition b1 : N := 16877499708836156737.
Definition b2 : N := 2820277070424839065.
Definition b3 : N := 9497967016996688599.
Definition b4 : N := 15839092249703872147.
(** rotl_31 and rotl_27, hash64.go:87-92. *)
Definition rotl_31 (x : N) : N := N.lor (shl64 x 31) (shr x (64 - 31)).
Definition rotl_27 (x : N) : N := N.lor (shl64 x 27) (shr x (64 - 27)).
(** The loop of the default case, hash64.go:57-71. *)
Fixpoint loop64 (fuel : nat) (b : list N) (p s : nat) (v1 v2 v3 v4 : N) : res (nat * nat * (N * N * N * N)) :=
  match fuel with
  | O => NoFuel
  | S fuel =>
      if Nat.leb 32 s then
        w <~ readUnaligned64 b p ;;
        let v1 := mul64 (rotl_31 (xor v1 (mul64 w b1))) b2 in let p := (p + 8)%nat in
        w <~ readUnaligned64 b p ;;
        let v2 := mul64 (rotl_31 (xor v2 (mul64 w b1))) b2 in let p := (p + 8)%nat in
        w <~ readUnaligned64 b p ;;
        let v3 := mul64 (rotl_31 (xor v3 (mul64 w b1))) b2 in let p := (p + 8)%nat in
        w <~ readUnaligned64 b p ;;
        let v4 := mul64 (rotl_31 (xor v4 (mul64 w b1))) b2 in let p := (p + 8)%nat in
        loop64 fuel b p (s - 32) v1 v2 v3 v4
      else Ok (p, s, (v1, v2, v3, v4))
  end.
(** The switch at label tail, hash64.go:24-74. *)
Fixpoint tail64 (fuel : nat) (b : list N) (p s : nat) (h : N) : res N :=
  match fuel with
  | O => NoFuel
  | S fuel =>
      if Nat.eqb s 0 then Ok h
      else if Nat.ltb s 4 then
        w0 <~ byteAt b p ;; w1 <~ byteAt b (p + Nat.div2 s) ;; w2 <~ byteAt b (p + (s - 1)) ;;
        let w := add64 (add64 w0 (shl64 w1 8)) (shl64 w2 16) in
        Ok (xor h (mul64 w b1))
      else if Nat.leb s 8 then
        w0 <~ readUnaligned32 b p ;; w1 <~ readUnaligned32 b (p + (s - 4)) ;;
        let w := add64 w0 (shl64 w1 32) in
        Ok (xor h (mul64 w b1))
      else if Nat.leb s 16 then
        w <~ readUnaligned64 b p ;;
        let h := xor h (mul64 w b1) in let h := mul64 (rotl_31 h) b2 in let h := rotl_27 h in
        w <~ readUnaligned64 b (p + (s - 8)) ;;
        Ok (xor h (mul64 w b1))
      else if Nat.leb s 32 then
        w <~ readUnaligned64 b p ;;
        let h := xor h (mul64 w b1) in let h := mul64 (rotl_31 h) b2 in let h := rotl_27 h in
        w <~ readUnaligned64 b (p + 8) ;;
        let h := xor h (mul64 w b1) in let h := mul64 (rotl_31 h) b2 in let h := rotl_27 h in
        w <~ readUnaligned64 b (p + (s - 16)) ;;
        let h := xor h (mul64 w b1) in let h := mul64 (rotl_31 h) b2 in let h := rotl_27 h in
        w <~ readUnaligned64 b (p + (s - 8)) ;;
        Ok (xor h (mul64 w b1))
      else
        '(p, s, (v1, v2, v3, v4)) <~ loop64 (S (length b)) b p s h (add64 h b1) (add64 h b2) (add64 h b3) ;;
        tail64 fuel b p s (add64 (add64 (add64 (mul64 (rotl_27 v1) b1) (mul64 (rotl_27 v2) b2)) (mul64 (rotl_27 v3) b3)) (mul64 (rotl_27 v4) b4))
  end.
(** Hash64, hash64.go:13-82. *)
Definition Hash64 (b : list N) (seed : N) : res N :=
  match b with
  | [] => Panics
  | _ =>
      h <~ tail64 2 b 0 (length b) (add64 seed (wrap 64 (N.of_nat (length b)))) ;;
      let h := xor h (shr h 33) in let h := mul64 h b2 in let h := xor h (shr h 29) in let h := mul64 h b3 in
      Ok (xor h (shr h 32))
  end.
