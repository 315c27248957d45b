(** Model of package threefish (threefish.go, threefish256.go, threefish512.go,
    threefish1024.go).  The bodies of encrypt and decrypt are in ThreefishProg.v.

    Buffers handed to the package live in one memory (a list of bytes, or of words for
    the *64 functions); a slice is an offset into it and the number of elements that
    may be accessed, so that source and destination may overlap in any way.  A slice
    expression s[a:b] is checked against the capacity of s, an index s[i] against its
    length; the second component of a slice below is the capacity for Encrypt and
    Decrypt and the length for Encrypt64 and Decrypt64. *)
From Coq Require Import NArith List Arith.
From Verif Require Import Words ListLemmas Mem SLP ThreefishProg.
Import ListNotations.
Open Scope N_scope.

(** KEY_SCHEDULE_CONST, threefish.go:35. *)
Definition KEY_SCHEDULE_CONST : N := 0x1BD11BDAA9FC1A22.

(** Cipher and threefish256/512/1024, threefish.go:71-74, threefish256.go:32-36,
    threefish512.go:32-36, threefish1024.go:32-36; [words] says which of the three. *)
Record cipher := mkCipher {
  stateSize : nat;
  words : nat;
  expTweak : list N;      (* [3]uint64 *)
  expKey : list N;        (* [words+1]uint64 *)
  tmpData1 : list N;      (* [words]uint64 *)
  tmpData2 : list N
}.
Inductive made := Made (c : cipher) | KeySizeError (n : nat).

(** setTweak, threefish.go:259-265; None is the nil slice.  A panic leaves the array
    half written in Go; here the call just panics. *)
Definition setTweak (tweak : option (list N)) (expandedTweak : list N) : res (list N) :=
  match tweak with
  | None => Ok expandedTweak
  | Some t => t0 <~ idx t 0 ;; t1 <~ idx t 1 ;; Ok [t0; t1; xor t0 t1]
  end.
(** setKey, threefish.go:267-276, for an expanded key of n+1 words; the loop copies
    key[i] and accumulates the parity. *)
Fixpoint setKey_loop (n i : nat) (key expanded : list N) (parity : N) : res (list N * N) :=
  match n with
  | O => Ok (expanded, parity)
  | S n => k <~ idx key i ;; setKey_loop n (S i) key (upd expanded i k) (xor parity k)
  end.
Definition setKey (key expanded : list N) : res (list N) :=
  let n := (length expanded - 1)%nat in
  '(e, parity) <~ setKey_loop n 0 key expanded KEY_SCHEDULE_CONST ;; Ok (upd e n parity).

(** binary.LittleEndian.Uint64(b[i*8 : i*8+8]) for a slice with no spare capacity
    (threefish.go:182, 207). *)
Definition word_of (b : list N) (i : nat) : res N :=
  if Nat.leb (i * 8 + 8) (length b) then Ok (le_load (firstn 8 (skipn (i * 8) b))) else Panics.
Fixpoint words_from (n i : nat) (b : list N) : res (list N) :=
  match n with O => Ok [] | S n => w <~ word_of b i ;; r <~ words_from n (S i) b ;; Ok (w :: r) end.
(** newThreefish256, threefish256.go:39-56 (the same text in threefish512.go:39-56 and
    threefish1024.go:39-56), n = 4, 8, 16. *)
Definition newThreefish (n size : nat) (key : option (list N)) (tweak : option (list N)) : res cipher :=
  et <~ setTweak tweak [0; 0; 0] ;;
  let ek := upd (repeat 0 (n + 1)) n KEY_SCHEDULE_CONST in
  ek <~ match key with
        | None => Ok ek
        | Some k => tk <~ words_from n 0 k ;; setKey (tk ++ [0]) ek
        end ;;
  Ok (mkCipher size n et ek (repeat 0 n) (repeat 0 n)).
(** newThreefish256_64, threefish256.go:59-69 (and 512, 1024). *)
Definition newThreefish_64 (n size : nat) (key : list N) (tweak : option (list N)) : res cipher :=
  et <~ setTweak tweak [0; 0; 0] ;;
  ek <~ setKey key (upd (repeat 0 (n + 1)) n KEY_SCHEDULE_CONST) ;;
  Ok (mkCipher size n et ek (repeat 0 n) (repeat 0 n)).
Definition made_of (r : res cipher) : res made := c <~ r ;; Ok (Made c).
(** New, threefish.go:93-108; New64, 121-136; NewSize, 143-158.  The stateSize of the
    Cipher is len(key) * 8 in both New and New64. *)
Definition New (key : list N) (tweak : option (list N)) : res made :=
  if Nat.eqb (length key) 32 then made_of (newThreefish 4 (length key * 8) (Some key) tweak)
  else if Nat.eqb (length key) 64 then made_of (newThreefish 8 (length key * 8) (Some key) tweak)
  else if Nat.eqb (length key) 128 then made_of (newThreefish 16 (length key * 8) (Some key) tweak)
  else Ok (KeySizeError (length key)).
Definition New64 (key : list N) (tweak : option (list N)) : res made :=
  if Nat.eqb (length key) 4 then made_of (newThreefish_64 4 (length key * 8) key tweak)
  else if Nat.eqb (length key) 8 then made_of (newThreefish_64 8 (length key * 8) key tweak)
  else if Nat.eqb (length key) 16 then made_of (newThreefish_64 16 (length key * 8) key tweak)
  else Ok (KeySizeError (length key)).
Definition NewSize (size : nat) : res made :=
  if Nat.eqb size 256 then made_of (newThreefish 4 size None None)
  else if Nat.eqb size 512 then made_of (newThreefish 8 size None None)
  else if Nat.eqb size 1024 then made_of (newThreefish 16 size None None)
  else Ok (KeySizeError size).
(** BlockSize, threefish.go:162-164. *)
Definition BlockSize (c : cipher) : nat := (stateSize c / 8)%nat.
(** SetTweak, threefish.go:246-248; SetKey, 254-256. *)
Definition SetTweak (c : cipher) (tweak : option (list N)) : res cipher :=
  et <~ setTweak tweak (expTweak c) ;; Ok (mkCipher (stateSize c) (words c) et (expKey c) (tmpData1 c) (tmpData2 c)).
Definition SetKey (c : cipher) (key : list N) : res cipher :=
  ek <~ setKey key (expKey c) ;; Ok (mkCipher (stateSize c) (words c) (expTweak c) ek (tmpData1 c) (tmpData2 c)).

(** encrypt / decrypt on words: b_i := input[i], k_i, t_i from the structure, the
    straight-line code, and the values of output[0..n-1].  All of input is read before
    anything is written to output.  threefish256.go:83-430, 432-928;
    threefish512.go:83-765, 767-1747; threefish1024.go:83-1582, 1584-3741. *)
Definition run_prog (groups : list prog) (out : list exp) (c : cipher) (input : list N) : list N :=
  let st := fold_left (fun st p => exec 64 p st) groups (input ++ expKey c ++ expTweak c ++ [0]) in
  map (eval 64 st) out.
Definition take_n (n : nat) (l : list N) : res (list N) := if Nat.leb n (length l) then Ok (firstn n l) else Panics.
Definition encrypt (c : cipher) (input : list N) : res (list N) :=
  b <~ take_n (words c) input ;;
  match words c with
  | 4%nat => Ok (run_prog enc256_groups enc256_out c b)
  | 8%nat => Ok (run_prog enc512_groups enc512_out c b)
  | 16%nat => Ok (run_prog enc1024_groups enc1024_out c b)
  | _ => Panics (* no such cipher *)
  end.
Definition decrypt (c : cipher) (input : list N) : res (list N) :=
  b <~ take_n (words c) input ;;
  match words c with
  | 4%nat => Ok (run_prog dec256_groups dec256_out c b)
  | 8%nat => Ok (run_prog dec512_groups dec512_out c b)
  | 16%nat => Ok (run_prog dec1024_groups dec1024_out c b)
  | _ => Panics
  end.

(** Windows of one memory: offset and length (dst and src of threefish.go:174, 199, which may overlap). *)
Definition slice : Type := nat * nat.
Definition slice_get (mem : list N) (s : slice) : list N := firstn (snd s) (skipn (fst s) mem).
Fixpoint write_at (mem : list N) (off : nat) (bs : list N) : list N :=
  match bs with [] => mem | b :: bs => write_at (upd mem off b) (S off) bs end.
(** The loop tmpin[i] = Uint64(src[i*8:i*8+8]), threefish.go:181-183, 206-208. *)
Fixpoint load_loop (n i : nat) (src tmpin : list N) : res (list N) :=
  match n with
  | O => Ok tmpin
  | S n => if Nat.ltb i (length tmpin) then w <~ word_of src i ;; load_loop n (S i) src (upd tmpin i w) else Panics
  end.
(** The loop PutUint64(dst[i*8:i*8+8], tmpout[i]), threefish.go:186-188, 211-213. *)
Fixpoint store_loop (n i : nat) (mem : list N) (dst : slice) (tmpout : list N) : res (list N) :=
  match n with
  | O => Ok mem
  | S n =>
      if Nat.leb (i * 8 + 8) (snd dst) then
        w <~ idx tmpout i ;;
        store_loop n (S i) (write_at mem (fst dst + i * 8) (le_store 8 w)) dst tmpout
      else Panics
  end.
(** Encrypt, threefish.go:174-189; Decrypt, 199-214. *)
Definition crypt (f : cipher -> list N -> res (list N)) (c : cipher) (mem : list N) (dst src : slice) : res (cipher * list N) :=
  let uintLen := (stateSize c / 64)%nat in
  tmpin <~ load_loop uintLen 0 (slice_get mem src) (tmpData1 c) ;;
  tmpout <~ f c tmpin ;;
  mem <~ store_loop uintLen 0 mem dst tmpout ;;
  Ok (mkCipher (stateSize c) (words c) (expTweak c) (expKey c) tmpin tmpout, mem).
Definition Encrypt := crypt encrypt.
Definition Decrypt := crypt decrypt.
(** Encrypt64, threefish.go:225-227; Decrypt64, 238-240, on a memory of words. *)
Definition crypt64 (f : cipher -> list N -> res (list N)) (c : cipher) (mem : list N) (dst src : slice) : res (list N) :=
  o <~ f c (slice_get mem src) ;;
  if Nat.leb (words c) (snd dst) then Ok (write_at mem (fst dst) o) else Panics.
Definition Encrypt64 := crypt64 encrypt.
Definition Decrypt64 := crypt64 decrypt.
