(** Independent specification of SipHash-c-d, after Aumasson and Bernstein,
    "SipHash: a fast short-input PRF" (2012), section 2: initialisation,
    SipRound as in figure 2.1, padding with zero bytes and the length modulo
    256, little-endian parsing, finalisation.  Nothing here refers to the model
    of /repo; only word arithmetic (Words.v) is shared. *)
From Verif Require Import Words.

Record sipv := SV { s0 : N; s1 : N; s2 : N; s3 : N }.

Definition spec_round (v : sipv) : sipv :=
  let a := (s0 v + s1 v) mod 2 ^ 64 in
  let c := (s2 v + s3 v) mod 2 ^ 64 in
  let b := N.lxor (rotl64 (s1 v) 13) a in
  let d := N.lxor (rotl64 (s3 v) 16) c in
  let a := rotl64 a 32 in
  let c := (c + b) mod 2 ^ 64 in
  let a := (a + d) mod 2 ^ 64 in
  let b := N.lxor (rotl64 b 17) c in
  let d := N.lxor (rotl64 d 21) a in
  let c := rotl64 c 32 in
  SV a b c d.

(** The message padded to a multiple of 8 bytes. *)
Definition spec_pad (m : list N) : list N :=
  m ++ repeat 0 (7 - length m mod 8) ++ [N.of_nat (length m) mod 256].

(** Parsing into little-endian 64-bit words. *)
Fixpoint spec_words (fuel : nat) (m : list N) : list N :=
  match fuel, m with
  | S f, b0 :: b1 :: b2 :: b3 :: b4 :: b5 :: b6 :: b7 :: r =>
      (b0 + 256 * (b1 + 256 * (b2 + 256 * (b3 + 256 * (b4 + 256 * (b5 + 256 * (b6 + 256 * b7)))))))
      :: spec_words f r
  | _, _ => []
  end.

Definition spec_compress (c : nat) (v : sipv) (m : N) : sipv :=
  let v := SV (s0 v) (s1 v) (s2 v) (N.lxor (s3 v) m) in
  let v := Nat.iter c spec_round v in
  SV (N.lxor (s0 v) m) (s1 v) (s2 v) (s3 v).

Definition spec_init (k0 k1 : N) : sipv :=
  SV (N.lxor k0 0x736f6d6570736575) (N.lxor k1 0x646f72616e646f6d)
     (N.lxor k0 0x6c7967656e657261) (N.lxor k1 0x7465646279746573).

Definition spec_out (v : sipv) : N := N.lxor (N.lxor (s0 v) (s1 v)) (N.lxor (s2 v) (s3 v)).

Definition spec_absorb (c : nat) (v : sipv) (m : list N) : sipv :=
  fold_left (spec_compress c) (spec_words (length m + 8) (spec_pad m)) v.

(** SipHash-c-d, 64-bit output. *)
Definition sip_spec (c d : nat) (k0 k1 : N) (m : list N) : N :=
  let v := spec_absorb c (spec_init k0 k1) m in
  let v := SV (s0 v) (s1 v) (N.lxor (s2 v) 0xff) (s3 v) in
  spec_out (Nat.iter d spec_round v).

(** The 128-bit variant (reference implementation with double output). *)
Definition sip_spec128 (c d : nat) (k0 k1 : N) (m : list N) : N * N :=
  let v := spec_init k0 k1 in
  let v := SV (s0 v) (N.lxor (s1 v) 0xee) (s2 v) (s3 v) in
  let v := spec_absorb c v m in
  let v := SV (s0 v) (s1 v) (N.lxor (s2 v) 0xee) (s3 v) in
  let v := Nat.iter d spec_round v in
  let r0 := spec_out v in
  let v := SV (s0 v) (N.lxor (s1 v) 0xdd) (s2 v) (s3 v) in
  (r0, spec_out (Nat.iter d spec_round v)).
