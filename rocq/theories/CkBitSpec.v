(** The C interface of package keccak: bit strings in, output in several pieces. *)
From Verif Require Import Words Mem KeccakSpec.
Open Scope N_scope.

(** ** The Keccak sponge on bits *)
(** The n low bits of x, least significant first. *)
Definition low_bits (n : nat) (x : N) : list bool := map (fun i => N.testbit x (N.of_nat i)) (seq 0 n).
Definition bits_of (l : list N) : list bool := flat_map (low_bits 8) l.
(** pad10*1 for rate r. *)
Definition pad10s1 (r : nat) (m : list bool) : list bool :=
  m ++ true :: repeat false ((2 * r - 2 - length m mod r) mod r) ++ [true].
Fixpoint num (l : list bool) : N := match l with [] => 0 | b :: l => N.b2n b + 2 * num l end.
Definition bit_lanes (b : list bool) : list N := map (fun i => num (firstn 64 (skipn (64 * i) b))) (seq 0 25).
Fixpoint absorb_bits (fuel r : nat) (A : list N) (l : list bool) : list N :=
  match fuel with
  | O => A
  | S fuel => if Nat.leb r (length l) then absorb_bits fuel r (keccak_f 24 (xor_state A (bit_lanes (firstn r l)))) (skipn r l) else A
  end.
(** The first n bytes of the output for rate r and message m. *)
Definition bit_sponge (r n : nat) (m : list bool) : list N :=
  squeeze n 24 (r / 8) n (absorb_bits (length (pad10s1 r m)) r (repeat 0 25) (pad10s1 r m)).

(** ** What the caller sees *)
(** Update(state, data, n): n bits, the last n mod 8 of them being the high order bits of the last
    byte.  Squeeze(state, output, n) and Final(state, output), which squeezes as many bits as Init
    was asked for.  Update returns an error code; so do the others, and the output array is looked
    at afterwards. *)
Inductive cop := CUpdate (data : list N) (n : N) | CSqueeze (output : list N) (n : N) | CFinal (output : list N).
Inductive cout := CReturned (ret : N) | CSqueezed (ret : N) (output : list N) | CFails.
Definition update_bits (data : list N) (n : N) : list bool :=
  bits_of (firstn (N.to_nat (n / 8)) data) ++
  low_bits (N.to_nat (n mod 8)) (nth (N.to_nat (n / 8)) data 0 / 2 ^ (8 - n mod 8)).
(** Asking for n bits of the output for m when t bytes have been taken already. *)
Definition squeeze_seen (r : nat) (m : list bool) (t : nat) (output : list N) (n : N) : cout * nat :=
  let l := N.to_nat (n / 8) in
  if n mod 8 =? 0 then (CSqueezed 0 (skipn t (bit_sponge r (t + l) m) ++ skipn l output), (t + l)%nat)
  else (CSqueezed 1 output, t).
(** r: rate in bits; F: bits Final asks for; m: the message up to now; sq: how many bytes of output
    have been taken, if squeezing has begun. *)
Fixpoint sponge_calls (r : nat) (F : N) (m : list bool) (sq : option nat) (ops : list cop) : list cout :=
  let squeezed output n ops :=
    let '(c, t) := squeeze_seen r m (match sq with Some t => t | None => O end) output n in
    c :: sponge_calls r F m (Some t) ops in
  match ops with
  | [] => []
  | CUpdate data n :: ops =>
      match sq with
      | None => if Nat.eqb (length m mod 8) 0 then CReturned 0 :: sponge_calls r F (m ++ update_bits data n) None ops
                else CReturned 1 :: sponge_calls r F m None ops
      | Some _ => CReturned 1 :: sponge_calls r F m sq ops
      end
  | CSqueeze output n :: ops => squeezed output n ops
  | CFinal output :: ops => squeezed output F ops
  end.
(** Data of just the length needed, fewer than 2^32 - 1600 bits of it; room for the output; loops
    may turn at least [fuel] times. *)
Definition cop_ok (fuel : nat) (F : N) (o : cop) : Prop :=
  match o with
  | CUpdate data n => bytes_ok data /\ N.of_nat (length data) = (n + 7) / 8 /\ n < 2 ^ 32 - 1600
  | CSqueeze output n => n < 2 ^ 64 /\ (N.to_nat (n / 8) <= length output)%nat /\ (N.to_nat (n / 8) < fuel)%nat
  | CFinal output => F < 2 ^ 64 /\ (N.to_nat (F / 8) <= length output)%nat /\ (N.to_nat (F / 8) < fuel)%nat
  end.
