(** What the tester of jenkins/example should report. *)
From Coq Require Import NArith List Arith Bool.
From Verif Require Import Words JenkinsSpec.
Import ListNotations.
Open Scope N_scope.
Open Scope list_scope.

(** Seventy zero bytes but for byte [i], which is a function of [k] turned by [j]. *)
Definition turned (j k : N) : N := N.lxor (k * 2 ^ j) (k / 2 ^ (8 - j)) mod 256.
Definition probe (i : nat) (j k : N) : list N := map (fun l => if Nat.eqb l i then turned j k else 0) (seq 0 70).
(** Two byte strings that differ in one bit. *)
Definition one_bit_apart (i : nat) (j : N) (x y : list N) : Prop :=
  length x = length y /\ (i < length x)%nat /\
  forall l p, p < 8 -> xorb (N.testbit (nth l x 0) p) (N.testbit (nth l y 0) p) = (Nat.eqb l i && (p =? j))%bool.
(** Jenkins' hash of the first [hlen] bytes of a probe. *)
Definition probe_hash (hlen i : nat) (j m k : N) : N :=
  fst (lookup3 (firstn hlen (probe i j k)) ((m + N.of_nat (70 - hlen)) mod 2 ^ 32) 0).
(** After the first [t] pairs of probes, each output bit has been seen 0 and 1 in
    the hash of the first probe, in that of the second, and in their difference. *)
Definition mixed (hlen i : nat) (j m : N) (t : nat) : Prop :=
  let h s := probe_hash hlen i j m (2 * N.of_nat s) in
  let h' s := probe_hash hlen i j m (2 * N.of_nat s + 1) in
  forall p v, p < 32 ->
    (exists s, (s < t)%nat /\ N.testbit (h s) p = v) /\
    (exists s, (s < t)%nat /\ N.testbit (h' s) p = v) /\
    (exists s, (s < t)%nat /\ xorb (N.testbit (h s) p) (N.testbit (h' s) p) = v).
(** The inputs bits and initial values that are tested. *)
Definition tested (hlen i : nat) (j m : N) : Prop := (i < hlen)%nat /\ j < 8 /\ 1 <= m <= 7.
