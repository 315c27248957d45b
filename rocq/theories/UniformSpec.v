(** What it means that a hash function treats its possible values alike: among all byte strings
    of [n] bytes put into a fixed place of a key, every value appears equally often. *)
From Verif Require Import Words.
Open Scope N_scope.

(** All byte strings of [n] bytes. *)
Definition all_bytes : list N := map N.of_nat (seq 0 256).
Fixpoint all_keys (n : nat) : list (list N) :=
  match n with O => [[]] | S n => flat_map (fun b => map (cons b) (all_keys n)) all_bytes end.
(** How many satisfy [P]. *)
Definition number (n : nat) (P : list N -> bool) : N := N.of_nat (length (filter P (all_keys n))).
(** [h] gives each value of [W] bits for the same number of the 256^n strings. *)
Definition even (n : nat) (W : N) (h : list N -> option N) : Prop :=
  forall v, v < 2 ^ W -> number n (fun b => match h b with Some x => x =? v | None => false end) * 2 ^ W = 256 ^ N.of_nat n.
