(** Vocabulary of C104: how far the figures of a table can be from their averages by chance. *)
From Coq Require Import NArith QArith Qabs List.
From Verif Require Import HashTableModel QualitySpec.
Import ListNotations.
Open Scope N_scope.

(** Number of sets of [k] things among [n]. *)
Fixpoint choose (n k : nat) : N :=
  match k, n with
  | O, _ => 1
  | S _, O => 0
  | S k', S n' => choose n' k' + choose n' k
  end.
(** How many members of [l] satisfy [p]. *)
Definition how_many {A} (p : A -> bool) (l : list A) : N := N.of_nat (length (filter p l)).
(** Is [q] off 1 by at least [eps]? *)
Definition off_one (eps q : Q) : bool := Qle_bool eps (Qabs (q - 1)).
