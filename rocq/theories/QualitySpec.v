(** Vocabulary of C94: all ways of placing n keys in m buckets. *)
From Coq Require Import NArith QArith List.
From Verif Require Import HashTableModel.
Import ListNotations.
Open Scope N_scope.

(** All lists of [n] numbers below [m]. *)
Fixpoint assignments (m : N) (n : nat) : list (list N) :=
  match n with
  | O => [[]]
  | S n => flat_map (fun v => map (fun a => N.of_nat a :: v) (seq 0 (N.to_nat m))) (assignments m n)
  end.
(** The hash function that gives the i-th key the i-th number (and 0 to anything else). *)
Fixpoint given (ks : list key) (v : list N) (k : key) : N :=
  match ks, v with
  | k' :: ks, a :: v => if list_eq_dec N.eq_dec k' k then a else given ks v k
  | _, _ => 0
  end.
Definition sum_Q {A} (f : A -> Q) (l : list A) : Q := fold_right (fun a s => (f a + s)%Q) 0%Q l.
(** What [HashQuality] gives after inserting [ks] (0 if an insertion panics, which C94 excludes). *)
Definition quality_of (hf : key -> N) (t0 : table) (ks : list key) : Q :=
  match insert_all hf t0 ks with Ret t => hash_quality t | _ => 0%Q end.
Definition sumN {A} (f : A -> N) (l : list A) : N := fold_right (fun a s => f a + s) 0 l.
(** A figure of the table after inserting [ks] ([d] if an insertion panics). *)
Definition after {A} (f : table -> A) (d : A) (hf : key -> N) (t0 : table) (ks : list key) : A :=
  match insert_all hf t0 ks with Ret t => f t | _ => d end.
