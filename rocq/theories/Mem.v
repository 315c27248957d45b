(** Results of Go code that uses package unsafe: besides returning or panicking
    it can read memory outside the slice. *)
From Coq Require Import NArith List Arith Lia.
From Verif Require Import Words.
Import ListNotations.
Open Scope nat_scope.

Inductive res (A : Type) : Type :=
| Ok (a : A)
| Panics      (* index out of range, explicit panic *)
| Overread    (* a read through unsafe.Pointer outside the slice *)
| NoFuel.     (* loop bound of the model exhausted; never happens (proved) *)
Arguments Ok {A} a.
Arguments Panics {A}.
Arguments Overread {A}.
Arguments NoFuel {A}.

Definition rbind {A B} (r : res A) (f : A -> res B) : res B :=
  match r with Ok a => f a | Panics => Panics | Overread => Overread | NoFuel => NoFuel end.
Notation "x <~ e ;; k" := (rbind e (fun x => k)) (at level 61, e at next level, right associativity).
Notation "' pat <~ e ;; k" := (rbind e (fun x => match x with pat => k end))
  (at level 61, pat pattern, e at next level, right associativity).

(** [k[i]]. *)
Definition idx (k : list N) (i : nat) : res N :=
  match nth_error k i with Some b => Ok b | None => Panics end.

(** The [n] bytes read through an unsafe pointer to [k[i]]: Go only checks the
    index [i]. *)
Definition peek (k : list N) (i n : nat) : res (list N) :=
  if Nat.leb (i + n) (length k) then Ok (firstn n (skipn i k))
  else if Nat.ltb i (length k) then Overread else Panics.
(** Little-endian machine. *)
Definition peek_le (k : list N) (i n : nat) : res N := l <~ peek k i n ;; Ok (le_load l).

(** [k[n:]]: panics when [n > len(k)]. *)
Definition tail_from (k : list N) (n : nat) : res (list N) :=
  if Nat.leb n (length k) then Ok (skipn n k) else Panics.

Lemma idx_ok k i : i < length k -> idx k i = Ok (nth i k 0%N).
Proof. intros H. unfold idx. now rewrite (nth_error_nth' k 0%N H). Qed.
Lemma peek_ok k i n : i + n <= length k -> peek k i n = Ok (firstn n (skipn i k)).
Proof. intros H. unfold peek. apply Nat.leb_le in H. now rewrite H. Qed.
Lemma peek_le_ok k i n : i + n <= length k -> peek_le k i n = Ok (le_load (firstn n (skipn i k))).
Proof. intros H. unfold peek_le. now rewrite peek_ok. Qed.
Lemma tail_from_ok k n : n <= length k -> tail_from k n = Ok (skipn n k).
Proof. intros H. unfold tail_from. apply Nat.leb_le in H. now rewrite H. Qed.
