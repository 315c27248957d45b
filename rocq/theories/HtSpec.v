(** Specifications for the command in /repo/ht.go, written without reference to
    its model. *)
From Coq Require Import NArith ZArith List Arith String.
Import ListNotations.
Open Scope N_scope.
Open Scope list_scope.

(** Text files: complete lines, then possibly text without a newline. *)
Definition joined (ls : list (list N)) (rest : list N) : list N :=
  flat_map (fun l => l ++ [10]) ls ++ rest.
Definition one_line (l : list N) : Prop := ~ In 10 l.
Definition ends_in (c : N) (l : list N) : Prop := exists p, l = p ++ [c].
(** [t] is [l] without one carriage return at the end and then without one
    space at the end, where present. *)
Definition trimmed (l t : list N) : Prop :=
  exists sp cr, l = t ++ sp ++ cr /\
    (cr = [13] \/ cr = [] /\ ~ ends_in 13 l) /\
    (sp = [32] \/ sp = [] /\ ~ ends_in 32 t).
Definition blank (l : list N) : Prop := l = [] \/ l = [13].

(** UTF-8 encoding of the code points below 256. *)
Definition encoded (c : N) : list N :=
  if c <? 128 then [c] else [192 + c / 64; 128 + c mod 64].
Definition byte (c : N) : Prop := c < 256.

(** Combinations: of a choice of one letter per position. *)
Definition choice (cs : list N) (perms : list (list N)) : Prop := Forall2 (fun c p => In c p) cs perms.
Definition product (l : list nat) : nat := fold_right Nat.mul 1%nat l.
(** Mixed-radix digit [j] of [i], the first position varying fastest. *)
Definition digit (lens : list nat) (i j : nat) : nat :=
  (i / product (firstn j lens)) mod (nth j lens 0%nat).
Definition combination (perms : list (list N)) (i : nat) : list N :=
  map (fun j => nth (digit (map (@List.length N) perms) i j) (nth j perms []) 0) (seq 0 (List.length perms)).

(** Non-decreasing. *)
Fixpoint sorted (l : list N) : Prop :=
  match l with
  | x :: r => match r with y :: _ => x <= y | [] => True end /\ sorted r
  | [] => True
  end.
Definition distinct (l : list N) : nat := List.length (nodup N.eq_dec l).
Definition repeats (l : list N) (v : N) : nat := (count_occ N.eq_dec l v - 1)%nat.
Definition max_of (l : list nat) : nat := fold_right Nat.max 0%nat l.

(** Hexadecimal digits. *)
Definition hex_digit (c v : N) : Prop :=
  (v < 10 /\ c = 48 + v) \/ (10 <= v < 16 /\ (c = 97 + (v - 10) \/ c = 65 + (v - 10))).
Inductive hex_of : list N -> list N -> Prop :=
| hex_nil : hex_of [] []
| hex_cons : forall c d u v s bs, hex_digit c u -> hex_digit d v -> hex_of s bs ->
    hex_of (c :: d :: s) (16 * u + v :: bs).

(** Exactly bit [b] of the [n]-byte key [k] is set. *)
Definition one_bit (n b : nat) (k : list N) : Prop :=
  List.length k = n /\
  forall j i, (j < n)%nat -> N.testbit (nth j k 0) i = ((N.of_nat (8 * j) + i =? N.of_nat b) && (i <? 8))%bool.
