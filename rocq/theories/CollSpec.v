(** Messages made of [n] pieces, each of them x or y. *)
From Coq Require Import NArith List.
Import ListNotations.
Open Scope N_scope.
Fixpoint choices (x y : list N) (n : nat) : list (list N) :=
  match n with O => [[]] | S n => map (app x) (choices x y n) ++ map (app y) (choices x y n) end.
