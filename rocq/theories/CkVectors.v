(** Test vectors of keccak/keccak_test.go and keccak_vectors_test.go (the same as those of
    package keccakpg, see KeccakVectors), evaluated on the model of package keccak:
    evidence that the model was transcribed faithfully. *)
From Coq Require Import NArith ZArith List.
From Verif Require Import Words Mem CkModel.
From Verif Require KeccakVectors.
Import ListNotations.
Open Scope N_scope.

Definition digest (bits : Z) (m : list N) : res (list N) :=
  ' (k, _, _) <~ Write 10 (newKeccak bits) m ;; Sum 10 k [].
Definition check (v : Z * list N * list N) : bool :=
  let '(bits, m, d) := v in match digest bits m with Ok x => if list_eq_dec N.eq_dec x d then true else false | _ => false end.
Example vectors_ok : forallb check (filter (fun v => negb (Z.eqb (fst (fst v)) 160)) KeccakVectors.vectors) = true.
Proof. vm_compute. reflexivity. Qed.
