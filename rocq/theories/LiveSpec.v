(** The table as a function of the bytes the keys have when they are inserted. *)
From Coq Require Import NArith List Arith String.
From Verif Require Import Words Mem KeccakModel HashfModel HashfSpec HashTableModel LiveModel.
Import ListNotations.
Open Scope N_scope.

(** The contents of the table, as bytes. *)
Definition table_in (m : heap) (t : live) : HashTableModel.table :=
  mkTable (map (map (read m)) (lbuckets t)) (lsize t) (llog2 t) (lmask t) (loa t) (lprime t) (lst t).
(** The function a name stands for; counting names do not stand for one. *)
Definition named (e : ext) (name : string) (seed : N) (k : key) : N :=
  match reference e name k seed with Some h => h | None => 0 end.
(** The program's own arrays [ms], as if there were neither a table nor package hashf. *)
Definition bytes_of (ms : list (list N)) (a o n : nat) : list N := firstn n (skipn o (nth a ms [])).
Definition lop_mem (ms : list (list N)) (op : lop) : list (list N) :=
  match op with LAlloc bs => ms ++ [bs] | LAssign a o bs => store ms a o bs | _ => ms end.
Definition lop_ok (ms : list (list N)) (op : lop) : Prop :=
  match op with
  | LAlloc bs => bytes_ok bs
  | LAssign a o bs => (a < length ms)%nat /\ (o + length bs <= length (nth a ms []))%nat /\ bytes_ok bs
  | LHash _ a o n seed => (a < length ms)%nat /\ (o + n <= length (nth a ms []))%nat /\ N.of_nat n < 2 ^ 64 /\ seed < 2 ^ 64
  | LInsert a o n => (a < length ms)%nat /\ (o + n <= length (nth a ms []))%nat /\ N.of_nat n < 2 ^ 64
  end.
Fixpoint lops_ok (ms : list (list N)) (ops : list lop) : Prop :=
  match ops with [] => True | op :: ops => lop_ok ms op /\ lops_ok (lop_mem ms op) ops end.
(** The keys a program inserts: their bytes at that moment. *)
Fixpoint keys_of (ms : list (list N)) (ops : list lop) : list key :=
  match ops with
  | [] => []
  | LInsert a o n :: ops => bytes_of ms a o n :: keys_of ms ops
  | op :: ops => keys_of (lop_mem ms op) ops
  end.
(** Which hashes panic: those of the program itself and those of the keys. *)
Definition hashes (e : ext) (name : string) (k : list N) (seed : N) : Prop :=
  name = "nullhash"%string \/ name = "nullhashF64ns"%string \/ reference e name k seed <> None.
Fixpoint all_hash (e : ext) (name : string) (seed : N) (ms : list (list N)) (ops : list lop) : Prop :=
  match ops with
  | [] => True
  | LInsert a o n :: ops => hashes e name (bytes_of ms a o n) seed /\ all_hash e name seed ms ops
  | LHash other a o n s :: ops => hashes e other (bytes_of ms a o n) s /\ all_hash e name seed ms ops
  | op :: ops => all_hash e name seed (lop_mem ms op) ops
  end.
