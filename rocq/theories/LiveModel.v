(** The hash table of package hashtable in memory: its buckets hold slices, every hash is a call
    of hashf.Hashf, which uses the buffers and digests package hashf keeps. *)
From Coq Require Import NArith ZArith List Arith String.
From Verif Require Import Words Mem KeccakModel HashfModel HashTableModel.
Import ListNotations.
Open Scope N_scope.

(** [HashTable], hashtable.go:43-53, with the keys as slices (14-16); [st] as in HashTableModel.v;
    the tracing fields are left out. *)
Record live := mkLive {
  lbuckets : list (list slice); lsize : N; llog2 : N; lmask : N; loa : bool; lprime : bool; lst : stats; lseed : N }.

(** [NewHashTable], hashtable.go:92-114. *)
Definition live_new (nextprime : N -> N) (sz : Z) (seed : N) (extra : Z) (oa prime : bool) : live :=
  let '(lg, s) := table_size nextprime sz extra prime in
  mkLive (repeat [] (N.to_nat s)) s lg (sub64 s 1) oa prime zero_stats seed.

(** Assignments to single fields (hashtable.go:164, 182-192, 208, 230-247). *)
Definition live_bucket (t : live) (i : nat) (b : list slice) (s : stats) : live :=
  mkLive (set_nth i b (lbuckets t)) (lsize t) (llog2 t) (lmask t) (loa t) (lprime t) s (lseed t).
Definition live_stats (t : live) (s : stats) : live :=
  mkLive (lbuckets t) (lsize t) (llog2 t) (lmask t) (loa t) (lprime t) s (lseed t).

(** hashtable.go:221-232: the scan of a chain calls Hashf for every entry.  [name] is the global
    hashf.Hf2. *)
Fixpoint live_scan (e : ext) (grow : nat -> nat -> nat) (name : string) (seed h : N) (chain : list slice) (w : world) (d : N)
    : res (world * N) :=
  match chain with
  | [] => Ok (w, d)
  | s :: r => '(w, bh) <~ Hashf e grow w name s seed ;; live_scan e grow name seed h r w (if bh =? h then d + 1 else d)
  end.

(** hashtable.go:161-250, the [for] loop of [Insert]. *)
Fixpoint live_loop (fuel : nat) (e : ext) (grow : nat -> nat -> nat) (name : string) (k : slice) (h : N) (w : world)
    (t : live) (idx : nat) (cnt pass : N) {struct fuel} : res (world * live) :=
  match fuel with
  | O => NoFuel
  | S fuel =>
      match nth_error (lbuckets t) idx with
      | None => Panics
      | Some [] => Ok (w, live_bucket t idx [k] (bump_head (lst t)))
      | Some (b0 :: rest) =>
          if loa t then
            '(w, bh) <~ Hashf e grow w name b0 (lseed t) ;;
            let t := live_stats t (bump_oa cnt (bh =? h) (lst t)) in
            if sub64 (lsize t) 1 <? N.of_nat (S idx) then
              if 1 <? pass + 1 then Panics
              else live_loop fuel e grow name k h w t 0%nat (cnt + 1) (pass + 1)
            else live_loop fuel e grow name k h w t (S idx) (cnt + 1) pass
          else
            '(w, d) <~ live_scan e grow name (lseed t) h (b0 :: rest) w (dups (lst t)) ;;
            let chain := (b0 :: rest) ++ [k] in
            Ok (w, live_bucket t idx chain (bump_chain (N.of_nat (length chain)) d (lst t)))
      end
  end.

(** [Insert], hashtable.go:138-259.  The copy of the key (139-144) is a new array. *)
Definition live_insert (e : ext) (grow : nat -> nat -> nat) (name : string) (w : world) (t : live) (ka : slice) : res (world * live) :=
  let k := mkSlice (length (mem w)) 0 (len ka) (len ka) in
  let w := withMem w (mem w ++ [read (mem w) ka]) in
  let s := lst t in
  let t := live_stats t (mkStats (inserts s + 1) (cols s) (probes s) (heads s) (dups s) (nbuckets s) (longest s)) in
  '(w, h) <~ Hashf e grow w name k (lseed t) ;;
  if lprime t && (lsize t =? 0) then Panics
  else let idx := if lprime t then h mod lsize t else N.land h (lmask t) in
       live_loop (2 * length (lbuckets t) + 2) e grow name k h w t (N.to_nat idx) 0 0.

(** A program with a table: it allocates arrays, assigns to them, hashes and inserts pieces of
    them.  It names its arrays by the order of allocation; [own] are their addresses
    (clients of hashtable.go:138-259, hashf.go:57). *)
Inductive lop :=
| LAlloc (bs : list N)                                 (* make / a literal *)
| LAssign (a o : nat) (bs : list N)                    (* copy(a[o:], bs) *)
| LHash (name : string) (a o n : nat) (seed : N)       (* Hf2 = name; Hashf(a[o:o+n], seed); Hf2 back *)
| LInsert (a o n : nat).                               (* ht.Insert(a[o:o+n]) *)
Definition piece (w : world) (x o n : nat) : slice := mkSlice x o n (length (array (mem w) x) - o).
Fixpoint live_run (e : ext) (grow : nat -> nat -> nat) (name : string) (w : world) (own : list nat) (t : live) (ops : list lop)
    : res (world * live) :=
  match ops with
  | [] => Ok (w, t)
  | LAlloc bs :: ops => live_run e grow name (withMem w (mem w ++ [bs])) (own ++ [length (mem w)]) t ops
  | LAssign a o bs :: ops => live_run e grow name (withMem w (store (mem w) (nth a own 0%nat) o bs)) own t ops
  | LHash other a o n seed :: ops =>
      '(w, _) <~ Hashf e grow w other (piece w (nth a own 0%nat) o n) seed ;; live_run e grow name w own t ops
  | LInsert a o n :: ops =>
      '(w, t) <~ live_insert e grow name w t (piece w (nth a own 0%nat) o n) ;; live_run e grow name w own t ops
  end.
