(** Model of what hashtable.go prints during Insert: the trace lines (flag -t of ht.go) and
    the listing of equal hashes (flag -pd).  The formatting of the lines is not modelled:
    a line is the list of its values. *)
From Verif Require Import Words HashTableModel.
From Coq Require Import ZArith.
Open Scope N_scope.

(** The values of a trace line, hashtable.go:169-170, 197-198, 242-243: "i", "l", "op" (an
    insertion "I" or a probe "P"), "t", "b", "s", "k", "v". *)
Inductive op := OpI | OpP.
Record tline := mkLine { l_i : N; l_l : N; l_op : op; l_t : N; l_b : N; l_s : N; l_k : N; l_v : N }.
(** One printed line: a trace line, or "hash=, idx=, key=" of hashtable.go:205-206. *)
Inductive out := Trc (l : tline) | Dup (h idx : N) (k : key).

(** btoi, hashtable.go:116-118: panics ([None]) when the key has fewer than four bytes. *)
Definition btoi (b : key) : option N :=
  match b with
  | b0 :: b1 :: b2 :: b3 :: _ => Some (N.lor (N.lor (N.lor (N.shiftl b3 24) (N.shiftl b2 16)) (N.shiftl b1 8)) b0)
  | _ => None
  end.

(** Result of a call: table, [Tcnt] and all output so far; or a panic, of which the output
    before it remains; or (loop fuel exhausted) no result (hashtable.go:138-259). *)
Inductive pout := Done (t : table) (tc : N) (o : list out) | Dead (o : list out) | Fuel.

(** A trace line: the arguments of Printf are evaluated first ([btoi] may panic), then
    [ht.Tcnt++] (hashtable.go:168-181, 193-200, 241-245). *)
Definition emit (trace : bool) (k : key) (cnt : N) (p : op) (pos idx tc : N) (o : list out) : option (N * list out) :=
  if trace then
    match btoi k with
    | Some v => Some (tc + 1, o ++ [Trc (mkLine tc cnt p pos idx 0 v v)])
    | None => None
    end
  else Some (tc, o).

(** hashtable.go:161-250, the [for] loop of [Insert] with its output; [trace] is the variable
    Trace, [pd] the field of the table.  (A panic while printing loses counters already
    raised; after it only the output is observable.) *)
Fixpoint insert_loop_out (fuel : nat) (trace pd : bool) (hf : key -> N) (k : key) (h : N)
    (t : table) (idx : nat) (cnt pass tc : N) (o : list out) {struct fuel} : pout :=
  match fuel with
  | O => Fuel
  | S fuel' =>
      match nth_error (buckets t) idx with
      | None => Dead o
      | Some [] =>
          match emit trace k cnt OpI 0 (N.of_nat idx) tc o with
          | None => Dead o
          | Some (tc, o) => Done (with_bucket t idx [k] (bump_head (st t))) tc o
          end
      | Some (b0 :: rest) =>
          if is_oa t then
            match emit trace k cnt OpP 0 (N.of_nat idx) tc o with
            | None => Dead o
            | Some (tc, o) =>
                let t1 := with_stats t (bump_oa cnt (hf b0 =? h) (st t)) in
                let o := if (hf b0 =? h) && pd then o ++ [Dup h (N.of_nat idx) k; Dup (hf b0) (N.of_nat idx) b0] else o in
                let idx1 := S idx in
                let cnt1 := cnt + 1 in
                if sub64 (size t) 1 <? N.of_nat idx1 then
                  if 1 <? pass + 1 then Dead o
                  else insert_loop_out fuel' trace pd hf k h t1 0%nat cnt1 (pass + 1) tc o
                else insert_loop_out fuel' trace pd hf k h t1 idx1 cnt1 pass tc o
            end
          else
            let chain := b0 :: rest in
            let d := chain_dups hf h chain (dups (st t)) in
            let chain' := chain ++ [k] in
            match emit trace k cnt OpI (N.of_nat (length chain' - 1)) (N.of_nat idx) tc o with
            | None => Dead o
            | Some (tc, o) => Done (with_bucket t idx chain' (bump_chain (N.of_nat (length chain')) d (st t))) tc o
            end
      end
  end.

(** hashtable.go:138-259 [Insert] with its output. *)
Definition insert_out (trace pd : bool) (hf : key -> N) (t : table) (tc : N) (o : list out) (k : key) : pout :=
  let s := st t in
  let t0 := with_stats t (mkStats (inserts s + 1) (cols s) (probes s) (heads s)
                                  (dups s) (nbuckets s) (longest s)) in
  let h := hf k in
  if is_prime t && (size t =? 0) then Dead o
  else insert_loop_out (enough_fuel t) trace pd hf k h t0 (N.to_nat (index_of t h)) 0 0 tc o.

(** A sequence of [Insert] calls; stops at the first panic.  (ht.go: one call per key;
    Trace is set once, ht.go:825.) *)
Fixpoint insert_all_out (trace pd : bool) (hf : key -> N) (t : table) (tc : N) (o : list out) (ks : list key) : pout :=
  match ks with
  | [] => Done t tc o
  | k :: r => match insert_out trace pd hf t tc o k with
              | Done t' tc' o' => insert_all_out trace pd hf t' tc' o' r
              | p => p
              end
  end.
