(** C98, C99.  What Insert prints: the trace (flag -t) and the listing of equal hashes
    (flag -pd). *)
From Coq Require Import Arith ZArith List Lia Permutation.
From Coq Require Import ZifyBool ZifyN ZifyNat.
From Verif Require Import Words WordLemmas HashTableModel ListLemmas HashTableSpec HashTableProofs HashTableProps Probing TraceModel TraceSpec TraceProofs TraceProofs2.
Import ListNotations.
Open Scope N_scope.

(** C98.  Printing changes nothing: a run that finishes leaves the table of the silent run;
    and it finishes exactly when the silent run does and, if tracing is on, all keys have at
    least four bytes. *)
Theorem c98_same_table : forall trace pd (hf : key -> N) t tc o ks,
  (forall t' tc' o', insert_all_out trace pd hf t tc o ks = Done t' tc' o' -> insert_all hf t ks = Ret t') /\
  ((exists t' tc' o', insert_all_out trace pd hf t tc o ks = Done t' tc' o') <->
   (exists t', insert_all hf t ks = Ret t') /\ (trace = true -> Forall (fun k : key => (4 <= length k)%nat) ks)).
Proof.
  intros trace pd hf t tc o ks. split; [intros t' tc' o' E; apply (all_done _ _ _ _ _ _ _ _ _ _ E)|]. split.
  - intros (t' & tc' & o' & E). destruct (all_done _ _ _ _ _ _ _ _ _ _ E). split; [now exists t'|assumption].
  - intros ((t' & E) & H). pose proof (all_sim trace pd hf ks H t tc o) as S. rewrite E in S. destruct S as (o' & S & _). eauto.
Qed.
Print Assumptions c98_same_table.
(** A key of fewer than four bytes with tracing on: panic, with nothing printed about it,
    whatever the table. *)
Theorem c98_short_key : forall pd (hf : key -> N) t tc o k, (length k < 4)%nat -> insert_out true pd hf t tc o k = Dead o.
Proof. exact short_insert. Qed.
Print Assumptions c98_short_key.
(** The value "i" of a trace line is its number in the output; the table's trace counter is the
    number of lines; there are Probes + Cols of them.  Without tracing there are none. *)
Theorem c98_numbering : forall np sz extra oa prime pd (hf : key -> N) ks t tc o,
  insert_all_out true pd hf (new_table np sz extra oa prime) 0 [] ks = Done t tc o ->
  (forall i l, nth_error (traces o) i = Some l -> l_i l = N.of_nat i) /\
  N.of_nat (length (traces o)) = tc /\ tc = probes (st t) + cols (st t).
Proof.
  intros np sz extra oa prime pd hf ks t tc o E. destruct (all_done _ _ _ _ _ _ _ _ _ _ E) as [R L].
  pose proof (all_sim true pd hf ks L (new_table np sz extra oa prime) 0 []) as S. rewrite R in S. destruct S as (o' & S & Nb & Ln & _). rewrite E in S. injection S as -> ->. cbn [app].
  assert (Hz : probes (st (new_table np sz extra oa prime)) + cols (st (new_table np sz extra oa prime)) = 0) by (unfold new_table; now destruct (table_size np sz extra prime)). cbv iota in Ln. split; [|lia].
  intros i l Hl. unfold numbered in Nb. pose proof (f_equal (fun q => nth_error q i) Nb) as Q. cbn beta in Q. rewrite !nth_error_map, Hl in Q. cbn [option_map] in Q.
  assert (Hi : (i < length (traces o'))%nat) by (apply nth_error_Some; congruence). rewrite (nth_error_nth' _ 0%nat) in Q by (rewrite seq_length; exact Hi). rewrite seq_nth in Q by exact Hi. cbn [option_map Nat.add] in Q. injection Q as ->. lia.
Qed.
Print Assumptions c98_numbering.
Theorem c98_silent : forall np sz extra oa prime pd (hf : key -> N) ks t tc o,
  insert_all_out false pd hf (new_table np sz extra oa prime) 0 [] ks = Done t tc o -> traces o = [] /\ tc = 0.
Proof.
  intros np sz extra oa prime pd hf ks t tc o E. destruct (all_done _ _ _ _ _ _ _ _ _ _ E) as [R L].
  pose proof (all_sim false pd hf ks L (new_table np sz extra oa prime) 0 []) as S. rewrite R in S. destruct S as (o' & S & _ & Ln & _). rewrite E in S. injection S as -> ->. cbn [app].
  split; [|lia]. destruct (traces o'); [reflexivity|cbn [length] in Ln; lia].
Qed.
Print Assumptions c98_silent.
(** The lines of one insertion into a chained table: one, naming the home bucket and the place
    the key takes in it. *)
Theorem c98_lines_chained : forall pd (hf : key -> N) t tc o k t' tc' o',
  table_shape t -> is_oa t = false -> bytes_ok k -> insert_out true pd hf t tc o k = Done t' tc' o' ->
  exists b, let h := N.to_nat (home (is_prime t) (size t) (hf k)) in nth_error (buckets t) h = Some b /\ nth_error (buckets t') h = Some (b ++ [k]) /\
    traces o' = traces o ++ [mkLine tc 0 OpI (N.of_nat (length b)) (N.of_nat h) 0 (shown k) (shown k)].
Proof.
  intros pd hf t tc o k t' tc' o' Hs Ho Hb E.
  assert (L : (4 <= length k)%nat). { destruct (Nat.lt_ge_cases (length k) 4) as [L|L]; [|exact L]. rewrite short_insert in E by exact L. discriminate. }
  destruct (btoi_some k L) as (v & Hv). destruct (chain_lines true pd hf k v t tc o t' tc' o' (fun _ => Hv) Hs Ho E) as (b & Hn & Hbk & Ht & _). exists b. cbv zeta. split; [exact Hn|].
  rewrite <- (btoi_shown k v Hb Hv). split; [|exact Ht]. rewrite Hbk. apply set_nth_same. apply nth_error_Some. unfold HashTableOA.home_nat in Hn. rewrite Hn. discriminate.
Qed.
Print Assumptions c98_lines_chained.
(** Open addressing: a line "P" for each taken slot from the home slot on, round the end, then
    a line "I" for the free slot that takes the key; "l" counts the slots. *)
Theorem c98_lines_probing : forall pd (hf : key -> N) t tc o k t' tc' o',
  table_shape t -> is_oa t = true -> bytes_ok k -> insert_out true pd hf t tc o k = Done t' tc' o' ->
  exists d, let slot e := Nat.modulo (N.to_nat (home (is_prime t) (size t) (hf k)) + e) (length (buckets t)) in
    (d < length (buckets t))%nat /\
    (forall e, (e < d)%nat -> exists b0 r, nth_error (buckets t) (slot e) = Some (b0 :: r)) /\
    nth_error (buckets t) (slot d) = Some [] /\ nth_error (buckets t') (slot d) = Some [k] /\
    traces o' = traces o ++
      map (fun e => mkLine (tc + N.of_nat e) (N.of_nat e) (if Nat.eqb e d then OpI else OpP) 0 (N.of_nat (slot e)) 0 (shown k) (shown k)) (seq 0 (S d)).
Proof.
  intros pd hf t tc o k t' tc' o' Hs Ho Hb E.
  assert (L : (4 <= length k)%nat). { destruct (Nat.lt_ge_cases (length k) 4) as [L|L]; [|exact L]. rewrite short_insert in E by exact L. discriminate. }
  destruct (btoi_some k L) as (v & Hv). destruct (insert_lines true pd hf k (hf k) v (fun _ => Hv) t tc o t' tc' o' eq_refl Hs Ho E) as (d & Hocc & Hfree & Hd & Hbk & Ht & _). exists d. cbv zeta.
  split; [exact Hd|]. split; [exact Hocc|]. split; [exact Hfree|]. split. { rewrite Hbk. apply set_nth_same. apply nth_error_Some. unfold HashTableOA.home_nat in Hfree. rewrite Hfree. discriminate. }
  rewrite Ht. f_equal. rewrite <- (btoi_shown k v Hb Hv). unfold probe_lines. rewrite seq_S, map_app. cbn [map Nat.add]. rewrite Nat.eqb_refl. f_equal.
  apply map_ext_in. intros e He. apply in_seq in He. destruct (Nat.eqb_spec e d) as [->|]; [lia|]. f_equal; lia.
Qed.
Print Assumptions c98_lines_probing.
(** The trace can be read back: a reader of the lines alone, who knows the size, ends with the
    table as the trace shows it, every line being consistent with those before. *)
Theorem c98_replay : forall np sz extra oa prime pd (hf : key -> N) ks t tc o,
  let t0 := new_table np sz extra oa prime in
  1 <= size t0 -> fits 64 (size t0) -> Forall bytes_ok ks -> insert_all_out true pd hf t0 0 [] ks = Done t tc o ->
  replay (size t0) (traces o) = Some (map (map shown) (buckets t)).
Proof. exact replay_all. Qed.
Print Assumptions c98_replay.
(** ... but the trace shows only four bytes of a key: tables with different keys can have the
    same trace. *)
Theorem c98_trace_injective_refuted : exists (hf : key -> N) ks ks' t t' tc tc' o o',
  insert_all_out true false hf (new_table ex_np 4 0 false false) 0 [] ks = Done t tc o /\
  insert_all_out true false hf (new_table ex_np 4 0 false false) 0 [] ks' = Done t' tc' o' /\
  o = o' /\ buckets t <> buckets t'.
Proof.
  exists (fun _ => 1), [[1; 2; 3; 4; 5]], [[1; 2; 3; 4; 6]]. do 6 eexists. split; [vm_compute; reflexivity|]. split; [vm_compute; reflexivity|]. split; [reflexivity|]. vm_compute. discriminate.
Qed.
Print Assumptions c98_trace_injective_refuted.
(** Example: three keys, two of which meet, open addressing. *)
Example c98_nonvacuous : exists t tc o,
  insert_all_out true true (fun k => nth 0 k 0 / 2) (new_table ex_np 4 0 true false) 0 [] [[6; 1; 0; 0]; [7; 1; 0; 0]; [1; 0; 0; 0; 9]] = Done t tc o /\ tc = 5 /\
  map (fun l => (l_op l, l_b l)) (traces o) = [(OpI, 3); (OpP, 3); (OpI, 0); (OpP, 0); (OpI, 1)] /\
  replay 4 (traces o) = Some [[263]; [1]; []; [262]] /\
  listed o = [(3, 3, [7; 1; 0; 0]); (3, 3, [6; 1; 0; 0])].
Proof. do 3 eexists. split; [vm_compute; reflexivity|]. repeat split; vm_compute; reflexivity. Qed.
(** A chained table: its shape, a key that shares the bucket of another, and a key too short to be traced. *)
Example c98_chained_nonvacuous : exists t tc o,
  table_shape (new_table ex_np 4 0 false false) /\ is_oa (new_table ex_np 4 0 false false) = false /\
  insert_all_out true false (fun k => nth 0 k 0) (new_table ex_np 4 0 false false) 0 [] [[6; 1; 0; 0]; [2; 1; 0; 0]; [7; 0; 0; 0; 9]] = Done t tc o /\
  traces o = [mkLine 0 0 OpI 0 2 0 262 262; mkLine 1 0 OpI 1 2 0 258 258; mkLine 2 0 OpI 0 3 0 7 7] /\
  replay 4 (traces o) = Some [[]; []; [262; 258]; [7]] /\
  insert_out true false (fun k => nth 0 k 0) t tc o [1; 2; 3] = Dead o /\
  (exists t' tc' o', insert_out false false (fun k => nth 0 k 0) t tc o [1; 2; 3] = Done t' tc' o').
Proof.
  do 3 eexists. split; [|split; [reflexivity|split; [vm_compute; reflexivity|]]].
  - apply new_table_shape; [vm_compute; discriminate|vm_compute; reflexivity].
  - split; [vm_compute; reflexivity|]. split; [vm_compute; reflexivity|]. split; [vm_compute; reflexivity|]. do 3 eexists. vm_compute. reflexivity.
Qed.

(** C99.  Open addressing with the listing on: the listing consists of pairs of lines; a pair
    shows two keys of equal hash and a slot, which holds the second; and each pair of inserted
    keys with equal hash is listed exactly once (as often as it occurs). *)
Theorem c99_listing : forall np sz extra prime trace (hf : key -> N) ks t tc o,
  let t0 := new_table np sz extra true prime in
  1 <= size t0 -> fits 64 (size t0) -> insert_all_out trace true hf t0 0 [] ks = Done t tc o ->
  exists q, listed o = listing hf q /\
    Forall (fun '(i, k, k') => hf k = hf k' /\ nth_error (buckets t) (N.to_nat i) = Some [k']) q /\
    Permutation (map (fun '(i, k, k') => (k, k')) q) (equal_pairs hf ks).
Proof. exact listed_all. Qed.
Print Assumptions c99_listing.
(** So the number of listed lines is twice the figure Dups. *)
Theorem c99_count : forall np sz extra prime trace (hf : key -> N) ks t tc o,
  let t0 := new_table np sz extra true prime in
  1 <= size t0 -> fits 64 (size t0) -> insert_all_out trace true hf t0 0 [] ks = Done t tc o ->
  N.of_nat (length (listed o)) = 2 * dups (st t) /\ N.of_nat (length (listed o)) = 2 * equal_hash_pairs hf ks.
Proof.
  intros np sz extra prime trace hf ks t tc o t0 H1 H2 E. destruct (listed_all np sz extra prime trace hf ks t tc o H1 H2 E) as (q & Lq & _ & P).
  destruct (all_done _ _ _ _ _ _ _ _ _ _ E) as [R _]. apply Permutation_length in P. rewrite map_length in P. rewrite Lq, listing_length, P.
  pose proof (c05_dups np sz extra true prime hf ks t H1 H2 R) as D. rewrite D, <- equal_pairs_length. lia.
Qed.
Print Assumptions c99_count.
(** Chained tables list nothing, whatever the flag ... *)
Theorem c99_chained : forall np sz extra prime trace pd (hf : key -> N) ks t tc o,
  let t0 := new_table np sz extra false prime in
  1 <= size t0 -> fits 64 (size t0) -> insert_all_out trace pd hf t0 0 [] ks = Done t tc o -> listed o = [].
Proof. intros np sz extra prime trace pd hf ks t tc o. exact (silent_chained trace pd hf ks np sz extra prime t tc o). Qed.
Print Assumptions c99_chained.
(** ... also when there are equal hashes. *)
Theorem c99_chained_complete_refuted : exists (hf : key -> N) ks t tc o,
  insert_all_out false true hf (new_table ex_np 4 0 false false) 0 [] ks = Done t tc o /\ 0 < dups (st t) /\ listed o = [].
Proof. exists (fun _ => 1), [[1]; [2]]. do 3 eexists. split; [vm_compute; reflexivity|]. split; vm_compute; reflexivity. Qed.
Print Assumptions c99_chained_complete_refuted.
(** Without the flag nothing is listed. *)
Theorem c99_off : forall np sz extra oa prime trace (hf : key -> N) ks t tc o,
  let t0 := new_table np sz extra oa prime in
  1 <= size t0 -> fits 64 (size t0) -> insert_all_out trace false hf t0 0 [] ks = Done t tc o -> listed o = [].
Proof.
  intros np sz extra oa prime trace hf ks t tc o t0 H1 H2 E. destruct oa; [|exact (silent_chained trace false hf ks np sz extra prime t tc o H1 H2 E)].
  revert t tc o E. induction ks as [|k ks IH] using rev_ind; intros t tc o E; [now injection E as <- <- <-|].
  rewrite all_out_app in E. destruct (insert_all_out trace false hf t0 0 [] ks) as [t1 tc1 o1| |] eqn:E1; try discriminate. specialize (IH t1 tc1 o1 eq_refl).
  cbn [insert_all_out] in E. destruct (insert_out trace false hf t1 tc1 o1 k) as [t2 tc2 o2| |] eqn:E2; try discriminate. injection E as <- <- <-.
  destruct (all_done _ _ _ _ _ _ _ _ _ _ E1) as [R1 _]. destruct (new_inv np sz extra true prime hf ks t1 H1 H2 R1) as (Hs & Ho & _).
  assert (Hv : exists v, trace = true -> btoi k = Some v).
  { destruct trace; [|exists 0; discriminate]. destruct (btoi_some k) as (v & Hv); [|exists v; auto]. destruct (Nat.lt_ge_cases (length k) 4) as [L|L]; [|exact L]. rewrite short_insert in E2 by exact L. discriminate. }
  destruct Hv as (v & Hv). destruct (insert_lines trace false hf k (hf k) v Hv t1 tc1 o1 t2 tc2 o2 eq_refl Hs Ho E2) as (d & _ & _ & _ & _ & _ & Hl). rewrite Hl, IH. reflexivity.
Qed.
Print Assumptions c99_off.
Example c99_nonvacuous : exists t tc o,
  insert_all_out false true (fun k => nth 0 k 0) (new_table ex_np 8 0 true false) 0 [] [[7; 1]; [7; 2]; [0; 1]; [7; 1]] = Done t tc o /\
  listed o = [(7, 7, [7; 2]); (7, 7, [7; 1]); (7, 7, [7; 1]); (7, 7, [7; 1]); (7, 0, [7; 1]); (7, 0, [7; 2])] /\ dups (st t) = 3.
Proof. do 3 eexists. split; [vm_compute; reflexivity|]. split; vm_compute; reflexivity. Qed.
(** The same keys with the listing off, and in a chained table. *)
Example c99_off_nonvacuous : exists t tc o t2 tc2 o2,
  insert_all_out false false (fun k => nth 0 k 0) (new_table ex_np 8 0 true false) 0 [] [[7; 1]; [7; 2]; [0; 1]; [7; 1]] = Done t tc o /\
  dups (st t) = 3 /\ listed o = [] /\
  insert_all_out false true (fun k => nth 0 k 0) (new_table ex_np 8 0 false false) 0 [] [[7; 1]; [7; 2]; [0; 1]; [7; 1]] = Done t2 tc2 o2 /\
  dups (st t2) = 3 /\ listed o2 = [] /\ 1 <= size (new_table ex_np 8 0 true false) /\ fits 64 (size (new_table ex_np 8 0 true false)).
Proof.
  do 6 eexists. split; [vm_compute; reflexivity|]. split; [vm_compute; reflexivity|]. split; [vm_compute; reflexivity|].
  split; [vm_compute; reflexivity|]. split; [vm_compute; reflexivity|]. split; [vm_compute; reflexivity|]. split; [vm_compute; discriminate|vm_compute; reflexivity].
Qed.
