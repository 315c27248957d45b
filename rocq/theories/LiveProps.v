(** C102: the hash table in memory, on top of package hashf. *)
From Coq Require Import NArith ZArith List Arith Lia String Bool.
From Verif Require Import Words WordLemmas Mem KeccakModel KeccakProofs3 HashfModel HashfSpec HashfProofs HashfProps
  HashTableModel HashTableProofs LiveModel LiveSpec LiveProofs LiveProofs2 LiveProofs3 LiveProofs4 LiveProofs5.
Import ListNotations.
Open Scope N_scope.

Lemma new_in m np sz seed extra oa prime : table_in m (live_new np sz seed extra oa prime) = new_table np sz extra oa prime.
Proof.
  unfold live_new, new_table. destruct (table_size np sz extra prime) as [lg s]. unfold table_in. cbn [lbuckets lsize llog2 lmask loa lprime lst].
  f_equal. induction (N.to_nat s) as [|n IH]; [reflexivity|]. cbn [repeat map]. now rewrite IH.
Qed.
Lemma new_holds P np sz seed extra oa prime : holds_all P (live_new np sz seed extra oa prime).
Proof.
  unfold live_new. destruct (table_size np sz extra prime) as [lg s]. unfold holds_all. cbn [lbuckets]. apply Forall_forall.
  intros x Hx. apply repeat_spec in Hx. subst. constructor.
Qed.
Lemma new_seed np sz seed extra oa prime : lseed (live_new np sz seed extra oa prime) = seed.
Proof. unfold live_new. now destruct (table_size np sz extra prime). Qed.
Lemma less_one x : x <> 0 -> x < 2 ^ 64 -> sub64 x 1 = x - 1.
Proof.
  intros G H. unfold sub64, subw. rewrite !wrap_mod. change (N.succ (N.ones 64 - 1 mod 2 ^ 64)) with 18446744073709551615.
  change (2 ^ 64) with 18446744073709551616 in *. replace (x + 18446744073709551615) with (x - 1 + 1 * 18446744073709551616) by lia.
  rewrite N.mod_add by discriminate. apply N.mod_small. lia.
Qed.
Lemma owns_nil w : owns w [] [].
Proof. constructor; [reflexivity|constructor|]. intros a H. cbn in H. lia. Qed.

(** C102.  A program allocates arrays, overwrites them, hashes pieces of them with any names and
    inserts pieces of them into a table: at the end the table holds exactly what inserting the
    bytes the keys had at the moment of insertion gives, with the function the table's name
    stands for; later changes of the program's arrays and the digests and buffers of package
    hashf make no difference.  The program panics iff that function panics for one of the keys
    (or one of the program's own calls does), or the table is full. *)
Theorem c102_programs e grow w name seed np sz extra oa prime ops : ext_ok e -> world_ok w -> counter name = false -> seed < 2 ^ 64 ->
  lops_ok [] ops -> all_hash e name seed [] ops ->
  let run := live_run e grow name w [] (live_new np sz seed extra oa prime) ops in
  match insert_all (named e name seed) (new_table np sz extra oa prime) (keys_of [] ops) with
  | Ret t => exists w' l, run = Ok (w', l) /\ table_in (mem w') l = t
  | Panic => run = Panics
  | OutOfFuel => False
  end.
Proof.
  intros He Hw Hc Hs Hok Hh. rewrite <- (new_in (mem w) np sz seed extra oa prime).
  apply (run_ok e grow name seed He Hc Hs ops w [] [] _ Hw (owns_nil w) (new_holds _ _ _ _ _ _ _) (new_seed _ _ _ _ _ _) Hok). exact Hh.
Qed.
Print Assumptions c102_programs.
Theorem c102_panics e grow w name seed np sz extra oa prime ops : ext_ok e -> world_ok w -> counter name = false -> seed < 2 ^ 64 ->
  lops_ok [] ops -> ~ all_hash e name seed [] ops ->
  live_run e grow name w [] (live_new np sz seed extra oa prime) ops = Panics.
Proof.
  intros He Hw Hc Hs Hok Hh.
  apply (run_ok e grow name seed He Hc Hs ops w [] [] _ Hw (owns_nil w) (new_holds _ _ _ _ _ _ _) (new_seed _ _ _ _ _ _) Hok). exact Hh.
Qed.
Print Assumptions c102_panics.

(** A caller that reuses one buffer for all its keys, hashing other things in between. *)
Definition reuse : list lop := [
  LAlloc [1; 2; 3; 4]; LInsert 0 0 4; LAssign 0 1 [9; 9]; LInsert 0 0 4; LHash "keccakpg160" 0 1 2 0; LAssign 0 0 [1; 2; 3]; LHash "nullhash" 0 0 0 0;
  LInsert 0 0 4; LAlloc [7]; LInsert 1 0 1; LAssign 0 0 [0; 0; 0; 0]; LAssign 1 0 [0]]%string.
Example c102_nonvacuous : world_ok (init []) /\ counter "sha1" = false /\ lops_ok [] reuse /\ all_hash toy "sha1" 3 [] reuse /\
  keys_of [] reuse = [[1; 2; 3; 4]; [1; 9; 9; 4]; [1; 2; 3; 4]; [7]] /\
  (exists w l, live_run toy (fun _ n => n) "sha1" (init []) [] (live_new (fun n => n) 4 3 0 true false) reuse = Ok (w, l) /\
     buckets (table_in (mem w) l) = [[[1; 9; 9; 4]]; [[1; 2; 3; 4]]; [[7]]; [[1; 2; 3; 4]]] /\ dups (lst l) = 6).
Proof.
  split; [apply init_ok; constructor|]. split; [reflexivity|]. split.
  { unfold reuse. repeat (split; [cbn; repeat match goal with |- _ /\ _ => split end; try lia; repeat constructor|]); exact I. }
  split.
  { unfold reuse. cbn [all_hash]. repeat (split; [unfold hashes; try (left; reflexivity); right; right; cbn; discriminate|]). exact I. }
  split; [reflexivity|]. do 2 eexists. split; [vm_compute; reflexivity|]. split; vm_compute; reflexivity.
Qed.
Example c102_panics_nonvacuous : let ops := [LAlloc [1; 2]; LInsert 0 0 2; LInsert 0 1 0] in
  lops_ok [] ops /\ counter "gomap64" = false /\ ~ all_hash toy "gomap64" 3 [] ops /\
  live_run toy (fun _ n => n) "gomap64" (init []) [] (live_new (fun n => n) 4 3 0 true false) ops = Panics.
Proof.
  intros ops. split; [cbn; repeat split; repeat constructor|]. split; [reflexivity|]. split; [|vm_compute; reflexivity].
  intros (_ & [H|[H|H]] & _); [discriminate H|discriminate H|]. apply H. vm_compute. reflexivity.
Qed.

(** With a counting name (null, nullF64ns) the hash of a key changes from call to call.  The
    table then depends on the number of insertions only, not on the keys. *)
Theorem c102_null_shape e grow name w1 w2 np sz seed extra oa prime ops1 ops2 : counter name = true ->
  count_of name w1 = count_of name w2 -> Forall quiet ops1 -> Forall quiet ops2 -> length (keys_of [] ops1) = length (keys_of [] ops2) ->
  let t0 := live_new np sz seed extra oa prime in
  match live_run e grow name w1 [] t0 ops1, live_run e grow name w2 [] t0 ops2 with
  | Ok (_, t1), Ok (_, t2) => map (@length slice) (lbuckets t1) = map (@length slice) (lbuckets t2) /\ lst t1 = lst t2
  | Panics, Panics => True
  | NoFuel, NoFuel => True
  | _, _ => False
  end.
Proof.
  intros Hc Ec Q1 Q2 Hn t0.
  assert (K : forall ops ms, length (keys_of ms ops) = inserts_of ops).
  { unfold inserts_of. induction ops as [|[bs|a o bs|x a o n s|a o n] ops IH]; intros ms; cbn [keys_of filter]; auto. cbn [length]. now rewrite IH. }
  rewrite !K in Hn.
  assert (A : alike name w1 t0 w2 t0) by now constructor.
  pose proof (run_alike e grow name Hc (length ops1 + length ops2) ops1 ops2 (le_n _) w1 [] t0 w2 [] t0 A Q1 Q2 Hn) as R.
  destruct (live_run e grow name w1 [] t0 ops1) as [[v1 t1]| | |], (live_run e grow name w2 [] t0 ops2) as [[v2 t2]| | |]; try contradiction; try exact I.
  destruct R. auto.
Qed.
Print Assumptions c102_null_shape.

(** No duplicates are found, not even of equal keys. *)
Theorem c102_null_dups e grow name w np sz seed extra oa prime ops w' t' : counter name = true ->
  let t0 := live_new np sz seed extra oa prime in
  2 * lsize t0 + 2 < 2 ^ 64 -> N.of_nat (length (keys_of [] ops)) < 2 ^ 64 ->
  live_run e grow name w [] t0 ops = Ok (w', t') -> dups (lst t') = 0.
Proof.
  intros Hc t0 Hs Hn E.
  assert (K : forall ops ms, length (keys_of ms ops) = inserts_of ops).
  { clear. unfold inserts_of. induction ops as [|[bs|a o bs|x a o n s|a o n] ops IH]; intros ms; cbn [keys_of filter]; auto. cbn [length]. now rewrite IH. }
  rewrite K in Hn.
  assert (D0 : dups (lst t0) = 0 /\ length (lbuckets t0) = N.to_nat (lsize t0) /\ total t0 = 0%nat).
  { unfold t0, live_new, total. destruct (table_size np sz extra prime) as [lg s]. cbn [lst lbuckets lsize].
    split; [reflexivity|]. split; [apply repeat_length|]. induction (N.to_nat s) as [|n IH]; [reflexivity|exact IH]. }
  destruct D0 as (D & L & T). rewrite <- D. apply (run_dups e grow name Hc ops w [] t0 w' t'); [rewrite L; lia|now rewrite T|exact E].
Qed.
Print Assumptions c102_null_dups.

(** Up to as many keys as there are buckets, each key has a bucket of its own, in the order of
    insertion, whatever the keys are. *)
Theorem c102_null_perfect e grow name w np sz seed extra oa prime ops : world_ok w -> counter name = true ->
  let t0 := live_new np sz seed extra oa prime in let keys := keys_of [] ops in let n := N.of_nat (length keys) in
  prime = true \/ (exists g, lsize t0 = 2 ^ g) -> lsize t0 < 2 ^ 64 ->
  lops_ok [] ops -> Forall quiet ops -> count_of name w + n < 2 ^ 64 -> n <= lsize t0 ->
  exists w' l, live_run e grow name w [] t0 ops = Ok (w', l) /\ lst l = mkStats n 0 n n 0 0 0 /\
    (forall i, (i < length keys)%nat ->
       nth_error (buckets (table_in (mem w') l)) (N.to_nat ((count_of name w + 1 + N.of_nat i) mod lsize l)) = Some [nth i keys []]) /\
    (forall j b, nth_error (lbuckets l) j = Some b -> (length b <= 1)%nat).
Proof.
  intros Hw Hc t0 keys n Hp Hs Hok Q Hb Hn.
  assert (F : lprime t0 = prime /\ lmask t0 = sub64 (lsize t0) 1 /\ length (lbuckets t0) = N.to_nat (lsize t0) /\ lst t0 = zero_stats /\ (forall j b, nth_error (lbuckets t0) j = Some b -> b = [])).
  { unfold t0, live_new. destruct (table_size np sz extra prime) as [lg s]. cbn [lst lbuckets lsize lprime lmask].
    repeat split; [apply repeat_length|]. intros j b E. apply nth_error_In, repeat_spec in E. exact E. }
  destruct F as (F1 & F2 & F3 & F4 & F5).
  assert (Hi : forall h, (if lprime t0 then h mod lsize t0 else N.land h (lmask t0)) = h mod lsize t0).
  { intros h. rewrite F1. destruct prime; [reflexivity|]. destruct Hp as [Hp|[g Hg]]; [discriminate|]. rewrite F2, Hg in *.
    assert (G : 2 ^ g <> 0) by (apply N.pow_nonzero; discriminate).
    pose proof (less_one (2 ^ g) G Hs) as M.
    rewrite M, <- N.land_ones, N.ones_equiv. f_equal. apply N.sub_1_r. }
  destruct (run_perfect e grow name Hc (count_of name w) ops w [] [] t0 [] Hw (owns_nil w) (new_holds _ _ _ _ _ _ _) Hok Q) as (w' & l & E & P).
  - constructor.
    + cbn [buckets table_in size]. now rewrite map_length.
    + intros i Hil. cbn in Hil. lia.
    + intros j b Ej Hb'. exfalso. cbn [buckets table_in] in Ej. rewrite nth_error_map' in Ej. destruct (nth_error (lbuckets t0) j) as [b'|] eqn:E; [|discriminate].
      apply F5 in E. subst b'. injection Ej as <-. now apply Hb'.
    + exact F4.
  - cbn. lia.
  - cbn [length Nat.add]. exact Hb.
  - exact Hn.
  - exact Hi.
  - exists w', l. cbn [app] in P. destruct P as [P1 P2 P3 P4]. split; [exact E|]. split; [exact P4|]. split; [exact P2|].
    intros j b Ej. destruct b as [|b0 b]; [cbn; lia|]. destruct (P3 j (map (read (mem w')) (b0 :: b))) as (i & Hil & Eij).
    + cbn [buckets table_in]. now rewrite nth_error_map', Ej.
    + discriminate.
    + pose proof (P2 i Hil) as K. rewrite <- Eij in K. cbn [buckets table_in] in K. rewrite nth_error_map', Ej in K. cbn [option_map map] in K.
      injection K as _ K. apply map_eq_nil in K. subst b. cbn. lia.
Qed.
Print Assumptions c102_null_perfect.
(** Four times the same key: no duplicates, a perfect table. *)
Definition again : list lop := [LAlloc [5; 5]; LInsert 0 0 2; LInsert 0 0 2; LInsert 0 0 2; LInsert 0 0 2].
Example c102_null_nonvacuous : counter "nullhash" = true /\ lops_ok [] again /\ Forall quiet again /\
  (exists w l, live_run toy (fun _ n => n) "nullhash" (init []) [] (live_new (fun n => n) 4 3 0 false false) again = Ok (w, l) /\
     buckets (table_in (mem w) l) = [[[5; 5]]; [[5; 5]]; [[5; 5]]; [[5; 5]]] /\ lst l = mkStats 4 0 4 4 0 0 0) /\
  (exists w l, live_run toy (fun _ n => n) "sbox" (init []) [] (live_new (fun n => n) 4 3 0 false false) again = Ok (w, l) /\
     lst l = mkStats 4 0 4 1 6 3 4).
Proof.
  split; [reflexivity|]. split.
  { unfold again. repeat (split; [cbn; repeat match goal with |- _ /\ _ => split end; try lia; repeat constructor|]); exact I. }
  split; [repeat constructor|]. split; do 2 eexists; (split; [vm_compute; reflexivity|]); [split|]; vm_compute; reflexivity.
Qed.
