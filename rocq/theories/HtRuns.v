(** Whole test runs: the key sources of ht.go put into the hash table. *)
From Coq Require Import NArith ZArith List Arith String Bool Lia Permutation.
From Verif Require Import Words WordLemmas Mem ListLemmas HashTableModel HashTableSpec HashTableProps HashfModel HtModel HtSpec HtProofs HtMore HtKeys.
Import ListNotations.
Open Scope N_scope.
Open Scope list_scope.

Lemma next_log2_le n : n < 2 ^ 32 -> next_log2 n <= 32 /\ n <= 2 ^ next_log2 n.
Proof.
  intros H. destruct (N.lt_ge_cases n 2) as [L|L].
  - assert (E : n = 0 \/ n = 1) by lia. destruct E as [-> | ->]; vm_compute; split; discriminate.
  - destruct (c07_next_log2 n L H) as [A B]. split; [|exact A]. apply B. lia.
Qed.
Lemma new_size np (n extra : Z) oa : (0 <= n < 2 ^ 32)%Z -> (0 <= extra <= 30)%Z ->
  let s := size (new_table np n extra oa false) in
  1 <= s /\ Z.to_N n <= s /\ s < 2 ^ 63.
Proof.
  intros Hn He. cbv zeta. unfold new_table, table_size.
  replace (n <? 0)%Z with false by (symmetry; apply Z.ltb_ge; lia). cbv iota beta. cbn [size].
  unfold int_to_u32. rewrite !Z.mod_small by (change (2 ^ 32)%Z with 4294967296%Z in *; lia).
  destruct (next_log2_le (Z.to_N n)) as [A B].
  { change (2 ^ 32) with 4294967296. change (2 ^ 32)%Z with 4294967296%Z in Hn. lia. }
  unfold add32, addw. rewrite wrap_small by (unfold fits; change (2 ^ 32) with 4294967296; lia).
  set (k := next_log2 (Z.to_N n)) in *.
  assert (Hk : 2 ^ (k + Z.to_N extra) < 2 ^ 63) by (apply N.pow_lt_mono_r; lia).
  unfold shl64, shlw. rewrite N.shiftl_1_l, wrap_small
    by (unfold fits; eapply N.lt_trans; [exact Hk|apply N.pow_lt_mono_r; lia]).
  assert (P : 2 ^ k <= 2 ^ (k + Z.to_N extra)) by (apply N.pow_le_mono_r; lia).
  pose proof (N.pow_nonzero 2 k ltac:(discriminate)). lia.
Qed.
(** What is assumed of the external NextPrime: not smaller, and a 64-bit value. *)
Definition next_ok (np : N -> N) : Prop := forall x, x < 2 ^ 63 -> x <= np x /\ np x < 2 ^ 64.
Lemma new_size' np (n extra : Z) oa prime : next_ok np -> (0 <= n < 2 ^ 32)%Z -> (0 <= extra <= 30)%Z ->
  let t := new_table np n extra oa prime in
  1 <= size t /\ Z.to_N n <= size t /\ fits 64 (size t).
Proof.
  intros Hp Hn He. destruct (new_size np n extra oa Hn He) as (A & B & C). cbv zeta.
  destruct prime.
  - rewrite (c08_prime_size np np n extra oa oa). destruct (Hp _ C) as [D E]. unfold fits. lia.
  - unfold fits. repeat split; try assumption. eapply N.lt_trans; [exact C|]. apply N.pow_lt_mono_r; lia.
Qed.

(** The buckets of a chained table, put together, are the keys. *)
Lemma concat_insert {A} (g : nat -> list A) (x : A) j : forall n s, (s <= j < s + n)%nat ->
  Permutation (concat (map (fun i => (if Nat.eqb j i then [x] else []) ++ g i) (seq s n)))
              (x :: concat (map g (seq s n))).
Proof.
  induction n as [|n IH]; intros s H; [lia|]. cbn [seq map concat].
  destruct (Nat.eqb_spec j s) as [E|E].
  - cbn [app]. apply perm_skip. apply Permutation_app_head.
    assert (Q : map (fun i => (if Nat.eqb j i then [x] else []) ++ g i) (seq (S s) n) = map g (seq (S s) n)).
    { apply map_ext_in. intros i Hi. apply in_seq in Hi.
      replace (Nat.eqb j i) with false by (symmetry; apply Nat.eqb_neq; lia). reflexivity. }
    rewrite Q. reflexivity.
  - cbn [app]. rewrite (IH (S s)) by lia. apply Permutation_sym, Permutation_middle.
Qed.
Lemma concat_filters {A} (f : A -> nat) n ks : (forall k, f k < n)%nat ->
  Permutation (concat (map (fun i => filter (fun k => Nat.eqb (f k) i) ks) (seq 0 n))) ks.
Proof.
  intros H. induction ks as [|k ks IH].
  - assert (E : concat (map (fun i : nat => filter (fun k : A => Nat.eqb (f k) i) []) (seq 0 n)) = []).
    { generalize (seq 0 n). intros l. induction l; [reflexivity|]. exact IHl. }
    rewrite E. constructor.
  - transitivity (k :: concat (map (fun i => filter (fun k => Nat.eqb (f k) i) ks) (seq 0 n))).
    + rewrite <- (concat_insert (fun i => filter (fun k => Nat.eqb (f k) i) ks) k (f k) n 0)
        by (split; [lia|exact (H k)]).
      assert (Q : map (fun i => filter (fun k => Nat.eqb (f k) i) (k :: ks)) (seq 0 n)
        = map (fun i => (if Nat.eqb (f k) i then [k] else []) ++ filter (fun k => Nat.eqb (f k) i) ks) (seq 0 n)).
      { apply map_ext. intros i. cbn [filter]. now destruct (Nat.eqb (f k) i). }
      rewrite Q. reflexivity.
    + apply perm_skip. exact IH.
Qed.
Lemma home_lt prime s h : 1 <= s -> home prime s h < s.
Proof.
  intros H. unfold home. destruct prime; [apply N.mod_upper_bound; lia|].
  assert (N.land h (s - 1) <= s - 1); [|lia].
  apply N.ldiff_le, N.bits_inj. intros i. rewrite N.ldiff_spec, N.land_spec, N.bits_0.
  destruct (N.testbit h i), (N.testbit (s - 1) i); reflexivity.
Qed.

(** A table filled from any key list, chained, or with room for all keys. *)
Lemma filled np sz extra oa prime hf ks :
  let t0 := new_table np sz extra oa prime in
  1 <= size t0 -> fits 64 (size t0) -> (oa = true -> N.of_nat (List.length ks) <= size t0) ->
  exists t, insert_all hf t0 ks = Ret t /\ size t = size t0 /\
    Permutation (concat (buckets t)) ks /\ inserts (st t) = N.of_nat (List.length ks).
Proof.
  intros t0 H1 H2 H3. destruct oa.
  - destruct (c02_oa_contents np sz extra prime hf ks H1 H2 (H3 eq_refl)) as (t & E & S & L & _ & P & _).
    exists t. repeat split; try assumption.
    exact (proj1 (c04_stats_oa np sz extra prime hf ks t H1 H2 E)).
  - destruct (c01_chained_contents np sz extra prime hf ks H1 H2) as (t & E & S & L & C).
    exists t. repeat split; try assumption.
    + fold t0 in S, L, C. set (n := N.to_nat (size t0)) in *.
      assert (EB : buckets t = map (fun i => filter (fun k => Nat.eqb (N.to_nat (home prime (size t0) (hf k))) i) ks) (seq 0 n)).
      { apply nth_error_ext. intros i. destruct (Nat.lt_ge_cases i n) as [Hi|Hi].
        - specialize (C (N.of_nat i) ltac:(unfold n in Hi; lia)). rewrite Nat2N.id in C. rewrite C.
          rewrite nth_error_map, (nth_error_nth' _ 0%nat) by (rewrite seq_length; exact Hi).
          rewrite seq_nth by exact Hi. cbn [option_map Nat.add]. f_equal. apply filter_ext. intros k.
          destruct (N.eqb_spec (home prime (size t0) (hf k)) (N.of_nat i)) as [Q|Q].
          + rewrite Q, Nat2N.id, Nat.eqb_refl. reflexivity.
          + symmetry. apply Nat.eqb_neq. intros Q2. apply Q. rewrite <- Q2. now rewrite N2Nat.id.
        - rewrite !(proj2 (nth_error_None _ _)); [reflexivity| |]; [rewrite map_length, seq_length|]; lia. }
      rewrite EB. apply (concat_filters (fun k => N.to_nat (home prime (size t0) (hf k)))).
      intros k. pose proof (home_lt prime (size t0) (hf k) H1). unfold n. lia.
    + exact (proj1 (c04_stats_chained np sz extra prime hf ks t H1 H2 E)).
Qed.
