(** Proofs about HashTableModel.v. *)
From Verif Require Import Words WordLemmas ListLemmas HashTableModel HashTableSpec.
From Coq Require Import ZArith QArith Permutation.
From Coq Require Import ZifyBool ZifyNat ZifyN.
Open Scope N_scope.

(** ** Lists *)
Lemma set_nth_length {A} i (x : A) l : length (set_nth i x l) = length l.
Proof. revert i; induction l as [|y l IH]; intros [|i]; cbn; auto. Qed.
Lemma set_nth_same {A} i (x : A) l : (i < length l)%nat -> nth_error (set_nth i x l) i = Some x.
Proof. revert i; induction l as [|y l IH]; intros [|i] H; cbn in *; try lia; auto. apply IH. lia. Qed.
Lemma set_nth_other {A} i j (x : A) l : i <> j -> nth_error (set_nth i x l) j = nth_error l j.
Proof. revert i j; induction l as [|y l IH]; intros [|i] [|j] H; cbn in *; auto; try congruence; apply IH; congruence. Qed.
Lemma set_nth_split {A} (x : A) l1 y l2 : set_nth (length l1) x (l1 ++ y :: l2) = l1 ++ x :: l2.
Proof. induction l1; cbn; congruence. Qed.

Lemma insert_all_snoc hf t ks k :
  insert_all hf t (ks ++ [k]) =
  match insert_all hf t ks with Ret t' => insert hf t' k | Panic => Panic | OutOfFuel => OutOfFuel end.
Proof.
  revert t; induction ks as [|a r IH]; intros t; cbn [insert_all app].
  - destruct (insert hf t k); reflexivity.
  - destruct (insert hf t a); auto.
Qed.

Lemma pairs_snoc hf ks k :
  equal_hash_pairs hf (ks ++ [k]) =
  equal_hash_pairs hf ks + N.of_nat (length (filter (fun k' => hf k' =? hf k) ks)).
Proof.
  induction ks as [|a r IH]; cbn [app equal_hash_pairs filter]; [reflexivity|].
  rewrite IH, filter_app_length. cbn [filter].
  rewrite (N.eqb_sym (hf k) (hf a)). destruct (hf a =? hf k); cbn [length]; lia.
Qed.

Lemma new_table_shape np sz extra oa prime :
  1 <= size (new_table np sz extra oa prime) -> fits 64 (size (new_table np sz extra oa prime)) ->
  table_shape (new_table np sz extra oa prime).
Proof.
  unfold new_table, table_shape. destruct (table_size np sz extra prime) as [lg s].
  cbn [size buckets size_mask]. intros H1 H2. repeat split; auto.
  - apply repeat_length.
  - unfold sub64. rewrite subw_mod. unfold fits in H2. 
    rewrite (N.mod_small 1) by (vm_compute; reflexivity).
    replace (s + (2^64 - 1)) with (s - 1 + 1 * 2^64) by (change (2^64) with 18446744073709551616; lia).
    rewrite N.mod_add by apply pow2_nz. apply N.mod_small. lia.
Qed.
Lemma new_table_fields np sz extra oa prime :
  let t := new_table np sz extra oa prime in
  is_oa t = oa /\ is_prime t = prime /\ st t = zero_stats /\
  buckets t = repeat [] (N.to_nat (size t)).
Proof. cbn. unfold new_table. destruct (table_size np sz extra prime) as [lg s]. cbn. auto. Qed.

Lemma home_lt prime n h : 1 <= n -> home prime n h < n.
Proof.
  intros Hn. unfold home. destruct prime.
  - apply N.mod_lt. lia.
  - assert (N.land h (n - 1) <= n - 1); [|lia].
    rewrite N.land_comm. apply N.ldiff_le. 
    apply N.bits_inj. intro i. rewrite N.ldiff_spec, N.land_spec, N.bits_0.
    destruct (N.testbit (n-1) i), (N.testbit h i); reflexivity.
Qed.
Lemma index_of_home t h : table_shape t -> index_of t h = home (is_prime t) (size t) h.
Proof. intros (H1 & H2 & H3 & H4). unfold index_of, home. now rewrite H4. Qed.

Lemma chain_dups_count hf h chain d :
  chain_dups hf h chain d = d + N.of_nat (length (filter (fun k => hf k =? h) chain)).
Proof.
  revert d; induction chain as [|b r IH]; intros d; cbn [chain_dups filter]; [cbn; lia|].
  rewrite IH. destruct (hf b =? h); cbn [length]; lia.
Qed.

(** ** Chaining *)
Section Chained.
  Variables (hf : key -> N) (prime : bool) (n : N).
  Hypothesis Hn : 1 <= n.
  Hypothesis Hn64 : fits 64 n.

  Definition bucket_of (ks : list key) (i : nat) : list key :=
    filter (fun k => home prime n (hf k) =? N.of_nat i) ks.

  Record InvC (ks : list key) (t : table) : Prop := {
    ic_shape : table_shape t;
    ic_size : size t = n;
    ic_oa : is_oa t = false;
    ic_prime : is_prime t = prime;
    ic_buckets : buckets t = map (bucket_of ks) (seq 0 (N.to_nat n));
    ic_inserts : inserts (st t) = N.of_nat (length ks);
    ic_cols : cols (st t) = 0;
    ic_probes : probes (st t) = N.of_nat (length ks);
    ic_heads : heads (st t) = used_buckets t;
    ic_nbuckets : heads (st t) + nbuckets (st t) = N.of_nat (length ks);
    ic_dups : dups (st t) = equal_hash_pairs hf ks;
    ic_longest : longest (st t) =
        if (2 <=? longest_bucket t)%nat then N.of_nat (longest_bucket t) else 0
  }.

  Lemma bucket_of_snoc ks k i :
    bucket_of (ks ++ [k]) i =
    if home prime n (hf k) =? N.of_nat i then bucket_of ks i ++ [k] else bucket_of ks i.
  Proof.
    unfold bucket_of. rewrite filter_app. cbn [filter].
    destruct (_ =? _); [reflexivity|apply app_nil_r].
  Qed.

  Lemma buckets_snoc ks k :
    let i := N.to_nat (home prime n (hf k)) in
    set_nth i (bucket_of ks i ++ [k]) (map (bucket_of ks) (seq 0 (N.to_nat n)))
    = map (bucket_of (ks ++ [k])) (seq 0 (N.to_nat n)).
  Proof.
    intros i. assert (Hi : (i < N.to_nat n)%nat).
    { pose proof (home_lt prime n (hf k) Hn). unfold i. lia. }
    assert (HiN : home prime n (hf k) = N.of_nat i) by (unfold i; lia).
    clearbody i.
    apply nth_error_ext. intro j.
    destruct (Nat.eq_dec i j) as [->|Hij].
    - rewrite set_nth_same by now rewrite map_length, seq_length.
      rewrite nth_error_map, nth_error_nth' with (d := 0%nat) by now rewrite seq_length.
      rewrite seq_nth by auto. cbn [option_map Nat.add].
      rewrite bucket_of_snoc. replace (home prime n (hf k) =? N.of_nat j) with true; auto.
      symmetry. apply N.eqb_eq. exact HiN.
    - rewrite set_nth_other by auto. rewrite !nth_error_map.
      destruct (nth_error (seq 0 (N.to_nat n)) j) as [m|] eqn:E; [|reflexivity].
      cbn [option_map]. f_equal. rewrite bucket_of_snoc.
      assert (m = j).
      { assert (j < length (seq 0 (N.to_nat n)))%nat by (apply nth_error_Some; congruence).
        rewrite seq_length in *. erewrite nth_error_nth' with (d := 0%nat) in E by now rewrite seq_length.
        rewrite seq_nth in E by auto. cbn in E. congruence. }
      subst. destruct (N.eqb_spec (home prime n (hf k)) (N.of_nat j)); auto.
      lia.
  Qed.

  Lemma used_set t i b b' : nth_error (buckets t) i = Some b -> nonempty b' = true ->
    N.of_nat (length (filter nonempty (set_nth i b' (buckets t)))) =
    used_buckets t + (if nonempty b then 0 else 1).
  Proof.
    intros H Hb'. unfold used_buckets. destruct (nth_error_split _ _ H) as (l1 & l2 & E & HL).
    rewrite E, <- HL, set_nth_split, !filter_app_length. cbn [filter]. rewrite Hb'.
    destruct (nonempty b); cbn [length]; lia.
  Qed.
  Lemma longest_set t i b k : nth_error (buckets t) i = Some b ->
    list_max (map (@length key) (set_nth i (b ++ [k]) (buckets t))) =
    Nat.max (longest_bucket t) (S (length b)).
  Proof.
    intros H. unfold longest_bucket. destruct (nth_error_split _ _ H) as (l1 & l2 & E & HL).
    rewrite E, <- HL, set_nth_split, !map_app, !list_max_app. cbn [map list_max fold_right].
    rewrite app_length. cbn [length]. fold (list_max (map (@length key) l2)).
    change (fold_right Nat.max 0%nat (map (@length key) l2)) with (list_max (map (@length key) l2)).
    lia.
  Qed.

  Lemma bucket_nth ks t i : InvC ks t -> (i < N.to_nat n)%nat ->
    nth_error (buckets t) i = Some (bucket_of ks i).
  Proof.
    intros H Hi. rewrite (ic_buckets _ _ H), nth_error_map,
      nth_error_nth' with (d := 0%nat) by now rewrite seq_length.
    rewrite seq_nth by auto. reflexivity.
  Qed.

  Lemma dups_bucket ks k i : N.of_nat i = home prime n (hf k) ->
    length (filter (fun k' => hf k' =? hf k) (bucket_of ks i)) =
    length (filter (fun k' => hf k' =? hf k) ks).
  Proof.
    intros Hi. unfold bucket_of. rewrite Hi.
    induction ks as [|a r IH]; [reflexivity|]. cbn [filter].
    destruct (N.eqb_spec (hf a) (hf k)) as [E|E].
    - rewrite E, N.eqb_refl. cbn [filter]. rewrite E, N.eqb_refl. cbn [length]. now f_equal.
    - destruct (home prime n (hf a) =? home prime n (hf k)); auto.
      cbn [filter]. destruct (N.eqb_spec (hf a) (hf k)); [contradiction|auto].
  Qed.

  Lemma insert_chained ks t k : InvC ks t ->
    exists t', insert hf t k = Ret t' /\ InvC (ks ++ [k]) t'.
  Proof.
    intros H. pose proof (ic_shape _ _ H) as Hs. pose proof Hs as (S1 & S2 & S3 & S4).
    unfold insert. rewrite (index_of_home _ _ Hs), (ic_size _ _ H), (ic_prime _ _ H).
    replace (prime && (n =? 0)) with false by (destruct (N.eqb_spec n 0); [lia|now rewrite andb_false_r]).
    set (i := N.to_nat (home prime n (hf k))).
    assert (Hi : (i < N.to_nat n)%nat) by (pose proof (home_lt prime n (hf k) Hn); unfold i; lia).
    assert (HiN : N.of_nat i = home prime n (hf k)) by (unfold i; lia).
    pose proof (bucket_nth ks t i H Hi) as Hb.
    unfold enough_fuel. rewrite <- Nat.add_1_r, Nat.add_assoc, Nat.add_1_r.
    cbn [insert_loop with_stats buckets]. rewrite Hb.
    pose proof (buckets_snoc ks k) as HB. cbn zeta in HB. fold i in HB.
    pose proof (longest_set t i _ k Hb) as HL.
    assert (HU := used_set t i _ (bucket_of ks i ++ [k]) Hb).
    assert (nonempty (bucket_of ks i ++ [k]) = true) as HNE by (destruct (bucket_of ks i); reflexivity).
    specialize (HU HNE).
    assert (Hlen : N.of_nat (length (ks ++ [k])) = N.of_nat (length ks) + 1) by (rewrite app_length; cbn [length]; lia).
    pose proof (dups_bucket ks k i HiN) as HD.
    destruct (bucket_of ks i) as [|b0 rest] eqn:Eb.
    - eexists; split; [reflexivity|].
      cbn [app length] in *.
      destruct H; constructor; cbn [with_bucket with_stats buckets size size_mask is_oa is_prime st bump_head
        inserts cols probes heads dups nbuckets longest]; auto.
      + unfold table_shape. cbn [with_bucket with_stats buckets size size_mask]. rewrite set_nth_length. auto.
      + rewrite <- HB. f_equal. assumption.
      + rewrite Hlen. lia.
      + rewrite Hlen. lia.
      + unfold used_buckets at 1. cbn [with_bucket with_stats buckets].
        rewrite HU. rewrite <- ic_heads0. cbn [nonempty]. lia.
      + rewrite Hlen. lia.
      + rewrite pairs_snoc, <- HD. cbn. lia.
      + unfold longest_bucket at 1 2. cbn [with_bucket with_stats buckets].
        rewrite HL. rewrite ic_longest0.
        destruct (longest_bucket t) as [|[|m]] eqn:EL; cbn; auto.
    - cbn [is_oa with_stats]. rewrite (ic_oa _ _ H).
      eexists; split; [reflexivity|].
      rewrite chain_dups_count.
      cbn [app] in *. 
      destruct H; constructor; cbn [with_bucket with_stats buckets size size_mask is_oa is_prime st bump_chain
        inserts cols probes heads dups nbuckets longest]; auto.
      + unfold table_shape. cbn [with_bucket with_stats buckets size size_mask]. rewrite set_nth_length. auto.
      + rewrite <- HB. f_equal. assumption.
      + rewrite Hlen. lia.
      + rewrite Hlen. lia.
      + unfold used_buckets at 1. cbn [with_bucket with_stats buckets].
        rewrite HU. rewrite <- ic_heads0. cbn [nonempty]. lia.
      + rewrite Hlen. lia.
      + rewrite pairs_snoc, HD. lia.
      + unfold longest_bucket at 1 2. cbn [with_bucket with_stats buckets].
        rewrite HL. rewrite ic_longest0. cbn [length]. rewrite app_length. cbn [length].
        rewrite Nat.add_1_r.
        assert (length (b0 :: rest) <= longest_bucket t)%nat as HM.
        { unfold longest_bucket. 
          assert (Hall : Forall (fun m => (m <= list_max (map (@length key) (buckets t)))%nat) (map (@length key) (buckets t))) by (apply list_max_le; lia).
          rewrite Forall_forall in Hall. apply Hall. apply in_map. eapply nth_error_In. exact Hb. }
        cbn [length] in HM.
        destruct (Nat.leb_spec 2 (longest_bucket t)); destruct (Nat.leb_spec 2 (Nat.max (longest_bucket t) (S (S (length rest))))); try lia;
        match goal with |- context [?a <? ?b] => destruct (N.ltb_spec a b) end; lia.
  Qed.

  Lemma empty_buckets_map m : repeat [] m = map (bucket_of []) (seq 0 m).
  Proof.
    apply nth_error_ext. intro i. rewrite nth_error_map.
    destruct (Nat.lt_ge_cases i m).
    - rewrite nth_error_nth' with (d := []) by now rewrite repeat_length.
      rewrite nth_repeat. rewrite (nth_error_nth' (seq 0 m) 0%nat) by now rewrite seq_length.
      reflexivity.
    - rewrite (proj2 (nth_error_None _ _)) by now rewrite repeat_length.
      rewrite (proj2 (nth_error_None _ _)) by now rewrite seq_length. reflexivity.
  Qed.

  Lemma chained_all t0 ks :
    table_shape t0 -> size t0 = n -> is_oa t0 = false -> is_prime t0 = prime ->
    st t0 = zero_stats -> buckets t0 = repeat [] (N.to_nat n) ->
    exists t, insert_all hf t0 ks = Ret t /\ InvC ks t.
  Proof.
    intros. induction ks as [|k ks IH] using rev_ind.
    - exists t0; split; [reflexivity|].
      assert (U : used_buckets t0 = 0).
      { unfold used_buckets. rewrite H4. clear. induction (N.to_nat n); auto. }
      assert (L : longest_bucket t0 = 0%nat).
      { unfold longest_bucket. rewrite H4. clear. induction (N.to_nat n); auto. }
      constructor; auto; rewrite ?H3, ?U, ?L; auto.
      rewrite H4. apply empty_buckets_map.
    - destruct IH as (t & E & HI). rewrite insert_all_snoc, E. now apply insert_chained.
  Qed.
End Chained.

Lemma chained_new np sz extra prime hf ks :
  let t0 := new_table np sz extra false prime in
  1 <= size t0 -> fits 64 (size t0) ->
  exists t, insert_all hf t0 ks = Ret t /\ InvC hf prime (size t0) ks t.
Proof.
  intros t0 H1 H2. pose proof (new_table_shape np sz extra false prime H1 H2) as Hs. fold t0 in Hs.
  destruct (new_table_fields np sz extra false prime) as (F1 & F2 & F3 & F4). fold t0 in F1, F2, F3, F4.
  apply chained_all; auto.
Qed.

Lemma chained_contents_lemma np sz extra prime hf ks :
  let t0 := new_table np sz extra false prime in
  1 <= size t0 -> fits 64 (size t0) ->
  exists t, insert_all hf t0 ks = Ret t /\
    size t = size t0 /\ length (buckets t) = N.to_nat (size t0) /\
    forall i, i < size t0 ->
      nth_error (buckets t) (N.to_nat i) =
      Some (filter (fun k => home prime (size t0) (hf k) =? i) ks).
Proof.
  intros t0 H1 H2. destruct (chained_new np sz extra prime hf ks H1 H2) as (t & E & HI).
  fold t0 in HI. exists t. split; [exact E|]. split; [apply (ic_size _ _ _ _ _ HI)|].
  pose proof (ic_shape _ _ _ _ _ HI) as (_ & _ & HL & _). rewrite (ic_size _ _ _ _ _ HI) in HL.
  split; [exact HL|]. intros i Hi.
  rewrite (bucket_nth hf prime (size t0) ks t (N.to_nat i) HI) by lia.
  unfold bucket_of. now rewrite N2Nat.id.
Qed.
