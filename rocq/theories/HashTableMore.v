(** NextLog2, table sizing, lookups, HashQuality, diff. *)
From Verif Require Import Words WordLemmas ListLemmas HashTableModel HashTableSpec HashTableProofs
  HashTableOA HashTableOA2.
From Coq Require Import ZArith QArith Permutation.
From Coq Require Import ZifyBool ZifyNat ZifyN.
Open Scope N_scope.

(** ** NextLog2 *)
Lemma log2_shr x k : shr x k <> 0 -> N.log2 x = k + N.log2 (shr x k).
Proof.
  intros H. unfold shr in *. rewrite N.log2_shiftr.
  assert (k <= N.log2 x); [|lia].
  destruct (N.le_gt_cases k (N.log2 x)); auto. exfalso. apply H.
  apply N.shiftr_eq_0. auto.
Qed.
Lemma shr_0_lt x k : shr x k = 0 -> x < 2 ^ k.
Proof.
  unfold shr. rewrite N.shiftr_div_pow2. intros H. apply N.div_small_iff in H; auto. apply pow2_nz.
Qed.
Lemma shr_lt x j k : x < 2 ^ (j + k) -> shr x k < 2 ^ j.
Proof. exact (shr_fits' j x k). Qed.

Lemma log2_step k n x (b : N) : x < 2 ^ (2 * k) -> x <> 0 -> n < 2 ^ 31 -> k < 2 ^ 31 ->
  let r := if negb (shr x k =? 0) then (add32 n k, shr x k) else (n, x) in
  snd r < 2 ^ k /\ snd r <> 0 /\ fst r + N.log2 (snd r) = n + N.log2 x /\ fst r <= n + k.
Proof.
  intros Hx H0 Hn Hk. destruct (N.eqb_spec (shr x k) 0) as [E|E]; cbn [negb fst snd].
  - repeat split; auto; [now apply shr_0_lt|lia].
  - repeat split; auto.
    + apply shr_lt. now replace (k + k) with (2 * k) by lia.
    + unfold add32. rewrite addw_mod, N.mod_small by (change (2^32) with (2^31 + 2^31); lia).
      rewrite (log2_shr x k E). lia.
    + unfold add32. rewrite addw_mod. 
      rewrite N.mod_small by (change (2^32) with (2^31 + 2^31); lia). lia.
Qed.

Lemma next_log2_log2_up x : 2 <= x -> x < 2 ^ 32 -> next_log2 x = N.log2_up x.
Proof.
  intros H2 H32. unfold next_log2.
  destruct (N.leb_spec x 1); [lia|].
  assert (E : sub32 x 1 = x - 1).
  { unfold sub32. rewrite subw_mod. rewrite (N.mod_small 1) by (vm_compute; reflexivity).
    replace (x + (2^32 - 1)) with (x - 1 + 1 * 2^32) by (change (2^32) with 4294967296; lia).
    rewrite N.mod_add by apply pow2_nz. apply N.mod_small. lia. }
  rewrite E. rewrite N.log2_up_eqn by lia. rewrite <- N.sub_1_r.
  set (y := x - 1) in *. assert (Hy : y < 2^32) by lia. assert (Hy0 : y <> 0) by lia. clearbody y. clear E.
  pose proof (log2_step 16 0 y 0 Hy Hy0 ltac:(vm_compute; reflexivity) ltac:(vm_compute; reflexivity)) as S1.
  cbn zeta in S1.
  set (r1 := if negb (shr y 16 =? 0) then (add32 0 16, shr y 16) else (0, y)) in *.
  destruct r1 as [n1 x1]. cbn [fst snd] in S1. destruct S1 as (A1 & B1 & C1 & D1).
  pose proof (log2_step 8 n1 x1 0 A1 B1 ltac:(change (2^31) with 2147483648; lia) ltac:(vm_compute; reflexivity)) as S2.
  cbn zeta in S2.
  set (r2 := if negb (shr x1 8 =? 0) then (add32 n1 8, shr x1 8) else (n1, x1)) in *.
  destruct r2 as [n2 x2]. cbn [fst snd] in S2. destruct S2 as (A2 & B2 & C2 & D2).
  pose proof (log2_step 4 n2 x2 0 A2 B2 ltac:(change (2^31) with 2147483648; lia) ltac:(vm_compute; reflexivity)) as S3.
  cbn zeta in S3.
  set (r3 := if negb (shr x2 4 =? 0) then (add32 n2 4, shr x2 4) else (n2, x2)) in *.
  destruct r3 as [n3 x3]. cbn [fst snd] in S3. destruct S3 as (A3 & B3 & C3 & D3).
  pose proof (log2_step 2 n3 x3 0 A3 B3 ltac:(change (2^31) with 2147483648; lia) ltac:(vm_compute; reflexivity)) as S4.
  cbn zeta in S4.
  set (r4 := if negb (shr x3 2 =? 0) then (add32 n3 2, shr x3 2) else (n3, x3)) in *.
  destruct r4 as [n4 x4]. cbn [fst snd] in S4. destruct S4 as (A4 & B4 & C4 & D4).
  assert (Hadd : forall m, m < 100 -> add32 n4 m = n4 + m).
  { intros m Hm. unfold add32. rewrite addw_mod. apply N.mod_small. change (2^32) with 4294967296. lia. }
  assert (x4 = 1 \/ x4 = 2 \/ x4 = 3) as [->|[->| ->]] by (change (2^2) with 4 in A4; lia);
    cbn in C4 |- *; rewrite ?Hadd by lia; cbn in *; lia.
Qed.

Lemma next_log2_least x : 2 <= x -> x < 2 ^ 32 ->
  x <= 2 ^ next_log2 x /\ forall m, x <= 2 ^ m -> next_log2 x <= m.
Proof.
  intros H2 H32. rewrite next_log2_log2_up by auto. split.
  - apply N.log2_up_spec. lia.
  - intros m Hm. now apply N.log2_up_le_pow2; [lia|].
Qed.
Lemma next_log2_le32 x : x < 2 ^ 32 -> next_log2 x <= 32.
Proof.
  intros H. destruct (N.lt_ge_cases x 2) as [A|A].
  - assert (x = 0 \/ x = 1) as [-> | ->] by lia; vm_compute; discriminate.
  - apply next_log2_least; auto. lia.
Qed.

(** ** Sizing *)
Lemma int_to_u32_small z : (0 <= z < 2 ^ 32)%Z -> int_to_u32 z = Z.to_N z.
Proof. intros. unfold int_to_u32. now rewrite Z.mod_small. Qed.

Lemma pow_shl64 k : k < 64 -> shl64 1 k = 2 ^ k.
Proof.
  intros H. unfold shl64, shlw. rewrite N.shiftl_1_l. apply wrap_small. unfold fits.
  apply N.pow_lt_mono_r; lia.
Qed.

Lemma table_size_pow2 np sz extra oa :
  (0 < sz < 2 ^ 32)%Z -> (0 <= extra)%Z -> (Z.of_N (next_log2 (Z.to_N sz)) + extra < 64)%Z ->
  let t := new_table np sz extra oa false in
  exists k, size t = 2 ^ k /\ k < 64 /\ size_log2 t = k /\
            Z.to_N sz * 2 ^ Z.to_N extra <= size t /\
            (forall m, Z.to_N sz <= 2 ^ m -> 2 <= Z.to_N sz -> size t <= 2 ^ (m + Z.to_N extra)).
Proof.
  intros Hs He Hk t. subst t. unfold new_table, table_size.
  destruct (Z.ltb_spec sz 0); [lia|].
  rewrite int_to_u32_small by lia.
  rewrite int_to_u32_small by (pose proof (N2Z.is_nonneg (next_log2 (Z.to_N sz))); lia).
  set (l := next_log2 (Z.to_N sz)) in *.
  assert (A : add32 l (Z.to_N extra) = l + Z.to_N extra).
  { unfold add32. rewrite addw_mod. apply N.mod_small. change (2^32) with 4294967296. lia. }
  rewrite A. cbn [size size_log2]. rewrite pow_shl64 by lia.
  exists (l + Z.to_N extra). repeat split; try lia.
  - rewrite N.pow_add_r. apply N.mul_le_mono_r.
    destruct (N.lt_ge_cases (Z.to_N sz) 2) as [B|B].
    + assert (E : Z.to_N sz = 1) by lia. unfold l. rewrite E. vm_compute. discriminate.
    + apply next_log2_least; auto. lia.
  - intros m Hm H2. apply N.pow_le_mono_r; [lia|].
    pose proof (proj2 (next_log2_least (Z.to_N sz) H2 ltac:(lia)) m Hm). fold l in H0. lia.
Qed.

Lemma table_size_neg np sz extra oa : (- 2 ^ 63 <= sz < 0)%Z ->
  size (new_table np sz extra oa false) = Z.to_N (- sz).
Proof.
  intros H. unfold new_table, table_size. destruct (Z.ltb_spec sz 0); [|lia].
  cbn [size]. unfold int_to_u64. rewrite Z.mod_small; [reflexivity|].
  change (2^64)%Z with (2 * 2 ^ 63)%Z. lia.
Qed.

Lemma mask_hole n : 1 <= n -> (forall k, n <> 2 ^ k) ->
  exists i, i < n /\ forall h, home false n h <> i.
Proof.
  intros Hn Hp. set (m := n - 1).
  assert (Hm : exists b, b < N.log2 m /\ N.testbit m b = false).
  { destruct (N.eq_dec m 0) as [E|E].
    { exfalso. apply (Hp 0). cbn. lia. }
    assert (Hex : forall j : nat, (forall b, b < N.of_nat j -> N.testbit m b = true) \/
                             (exists b, b < N.of_nat j /\ N.testbit m b = false)).
    { induction j as [|j [IH|(b & B1 & B2)]].
      - left. intros b Hb. lia.
      - destruct (N.testbit m (N.of_nat j)) eqn:T.
        + left. intros b Hb. destruct (N.eq_dec b (N.of_nat j)) as [->|]; auto. apply IH. lia.
        + right. exists (N.of_nat j). split; [lia|auto].
      - right. exists b. split; [lia|auto]. }
    destruct (Hex (N.to_nat (N.log2 m))) as [A|(b & B1 & B2)].
    - exfalso. apply (Hp (N.log2 m + 1)).
      assert (m = N.ones (N.log2 m + 1)).
      { apply N.bits_inj. intro i. destruct (N.lt_trichotomy i (N.log2 m)) as [L|[->|L]].
        - rewrite N.ones_spec_low by lia. apply A. lia.
        - rewrite N.ones_spec_low by lia. now apply N.bit_log2.
        - rewrite N.ones_spec_high by lia. now apply N.bits_above_log2. }
      rewrite ones_pred in H. pose proof (pow2_pos (N.log2 m + 1)). lia.
    - exists b. split; auto. lia. }
  destruct Hm as (b & Hb & Ht). exists (2 ^ b). split.
  - assert (m <> 0) by (intros E; rewrite E in Hb; cbn in Hb; lia).
    pose proof (proj1 (N.log2_spec m ltac:(lia))) as L.
    assert (2 ^ b < 2 ^ N.log2 m) by (apply N.pow_lt_mono_r; lia). lia.
  - intros h E. unfold home in E. fold m in E.
    assert (T : N.testbit (N.land h m) b = true) by (rewrite E; apply N.pow2_bits_true).
    rewrite N.land_spec, Ht, andb_false_r in T. discriminate.
Qed.

Lemma pow2_all_selected k i : i < 2 ^ k -> home false (2 ^ k) i = i.
Proof.
  intros H. unfold home. rewrite <- ones_pred. fold (wrap k i). now apply wrap_small.
Qed.

Lemma insert_empty_table hf t k : buckets t = [] -> insert hf t k = Panic.
Proof.
  intros H. unfold insert. destruct (is_prime t && (size t =? 0)); auto.
  unfold enough_fuel. rewrite H. cbn [length Nat.mul Nat.add insert_loop with_stats buckets].
  rewrite H. now rewrite (proj2 (nth_error_None [] _)) by (cbn; lia).
Qed.

(** ** Lookup after open addressing *)
Lemma mod_to_nat a b : b <> 0 -> N.to_nat (a mod b) = (N.to_nat a mod N.to_nat b)%nat.
Proof. intros. apply N2Nat.inj_mod. Qed.

Lemma lookup_from t k : forall d i f,
  (N.to_nat d < f)%nat -> size t <> 0 ->
  nth_error (buckets t) (N.to_nat ((i + d) mod size t)) = Some [k] ->
  (forall e, e < d -> occupied t ((i + e) mod size t)) ->
  lookup f t i k = true.
Proof.
  intros d. induction d as [|d IH] using N.peano_ind; intros i f Hf Hs Hk Ho.
  - destruct f; [lia|]. cbn [lookup]. rewrite N.add_0_r in Hk. rewrite Hk.
    destruct (list_eq_dec N.eq_dec k k); congruence.
  - destruct f; [lia|]. cbn [lookup].
    destruct (Ho 0 ltac:(lia)) as (b & r & Hb). rewrite N.add_0_r in Hb. rewrite Hb.
    destruct (list_eq_dec N.eq_dec b k); auto.
    apply IH; auto; [lia| |].
    + now replace (i + 1 + d) with (i + N.succ d) by lia.
    + intros e He. replace (i + 1 + e) with (i + (e + 1)) by lia. apply Ho. lia.
Qed.
Lemma lookup_sound t k : forall f i, lookup f t i k = true -> In k (concat (buckets t)).
Proof.
  induction f as [|f IH]; intros i H; [discriminate|]. cbn [lookup] in H.
  destruct (nth_error _ _) as [[|b r]|] eqn:E; try discriminate.
  destruct (list_eq_dec N.eq_dec b k) as [->|]; [|eauto].
  apply in_concat. exists (k :: r). split; [eapply nth_error_In; eauto|now left].
Qed.

Lemma path_reachable hf prime n ks t i k : (1 <= n)%nat -> InvO hf prime n ks t ->
  nth_error (buckets t) i = Some [k] -> reachable t (home prime (size t) (hf k)) k.
Proof.
  intros Hn H Hi. destruct (io_path _ _ _ _ _ H _ _ Hi) as (d & D1 & D2 & D3).
  rewrite (io_size _ _ _ _ _ H). unfold hm in *. set (h := home prime (N.of_nat n) (hf k)) in *.
  assert (Hsz : size t <> 0) by (rewrite (io_size _ _ _ _ _ H); lia).
  assert (M : forall e, N.to_nat ((h + N.of_nat e) mod size t) = ((N.to_nat h + e) mod n)%nat).
  { intros e. rewrite mod_to_nat by auto. rewrite (io_size _ _ _ _ _ H), Nat2N.id.
    now rewrite N2Nat.inj_add, Nat2N.id. }
  exists (N.of_nat d). rewrite M. repeat split.
  - rewrite (io_size _ _ _ _ _ H). lia.
  - now rewrite <- D2.
  - intros e He. unfold occupied. rewrite <- (N2Nat.id e), M.
    destruct (D3 (N.to_nat e) ltac:(lia)) as (b & B1 & B2).
    destruct b as [|x r]; [discriminate|]. eauto.
Qed.

Lemma in_concat_single (bs : list (list key)) k : Forall (fun b => length b <= 1)%nat bs ->
  In k (concat bs) -> exists i, nth_error bs i = Some [k].
Proof.
  intros Hs Hk. apply in_concat in Hk. destruct Hk as (b & Hb & Hkb).
  rewrite Forall_forall in Hs. specialize (Hs _ Hb).
  destruct b as [|x [|y r]]; cbn in *; try lia; try contradiction.
  destruct Hkb as [->|[]]. now apply In_nth_error.
Qed.

Lemma oa_contents_lemma np sz extra prime hf ks :
  let t0 := new_table np sz extra true prime in
  1 <= size t0 -> fits 64 (size t0) -> N.of_nat (length ks) <= size t0 ->
  exists t, insert_all hf t0 ks = Ret t /\ size t = size t0 /\
    length (buckets t) = N.to_nat (size t0) /\
    Forall (fun b => length b <= 1)%nat (buckets t) /\
    Permutation (concat (buckets t)) ks /\
    (forall k, In k ks -> reachable t (home prime (size t) (hf k)) k) /\
    (forall k, lookup (N.to_nat (size t)) t (home prime (size t) (hf k)) k = true <-> In k ks).
Proof.
  intros t0 H1 H2 H3. pose proof (oa_new np sz extra prime hf ks H1 H2) as H.
  fold t0 in H. destruct (N.leb_spec (N.of_nat (length ks)) (size t0)); [|lia].
  destruct H as (t & E & HI). exists t. split; auto.
  assert (Hsz : size t = size t0) by (rewrite (io_size _ _ _ _ _ HI); lia).
  assert (HR : forall k, In k ks -> reachable t (home prime (size t) (hf k)) k).
  { intros k Hk. apply (Permutation_in _ (Permutation_sym (io_perm _ _ _ _ _ HI))) in Hk.
    destruct (in_concat_single _ _ (io_single _ _ _ _ _ HI) Hk) as [i Hi].
    apply (path_reachable hf prime (N.to_nat (size t0)) ks t i k ltac:(lia) HI Hi). }
  repeat split; auto.
  - destruct (io_shape _ _ _ _ _ HI) as (_ & _ & L & _). now rewrite L, Hsz.
  - apply (io_single _ _ _ _ _ HI).
  - apply (io_perm _ _ _ _ _ HI).
  - intros L. apply lookup_sound in L. eapply Permutation_in; [apply (io_perm _ _ _ _ _ HI)|exact L].
  - intros Hk. destruct (HR k Hk) as (d & D1 & D2 & D3).
    eapply lookup_from; eauto; lia.
Qed.

(** C03: one insert from any state of that shape, reachable or not. *)
Lemma oa_insert_iff hf t k : table_shape t -> is_oa t = true ->
  ((exists i, i < size t /\ free_slot t i) <-> exists t', insert hf t k = Ret t') /\
  (insert hf t k = Panic <-> forall i, i < size t -> occupied t i) /\
  insert hf t k <> OutOfFuel /\
  (forall t', insert hf t k = Ret t' ->
     exists i, i < size t /\ free_slot t i /\
       nth_error (buckets t') (N.to_nat i) = Some [k] /\
       forall j, j <> i -> nth_error (buckets t') (N.to_nat j) = nth_error (buckets t) (N.to_nat j)).
Proof.
  intros Hs Hoa. pose proof Hs as (S1 & S2 & S3 & S4).
  pose proof (home_nat_lt hf t k Hs) as Hh.
  destruct (oa_insert_cases hf t k Hs Hoa) as [(V & R & E & Ho & Ei)|[Ho Ei]].
  - set (j := ((home_nat hf t k + length V) mod length (buckets t))%nat) in *.
    assert (Hj : (j < length (buckets t))%nat) by (apply Nat.mod_upper_bound; lia).
    assert (HV : (length V < length (buckets t))%nat).
    { rewrite <- (rot_length (home_nat hf t k) (buckets t)), E, app_length. cbn. lia. }
    assert (Hf : nth_error (buckets t) j = Some []).
    { unfold j. rewrite <- nth_error_rot by auto.
      rewrite E, nth_error_app2, Nat.sub_diag by lia. reflexivity. }
    assert (Hfree : free_slot t (N.of_nat j)) by (unfold free_slot; now rewrite Nat2N.id).
    rewrite Ei. repeat split.
    + intros _. eauto.
    + intros _. exists (N.of_nat j). split; [lia|auto].
    + discriminate.
    + intros H. destruct (H (N.of_nat j) ltac:(lia)) as (x & r & Hx). unfold free_slot in Hfree. congruence.
    + discriminate.
    + intros t' Et. injection Et as <-. exists (N.of_nat j). repeat split; auto; [lia| |].
      * cbn [with_bucket buckets]. rewrite Nat2N.id. now apply set_nth_same.
      * intros j' Hj'. cbn [with_bucket buckets]. apply set_nth_other. lia.
  - rewrite Ei. 
    assert (Hocc : forall i, i < size t -> occupied t i).
    { intros i Hi. unfold occupied. destruct (nth_error (buckets t) (N.to_nat i)) as [[|x r]|] eqn:En.
      - unfold all_occ in Ho. rewrite Forall_forall in Ho. apply nth_error_In, Ho in En. discriminate.
      - eauto.
      - apply nth_error_None in En. lia. }
    repeat split; auto; try discriminate.
    + intros (i & Hi & Hf). destruct (Hocc i Hi) as (x & r & Hx). unfold free_slot in Hf. congruence.
    + intros (t' & Et). discriminate.
Qed.

(** ** HashQuality *)
Lemma quality_fold l : forall a,
  fold_left (fun acc (v : list key) => match v with [] => acc
     | _ => acc + N.of_nat (length v) * (N.of_nat (length v) + 1) end) l a =
  a + sum_N (map (fun v => N.of_nat (length v) * (N.of_nat (length v) + 1)) l).
Proof.
  induction l as [|v l IH]; intros a; cbn [fold_left map sum_N fold_right]; [lia|].
  rewrite IH. destruct v; cbn [length]; unfold sum_N; lia.
Qed.

Lemma sum_set_nth (f : list key -> N) bs i b b' : nth_error bs i = Some b ->
  sum_N (map f (set_nth i b' bs)) + f b = sum_N (map f bs) + f b'.
Proof.
  intros H. destruct (nth_error_split _ _ H) as (l1 & l2 & -> & <-).
  rewrite set_nth_split, !map_app. unfold sum_N. cbn [map].
  assert (G : forall a c, fold_right N.add 0 (a ++ c) = fold_right N.add 0 a + fold_right N.add 0 c).
  { intros a c; induction a; cbn [fold_right app]; lia. }
  rewrite !G. cbn [fold_right]. lia.
Qed.

Lemma bucket_squares hf prime n : 1 <= n -> forall ks,
  sum_N (map (fun v : list key => N.of_nat (length v) * (N.of_nat (length v) + 1))
             (map (bucket_of hf prime n ks) (seq 0 (N.to_nat n)))) =
  2 * (N.of_nat (length ks) + same_bucket_pairs prime n hf ks).
Proof.
  intros Hn. induction ks as [|k ks IH] using rev_ind.
  - cbn [length same_bucket_pairs equal_hash_pairs]. unfold same_bucket_pairs, equal_hash_pairs.
    cbn [bucket_of filter]. generalize (seq 0 (N.to_nat n)) as l. induction l; cbn; auto.
  - set (i := N.to_nat (home prime n (hf k))).
    assert (Hi : (i < N.to_nat n)%nat) by (pose proof (home_lt prime n (hf k) Hn); unfold i; lia).
    rewrite <- (buckets_snoc hf prime n Hn ks k). fold i.
    set (bs := map (bucket_of hf prime n ks) (seq 0 (N.to_nat n))) in *.
    assert (Hb : nth_error bs i = Some (bucket_of hf prime n ks i)).
    { unfold bs. rewrite nth_error_map, nth_error_nth' with (d := 0%nat) by now rewrite seq_length.
      rewrite seq_nth by auto. reflexivity. }
    pose proof (sum_set_nth (fun v : list key => N.of_nat (length v) * (N.of_nat (length v) + 1)) bs i _ (bucket_of hf prime n ks i ++ [k]) Hb) as S.
    cbv beta in S. rewrite IH in S. rewrite app_length in S. cbn [length] in S.
    unfold same_bucket_pairs in *. rewrite pairs_snoc, app_length. cbn [length].
    assert (L : length (filter (fun k' => home prime n (hf k') =? home prime n (hf k)) ks) =
                length (bucket_of hf prime n ks i)).
    { unfold bucket_of, i. now rewrite N2Nat.id. }
    rewrite L. nia.
Qed.

Lemma quality_lemma np sz extra prime hf ks t :
  let t0 := new_table np sz extra false prime in
  1 <= size t0 -> fits 64 (size t0) -> ks <> [] ->
  insert_all hf t0 ks = Ret t ->
  let n := Z.of_nat (length ks) in
  let m := Z.of_N (size t0) in
  (hash_quality t ==
   inject_Z (m * 2 * (n + Z.of_N (same_bucket_pairs prime (size t0) hf ks)))
   / inject_Z (n * (n + 2 * m - 1)))%Q.
Proof.
  intros t0 H1 H2 Hks E n m. destruct (chained_new np sz extra prime hf ks H1 H2) as (t' & E' & HI).
  fold t0 in E', HI. rewrite E in E'. injection E' as <-.
  unfold hash_quality. rewrite (ic_inserts _ _ _ _ _ HI), (ic_size _ _ _ _ _ HI).
  destruct (N.eqb_spec (N.of_nat (length ks)) 0) as [Z0|Z0].
  { destruct ks; [congruence|cbn in Z0; lia]. }
  rewrite quality_fold, (ic_buckets _ _ _ _ _ HI), (bucket_squares hf prime (size t0) H1).
  apply Qmult_comp.
  - unfold inject_Z. cbn [Qeq]. f_equal. unfold n, m.
    unfold Qeq. cbn [Qnum Qden]. rewrite !Z.mul_1_r. lia.
  - apply Qinv_comp. unfold inject_Z, Qeq. cbn [Qnum Qden]. rewrite !Z.mul_1_r. unfold n, m.
    assert (1 <= N.of_nat (length ks)) by lia. nia.
Qed.

(** ** diff *)
Lemma nibble_tabs four : four < 16 -> exists z o,
  nth_error zeros_tab (N.to_nat four) = Some z /\ nth_error ones_tab (N.to_nat four) = Some o /\
  z + o = 4 /\ o = popcount 4 four.
Proof.
  intros H.
  assert (A : forallb (fun i => match nth_error zeros_tab i, nth_error ones_tab i with
     | Some z, Some o => (z + o =? 4) && (o =? popcount 4 (N.of_nat i)) | _, _ => false end) (seq 0 16) = true)
    by (vm_compute; reflexivity).
  rewrite forallb_forall in A. specialize (A (N.to_nat four)).
  assert (I : In (N.to_nat four) (seq 0 16)) by (apply in_seq; lia). specialize (A I).
  destruct (nth_error zeros_tab (N.to_nat four)) as [z|]; [|discriminate].
  destruct (nth_error ones_tab (N.to_nat four)) as [o|]; [|discriminate].
  apply andb_true_iff in A. destruct A as [A B]. rewrite N2Nat.id in B.
  exists z, o. repeat split; now apply N.eqb_eq.
Qed.
Lemma popcount_ext n x y : (forall i, i < N.of_nat n -> N.testbit x i = N.testbit y i) ->
  popcount n x = popcount n y.
Proof.
  induction n as [|n IH]; intros H; cbn [popcount]; auto.
  rewrite (H (N.of_nat n)) by lia. rewrite IH; auto. intros i Hi. apply H. lia.
Qed.
Lemma popcount_split a b x : popcount (a + b) x = popcount a (shr x (N.of_nat b)) + popcount b x.
Proof.
  induction a as [|a IH]; cbn [Nat.add popcount]; [reflexivity|].
  rewrite IH, shr_testbit. replace (N.of_nat (a + b)) with (N.of_nat a + N.of_nat b) by lia. lia.
Qed.
Lemma diff_loop_spec n : forall d z o,
  exists z' o', diff_loop n d z o = Some (z', o') /\ o' = o + popcount (4 * n) d /\
    z' + o' = z + o + 4 * N.of_nat n.
Proof.
  induction n as [|n IH]; intros d z o.
  - exists z, o. cbn. repeat split; lia.
  - cbn [diff_loop].
    assert (F : N.land d 15 < 16) by (change 15 with (N.ones 4); rewrite N.land_ones; now apply N.mod_lt).
    destruct (nibble_tabs _ F) as (a & b & A & B & C & D). rewrite A, B. cbn [obind].
    destruct (IH (shr d 4) (z + a) (o + b)) as (z' & o' & E & E1 & E2).
    exists z', o'. repeat split; auto; [|lia].
    rewrite E1. replace (4 * S n)%nat with (4 * n + 4)%nat by lia.
    rewrite popcount_split. change (N.of_nat 4) with 4.
    rewrite D. rewrite (popcount_ext 4 (N.land d 15) d); [lia|].
    intros i Hi. rewrite N.land_spec. change 15 with (N.ones 4).
    rewrite N.ones_spec_low by lia. apply andb_true_r.
Qed.
Lemma diff_lemma d : diff d = Some (64 - popcount 64 d, popcount 64 d).
Proof.
  unfold diff. destruct (diff_loop_spec 16 d 0 0) as (z & o & E & E1 & E2). rewrite E. cbn [obind].
  cbn [N.add] in *. change (4 * 16)%nat with 64%nat in E1.
  destruct (N.eqb_spec (z + o) 64); [|lia]. f_equal. f_equal; lia.
Qed.

(** ** Corollaries in the form of the property file *)
Lemma oa_history_lemma np sz extra prime (hf : key -> N) ks :
  let t0 := new_table np sz extra true prime in
  1 <= size t0 -> fits 64 (size t0) ->
  ((exists t, insert_all hf t0 ks = Ret t) <-> N.of_nat (length ks) <= size t0) /\
  (insert_all hf t0 ks = Panic <-> size t0 < N.of_nat (length ks)).
Proof.
  intros t0 H1 H2. pose proof (oa_new np sz extra prime hf ks H1 H2) as H. fold t0 in H.
  destruct (N.leb_spec (N.of_nat (length ks)) (size t0)) as [L|L].
  - destruct H as (t & E & _). rewrite E. repeat split; try lia; try discriminate. eauto.
  - rewrite H. repeat split; try lia; auto. intros (t & E). discriminate.
Qed.

Lemma oa_inv np sz extra prime (hf : key -> N) ks t :
  let t0 := new_table np sz extra true prime in
  1 <= size t0 -> fits 64 (size t0) -> insert_all hf t0 ks = Ret t ->
  InvO hf prime (N.to_nat (size t0)) ks t.
Proof.
  intros t0 H1 H2 E. pose proof (oa_new np sz extra prime hf ks H1 H2) as H. fold t0 in H.
  destruct (N.leb_spec (N.of_nat (length ks)) (size t0)) as [L|L]; [|congruence].
  destruct H as (t' & E' & HI). rewrite E in E'. injection E' as ->. exact HI.
Qed.
Lemma chained_inv np sz extra prime (hf : key -> N) ks t :
  let t0 := new_table np sz extra false prime in
  1 <= size t0 -> fits 64 (size t0) -> insert_all hf t0 ks = Ret t ->
  InvC hf prime (size t0) ks t.
Proof.
  intros t0 H1 H2 E. destruct (chained_new np sz extra prime hf ks H1 H2) as (t' & E' & HI).
  fold t0 in E', HI. rewrite E in E'. injection E' as ->. exact HI.
Qed.

Lemma stats_chained_lemma np sz extra prime (hf : key -> N) ks t :
  let t0 := new_table np sz extra false prime in
  1 <= size t0 -> fits 64 (size t0) -> insert_all hf t0 ks = Ret t ->
  inserts (st t) = N.of_nat (length ks) /\
  heads (st t) = used_buckets t /\
  heads (st t) + nbuckets (st t) = inserts (st t) /\
  probes (st t) = inserts (st t) /\ cols (st t) = 0.
Proof.
  intros t0 H1 H2 E. destruct (chained_inv np sz extra prime hf ks t H1 H2 E).
  repeat split; congruence.
Qed.
Lemma stats_oa_lemma np sz extra prime (hf : key -> N) ks t :
  let t0 := new_table np sz extra true prime in
  1 <= size t0 -> fits 64 (size t0) -> insert_all hf t0 ks = Ret t ->
  inserts (st t) = N.of_nat (length ks) /\
  heads (st t) = inserts (st t) /\ used_buckets t = inserts (st t) /\
  nbuckets (st t) = 0 /\
  let ds := displacements prime (size t0) hf 0 (buckets t) in
  probes (st t) = inserts (st t) + N.of_nat (length (filter (fun d => negb (d =? 0)) ds)) /\
  cols (st t) = sum_N (map (fun d => d - 1) ds).
Proof.
  intros t0 H1 H2 E. destruct (oa_inv np sz extra prime hf ks t H1 H2 E).
  rewrite io_inserts. unfold sum_pred, count_nz in *. fold t0 in io_probes_eq, io_cols.
  rewrite N2Nat.id in io_probes_eq, io_cols. cbv zeta. auto 10.
Qed.
Lemma dups_lemma np sz extra oa prime (hf : key -> N) ks t :
  let t0 := new_table np sz extra oa prime in
  1 <= size t0 -> fits 64 (size t0) -> insert_all hf t0 ks = Ret t ->
  dups (st t) = equal_hash_pairs hf ks.
Proof.
  intros t0 H1 H2 E. destruct oa.
  - apply (io_dups _ _ _ _ _ (oa_inv np sz extra prime hf ks t H1 H2 E)).
  - apply (ic_dups _ _ _ _ _ (chained_inv np sz extra prime hf ks t H1 H2 E)).
Qed.
Lemma longest_chained_lemma np sz extra prime (hf : key -> N) ks t :
  let t0 := new_table np sz extra false prime in
  1 <= size t0 -> fits 64 (size t0) -> insert_all hf t0 ks = Ret t ->
  longest (st t) = if (2 <=? longest_bucket t)%nat then N.of_nat (longest_bucket t) else 0.
Proof.
  intros t0 H1 H2 E. apply (ic_longest _ _ _ _ _ (chained_inv np sz extra prime hf ks t H1 H2 E)).
Qed.
Lemma longest_oa_lemma np sz extra prime (hf : key -> N) ks t :
  let t0 := new_table np sz extra true prime in
  1 <= size t0 -> fits 64 (size t0) -> insert_all hf t0 ks = Ret t ->
  longest (st t) = 0.
Proof.
  intros t0 H1 H2 E. apply (io_longest _ _ _ _ _ (oa_inv np sz extra prime hf ks t H1 H2 E)).
Qed.
Lemma longest_refuted_lemma {np : N -> N} : exists sz extra hf ks t,
  insert_all hf (new_table np sz extra false false) ks = Ret t /\
  longest (st t) <> N.of_nat (longest_bucket t).
Proof.
  exists 4%Z, 0%Z, (fun _ => 3), [[1]]. eexists. split; [vm_compute; reflexivity|]. vm_compute. discriminate.
Qed.
Lemma index_in_range_lemma t h : table_shape t -> index_of t h < size t.
Proof. intros H. rewrite index_of_home by auto. apply home_lt. apply H. Qed.
Lemma unreachable_bucket_lemma t : table_shape t -> is_prime t = false ->
  ((exists i, i < size t /\ forall h, index_of t h <> i) <-> (forall k, size t <> 2 ^ k)).
Proof.
  intros H Hp. split.
  - intros (i & Hi & Hno) k Hk. apply (Hno i). rewrite index_of_home, Hp, Hk by auto.
    apply pow2_all_selected. now rewrite <- Hk.
  - intros Hk. destruct (mask_hole (size t) (proj1 H) Hk) as (i & Hi & Hno).
    exists i. split; auto. intros h. rewrite index_of_home, Hp by auto. apply Hno.
Qed.
Lemma table_size_prime np np' sz extra oa oa' :
  size (new_table np sz extra oa true) = np (size (new_table np' sz extra oa' false)).
Proof. unfold new_table, table_size. destruct (sz <? 0)%Z; reflexivity. Qed.
