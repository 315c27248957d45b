(** Proofs about open addressing in HashTableModel.v. *)
From Verif Require Import Words WordLemmas ListLemmas HashTableModel HashTableSpec HashTableProofs.
From Coq Require Import ZArith Permutation.
From Coq Require Import ZifyBool ZifyNat ZifyN.
Open Scope N_scope.

(** Counters after walking over the occupied slots [l]. *)
Fixpoint walk (hf : key -> N) (h : N) (l : list (list key)) (cnt : N) (s : stats) : stats :=
  match l with
  | [] => s
  | [] :: r => walk hf h r cnt s
  | (b0 :: _) :: r => walk hf h r (cnt + 1) (bump_oa cnt (hf b0 =? h) s)
  end.

Definition all_occ (l : list (list key)) : Prop := Forall (fun b => nonempty b = true) l.

Lemma with_stats_twice t s s' : with_stats (with_stats t s) s' = with_stats t s'.
Proof. reflexivity. Qed.
Lemma with_stats_id t : with_stats t (st t) = t.
Proof. now destruct t. Qed.

Lemma size_pred t : table_shape t -> sub64 (size t) 1 = size t - 1.
Proof.
  intros (H1 & H2 & _). unfold sub64. rewrite subw_mod. unfold fits in H2.
  rewrite (N.mod_small 1) by (vm_compute; reflexivity).
  replace (size t + (2^64 - 1)) with (size t - 1 + 1 * 2^64) by (change (2^64) with 18446744073709551616; lia).
  rewrite N.mod_add by apply pow2_nz. apply N.mod_small. lia.
Qed.
Lemma shape_with_stats t s : table_shape t -> table_shape (with_stats t s).
Proof. intros H; exact H. Qed.

Lemma loop_seg hf k h f pass V : forall t idx cnt x rest,
  table_shape t -> is_oa t = true ->
  skipn idx (buckets t) = V ++ x :: rest -> all_occ V ->
  insert_loop (length V + f) hf k h t idx cnt pass =
  insert_loop f hf k h (with_stats t (walk hf h V cnt (st t))) (idx + length V) (cnt + N.of_nat (length V)) pass.
Proof.
  induction V as [|v V IH]; intros t idx cnt x rest Hs Hoa Hk Hocc.
  - cbn [length walk Nat.add]. rewrite with_stats_id, Nat.add_0_r. now rewrite N.add_0_r.
  - inversion Hocc as [|? ? Hv HV]; subst. cbn [length Nat.add insert_loop].
    assert (Hnth : nth_error (buckets t) idx = Some v).
    { rewrite <- (Nat.add_0_r idx), <- nth_error_skipn, Hk. reflexivity. }
    rewrite Hnth. destruct v as [|b0 r0]; [discriminate|]. rewrite Hoa.
    pose proof (skipn_nth_cons _ _ _ Hnth) as Hc. rewrite Hk in Hc. cbn [app] in Hc.
    assert (Hc' : V ++ x :: rest = skipn (S idx) (buckets t)) by congruence. clear Hc.
    assert (length (skipn (S idx) (buckets t)) >= 1)%nat as Hlen by (rewrite <- Hc', app_length; cbn; lia).
    rewrite skipn_length in Hlen.
    rewrite (size_pred t Hs). pose proof Hs as (H1 & H2 & H3 & H4).
    destruct (N.ltb_spec (size t - 1) (N.of_nat (S idx))) as [Hlt|Hge]; [lia|].
    rewrite (IH (with_stats t (bump_oa cnt (hf b0 =? h) (st t))) (S idx) (cnt + 1) x rest); auto.
    cbn [walk with_stats st]. rewrite with_stats_twice.
    f_equal; lia.
Qed.

Lemma loop_wrap hf k h f pass V : forall t idx cnt,
  table_shape t -> is_oa t = true -> V <> [] ->
  skipn idx (buckets t) = V -> all_occ V ->
  insert_loop (length V + f) hf k h t idx cnt pass =
  if 1 <? pass + 1 then Panic else
  insert_loop f hf k h (with_stats t (walk hf h V cnt (st t))) 0 (cnt + N.of_nat (length V)) (pass + 1).
Proof.
  induction V as [|v V IH]; intros t idx cnt Hs Hoa HV0 Hk Hocc; [congruence|].
  inversion Hocc as [|? ? Hv HV]; subst. cbn [length Nat.add insert_loop].
  assert (Hnth : nth_error (buckets t) idx = Some v).
  { rewrite <- (Nat.add_0_r idx), <- nth_error_skipn, Hk. reflexivity. }
  rewrite Hnth. destruct v as [|b0 r0]; [discriminate|]. rewrite Hoa.
  pose proof (skipn_nth_cons _ _ _ Hnth) as Hc. rewrite Hk in Hc.
  assert (Hc' : V = skipn (S idx) (buckets t)) by congruence. clear Hc.
  rewrite (size_pred t Hs). pose proof Hs as (H1 & H2 & H3 & H4).
  destruct V as [|v2 V2].
  - assert (length (skipn (S idx) (buckets t)) = 0)%nat as Hlen by (now rewrite <- Hc').
    rewrite skipn_length in Hlen.
    destruct (N.ltb_spec (size t - 1) (N.of_nat (S idx))) as [Hlt|Hge]; [|lia].
    destruct (N.ltb_spec 1 (pass + 1)); [reflexivity|]. cbn [walk length Nat.add].
    f_equal; lia.
  - assert (length (skipn (S idx) (buckets t)) >= 1)%nat as Hlen by (rewrite <- Hc'; cbn; lia).
    rewrite skipn_length in Hlen.
    destruct (N.ltb_spec (size t - 1) (N.of_nat (S idx))) as [Hlt|Hge]; [lia|].
    rewrite (IH (with_stats t (bump_oa cnt (hf b0 =? h) (st t))) (S idx) (cnt + 1)); auto; try congruence.
    destruct (N.ltb_spec 1 (pass + 1)); [reflexivity|].
    cbn [st with_stats]. rewrite with_stats_twice. 
    change (walk hf h ((b0 :: r0) :: v2 :: V2) cnt (st t)) with (walk hf h (v2 :: V2) (cnt+1) (bump_oa cnt (hf b0 =? h) (st t))).
    f_equal; cbn [length]; lia.
Qed.

Lemma walk_app hf h l1 : forall l2 cnt s, all_occ l1 ->
  walk hf h (l1 ++ l2) cnt s = walk hf h l2 (cnt + N.of_nat (length l1)) (walk hf h l1 cnt s).
Proof.
  induction l1 as [|v l1 IH]; intros l2 cnt s H.
  - cbn [app walk length]. now rewrite N.add_0_r.
  - inversion H; subst. destruct v as [|b0 r0]; [discriminate|]. cbn [app walk].
    rewrite IH by auto. f_equal. cbn [length]. lia.
Qed.

(** The slots in the order a probe starting at [i] visits them. *)
Definition rot {A} (i : nat) (l : list A) : list A := skipn i l ++ firstn i l.
Lemma rot_length {A} i (l : list A) : length (rot i l) = length l.
Proof. unfold rot. rewrite app_length, skipn_length, firstn_length. lia. Qed.

Definition bump_insert (s : stats) : stats :=
  mkStats (inserts s + 1) (cols s) (probes s) (heads s) (dups s) (nbuckets s) (longest s).

Definition home_nat (hf : key -> N) (t : table) (k : key) : nat :=
  N.to_nat (home (is_prime t) (size t) (hf k)).
Lemma home_nat_lt hf t k : table_shape t -> (home_nat hf t k < length (buckets t))%nat.
Proof.
  intros (H1 & H2 & H3 & H4). unfold home_nat.
  pose proof (home_lt (is_prime t) (size t) (hf k) H1). lia.
Qed.

Lemma app_cons_split {A} (A1 A2 V : list A) x R :
  A1 ++ A2 = V ++ x :: R ->
  (exists R', A1 = V ++ x :: R') \/ (exists V2, V = A1 ++ V2 /\ A2 = V2 ++ x :: R).
Proof.
  revert V; induction A1 as [|a A1 IH]; intros V H.
  - right. exists V. auto.
  - destruct V as [|v V]; cbn in H; injection H as -> H.
    + left. exists A1. reflexivity.
    + destruct (IH V H) as [[R' ->]|[V2 [-> ->]]]; [left; exists R'|right; exists V2]; auto.
Qed.

Lemma insert_unfold hf t k : table_shape t ->
  insert hf t k = insert_loop (enough_fuel t) hf k (hf k) (with_stats t (bump_insert (st t)))
                              (home_nat hf t k) 0 0.
Proof.
  intros Hs. unfold insert. pose proof Hs as (H1 & _).
  replace (is_prime t && (size t =? 0)) with false by (destruct (N.eqb_spec (size t) 0); [lia|now rewrite andb_false_r]).
  unfold home_nat. now rewrite (index_of_home _ _ Hs).
Qed.

Lemma skipn_nonnil {A} i (l : list A) : (i < length l)%nat -> skipn i l <> [].
Proof. intros H E. apply (f_equal (@length A)) in E. rewrite skipn_length in E. cbn in E. lia. Qed.

Lemma insert_loop_hit hf k h f t idx cnt pass :
  nth_error (buckets t) idx = Some [] ->
  insert_loop (S f) hf k h t idx cnt pass = Ret (with_bucket t idx [k] (bump_head (st t))).
Proof. intros H. cbn [insert_loop]. now rewrite H. Qed.

Lemma oa_insert_free hf t k V R :
  table_shape t -> is_oa t = true ->
  rot (home_nat hf t k) (buckets t) = V ++ [] :: R -> all_occ V ->
  insert hf t k =
  Ret (with_bucket t ((home_nat hf t k + length V) mod length (buckets t))%nat [k]
        (bump_head (walk hf (hf k) V 0 (bump_insert (st t))))).
Proof.
  intros Hs Hoa Hrot Hocc. rewrite (insert_unfold _ _ _ Hs).
  pose proof (home_nat_lt hf t k Hs) as Hh. set (i := home_nat hf t k) in *.
  set (t0 := with_stats t (bump_insert (st t))).
  assert (Hs0 : table_shape t0) by exact Hs.
  assert (Hoa0 : is_oa t0 = true) by exact Hoa.
  pose proof (rot_length i (buckets t)) as HL. rewrite Hrot, app_length in HL. cbn [length] in HL.
  unfold rot in Hrot. destruct (app_cons_split _ _ _ _ _ Hrot) as [[R' H1]|[V2 [-> H2]]].
  - pose proof (f_equal (@length _) H1) as HL1. rewrite skipn_length, app_length in HL1. cbn [length] in HL1.
    unfold enough_fuel.
    replace (2 * length (buckets t) + 2)%nat with (length V + S (2 * length (buckets t) + 1 - length V))%nat by lia.
    rewrite (loop_seg hf k (hf k) _ 0 V t0 i 0 [] R' Hs0 Hoa0 H1 Hocc).
    rewrite Nat.mod_small by lia.
    rewrite insert_loop_hit; [reflexivity|].
    cbn [buckets with_stats t0]. rewrite <- nth_error_skipn, H1.
    rewrite nth_error_app2, Nat.sub_diag by lia. reflexivity.
  - apply Forall_app in Hocc. destruct Hocc as [Ho1 Ho2].
    set (V1 := skipn i (buckets t)) in *.
    pose proof (f_equal (@length _) H2) as HL2. rewrite firstn_length, app_length in HL2. cbn [length] in HL2.
    assert (HV1 : length V1 = (length (buckets t) - i)%nat) by apply skipn_length.
    unfold enough_fuel.
    replace (2 * length (buckets t) + 2)%nat with
      (length V1 + (length V2 + S (2 * length (buckets t) + 1 - length V1 - length V2)))%nat by lia.
    rewrite (loop_wrap hf k (hf k) _ 0 V1 t0 i 0 Hs0 Hoa0 (skipn_nonnil _ _ Hh) eq_refl Ho1).
    cbn [N.ltb N.add N.compare Pos.compare Pos.compare_cont Pos.add].
    change (0 + N.of_nat (length V1)) with (N.of_nat (length V1)).
    rewrite (loop_seg hf k (hf k) _ 1 V2 _ 0 _ [] (R ++ V1)).
    + rewrite app_length.
      replace (i + (length V1 + length V2))%nat with (length V2 + 1 * length (buckets t))%nat by lia.
      rewrite Nat.mod_add, Nat.mod_small by lia.
      rewrite insert_loop_hit.
      * rewrite (walk_app hf (hf k) V1 V2 0) by auto. reflexivity.
      * cbn [buckets with_stats t0 Nat.add].
        rewrite <- (firstn_skipn i (buckets t)). rewrite H2.
        rewrite <- app_assoc, nth_error_app2, Nat.sub_diag by lia. reflexivity.
    + exact Hs0.
    + exact Hoa0.
    + cbn [buckets with_stats t0 skipn]. rewrite <- (firstn_skipn i (buckets t)) at 1.
      rewrite H2. fold V1. rewrite <- app_assoc. reflexivity.
    + exact Ho2.
Qed.

Lemma oa_insert_full hf t k :
  table_shape t -> is_oa t = true -> all_occ (buckets t) -> insert hf t k = Panic.
Proof.
  intros Hs Hoa Hocc. rewrite (insert_unfold _ _ _ Hs).
  pose proof (home_nat_lt hf t k Hs) as Hh. set (i := home_nat hf t k) in *.
  set (t0 := with_stats t (bump_insert (st t))).
  assert (Hs0 : table_shape t0) by exact Hs.
  assert (Hoa0 : is_oa t0 = true) by exact Hoa.
  set (V1 := skipn i (buckets t)).
  assert (HV1 : length V1 = (length (buckets t) - i)%nat) by apply skipn_length.
  assert (Ho1 : all_occ V1).
  { unfold all_occ in *. rewrite <- (firstn_skipn i (buckets t)) in Hocc. apply Forall_app in Hocc. apply Hocc. }
  unfold enough_fuel.
  replace (2 * length (buckets t) + 2)%nat with
      (length V1 + (length (buckets t) + (length (buckets t) + 2 - length V1)))%nat by lia.
  rewrite (loop_wrap hf k (hf k) _ 0 V1 t0 i 0 Hs0 Hoa0 (skipn_nonnil _ _ Hh) eq_refl Ho1).
  cbn [N.ltb N.add N.compare Pos.compare Pos.compare_cont Pos.add].
  rewrite (loop_wrap hf k (hf k) _ 1 (buckets t)); auto.
  intro E. rewrite E in Hh. cbn in Hh. lia.
Qed.

Lemma first_free (l : list (list key)) :
  (all_occ l) \/ (exists V R, l = V ++ [] :: R /\ all_occ V).
Proof.
  induction l as [|b l IH]; [left; constructor|].
  destruct b as [|b0 r].
  - right. exists [], l. split; [reflexivity|constructor].
  - destruct IH as [H|(V & R & -> & H)].
    + left. constructor; auto.
    + right. exists ((b0 :: r) :: V), R. split; [reflexivity|constructor; auto].
Qed.

Lemma all_occ_rot i l : all_occ (rot i l) <-> all_occ l.
Proof.
  unfold all_occ, rot. rewrite <- (firstn_skipn i l) at 3. rewrite !Forall_app. tauto.
Qed.

(** *** C03 *)
Lemma oa_insert_cases hf t k : table_shape t -> is_oa t = true ->
  (exists V R, rot (home_nat hf t k) (buckets t) = V ++ [] :: R /\ all_occ V /\
     insert hf t k =
     Ret (with_bucket t ((home_nat hf t k + length V) mod length (buckets t))%nat [k]
          (bump_head (walk hf (hf k) V 0 (bump_insert (st t))))))
  \/ (all_occ (buckets t) /\ insert hf t k = Panic).
Proof.
  intros Hs Hoa. destruct (first_free (rot (home_nat hf t k) (buckets t))) as [H|(V & R & E & H)].
  - right. apply all_occ_rot in H. split; auto. now apply oa_insert_full.
  - left. exists V, R. repeat split; auto. now apply oa_insert_free with (R := R).
Qed.

Lemma nth_error_rot {A} (l : list A) i d : (i < length l)%nat -> (d < length l)%nat ->
  nth_error (rot i l) d = nth_error l ((i + d) mod length l).
Proof.
  intros Hi Hd. unfold rot.
  destruct (Nat.lt_ge_cases d (length l - i)).
  - rewrite nth_error_app1 by (rewrite skipn_length; lia).
    rewrite nth_error_skipn, Nat.mod_small by lia. reflexivity.
  - rewrite nth_error_app2 by (rewrite skipn_length; lia). rewrite skipn_length.
    rewrite nth_error_firstn by lia. f_equal.
    replace (i + d)%nat with ((d - (length l - i)) + 1 * length l)%nat by lia.
    rewrite Nat.mod_add, Nat.mod_small by lia. reflexivity.
Qed.
