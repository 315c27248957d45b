(** Invariant of open addressing over all insertion histories. *)
From Verif Require Import Words WordLemmas ListLemmas HashTableModel HashTableSpec HashTableProofs HashTableOA.
From Coq Require Import ZArith Permutation.
From Coq Require Import ZifyBool ZifyNat ZifyN.
Open Scope N_scope.

Lemma walk_frame hf h l : forall cnt s,
  inserts (walk hf h l cnt s) = inserts s /\ heads (walk hf h l cnt s) = heads s /\
  nbuckets (walk hf h l cnt s) = nbuckets s /\ longest (walk hf h l cnt s) = longest s.
Proof.
  induction l as [|b l IH]; intros cnt s; cbn [walk]; [auto|].
  destruct b as [|b0 r]; [apply IH|].
  destruct (IH (cnt+1) (bump_oa cnt (hf b0 =? h) s)) as (A & B & C & D).
  rewrite A, B, C, D. cbn. auto.
Qed.
Lemma walk_probes_pos hf h l : forall cnt s, 0 < cnt -> probes (walk hf h l cnt s) = probes s.
Proof.
  induction l as [|b l IH]; intros cnt s H; cbn [walk]; [auto|].
  destruct b as [|b0 r]; [auto|]. rewrite IH by lia. cbn.
  destruct (N.eqb_spec cnt 0); [lia|reflexivity].
Qed.
Lemma walk_probes hf h l s : probes s <= probes (walk hf h l 0 s) <= probes s + 1.
Proof.
  induction l as [|b l IH]; cbn [walk]; [lia|].
  destruct b as [|b0 r]; [auto|]. rewrite walk_probes_pos by lia. cbn. lia.
Qed.
Lemma walk_dups hf h l : forall cnt s, Forall (fun b : list key => length b <= 1)%nat l ->
  dups (walk hf h l cnt s) = dups s + N.of_nat (length (filter (fun k => hf k =? h) (concat l))).
Proof.
  induction l as [|b l IH]; intros cnt s H; cbn [walk concat]; [cbn; lia|].
  inversion H; subst. destruct b as [|b0 r]; [cbn [app]; auto|].
  destruct r; [|cbn in *; lia]. rewrite IH by auto. cbn [app filter bump_oa dups].
  destruct (hf b0 =? h); cbn [length]; lia.
Qed.

Lemma walk_occ_pos hf h l : forall cnt s, 0 < cnt -> all_occ l ->
  cols (walk hf h l cnt s) = cols s + N.of_nat (length l).
Proof.
  induction l as [|b l IH]; intros cnt s H Ho; cbn [walk length]; [lia|].
  inversion Ho; subst. destruct b as [|b0 r]; [discriminate|]. rewrite IH by (auto; lia). cbn [bump_oa cols].
  destruct (N.eqb_spec cnt 0); lia.
Qed.
Lemma walk_occ hf h l s : all_occ l ->
  cols (walk hf h l 0 s) = cols s + (N.of_nat (length l) - 1) /\
  probes (walk hf h l 0 s) = probes s + (if N.of_nat (length l) =? 0 then 0 else 1).
Proof.
  destruct l as [|b l]; intros Ho; [cbn; lia|].
  inversion Ho; subst. destruct b as [|b0 r]; [discriminate|]. cbn [walk].
  rewrite walk_occ_pos, walk_probes_pos by (auto; lia). cbn [bump_oa cols probes length N.eqb].
  destruct (N.eqb_spec (N.of_nat (S (length l))) 0); lia.
Qed.
Lemma displacements_app prime n hf l1 : forall i l2,
  displacements prime n hf i (l1 ++ l2) = displacements prime n hf i l1 ++ displacements prime n hf (i + N.of_nat (length l1)) l2.
Proof.
  induction l1 as [|b l1 IH]; intros i l2; cbn [app displacements length].
  - now rewrite N.add_0_r.
  - rewrite IH, app_assoc. do 2 f_equal. lia.
Qed.
Definition sum_pred (l : list N) : N := sum_N (map (fun d => d - 1) l).
Definition count_nz (l : list N) : N := N.of_nat (length (filter (fun d => negb (d =? 0)) l)).
Lemma sum_pred_app a b : sum_pred (a ++ b) = sum_pred a + sum_pred b.
Proof. unfold sum_pred, sum_N. induction a; cbn [app map fold_right] in *; lia. Qed.
Lemma count_nz_app a b : count_nz (a ++ b) = count_nz a + count_nz b.
Proof. unfold count_nz. rewrite filter_app, app_length. lia. Qed.

Section OA.
  Variables (hf : key -> N) (prime : bool) (n : nat).
  Hypothesis Hn : (1 <= n)%nat.

  Definition hm (k : key) : nat := N.to_nat (home prime (N.of_nat n) (hf k)).
  Definition occ (bs : list (list key)) (i : nat) : Prop :=
    exists b, nth_error bs i = Some b /\ nonempty b = true.
  Definition path_ok (bs : list (list key)) (i : nat) (k : key) : Prop :=
    exists d, (d < n)%nat /\ i = ((hm k + d) mod n)%nat /\
              forall e, (e < d)%nat -> occ bs ((hm k + e) mod n)%nat.

  Record InvO (ks : list key) (t : table) : Prop := {
    io_shape : table_shape t;
    io_size : size t = N.of_nat n;
    io_oa : is_oa t = true;
    io_prime : is_prime t = prime;
    io_single : Forall (fun b => length b <= 1)%nat (buckets t);
    io_perm : Permutation (concat (buckets t)) ks;
    io_path : forall i k, nth_error (buckets t) i = Some [k] -> path_ok (buckets t) i k;
    io_inserts : inserts (st t) = N.of_nat (length ks);
    io_heads : heads (st t) = N.of_nat (length ks);
    io_used : used_buckets t = N.of_nat (length ks);
    io_nbuckets : nbuckets (st t) = 0;
    io_longest : longest (st t) = 0;
    io_probes : N.of_nat (length ks) <= probes (st t) <= 2 * N.of_nat (length ks);
    io_probes_eq : probes (st t) = N.of_nat (length ks) + count_nz (displacements prime (N.of_nat n) hf 0 (buckets t));
    io_cols : cols (st t) = sum_pred (displacements prime (N.of_nat n) hf 0 (buckets t));
    io_dups : dups (st t) = equal_hash_pairs hf ks
  }.

  Lemma hm_lt k : (hm k < n)%nat.
  Proof. unfold hm. pose proof (home_lt prime (N.of_nat n) (hf k)). lia. Qed.

  Lemma home_nat_hm ks t k : InvO ks t -> home_nat hf t k = hm k.
  Proof. intros H. unfold home_nat, hm. now rewrite (io_prime _ _ H), (io_size _ _ H). Qed.
  Lemma io_len ks t : InvO ks t -> length (buckets t) = n.
  Proof. intros H. destruct (io_shape _ _ H) as (_ & _ & L & _). rewrite (io_size _ _ H) in L. lia. Qed.

  Lemma occ_set bs i j b : (i < length bs)%nat -> nonempty b = true -> occ bs j -> occ (set_nth i b bs) j.
  Proof.
    intros Hi Hb (b' & H1 & H2). destruct (Nat.eq_dec i j) as [->|N].
    - exists b. rewrite set_nth_same by auto. auto.
    - exists b'. rewrite set_nth_other by auto. auto.
  Qed.

  (** Entries with the new key's hash all lie before the first free slot. *)
  Lemma later_no_dup ks t k V R : InvO ks t ->
    rot (hm k) (buckets t) = V ++ [] :: R -> 
    filter (fun k' => hf k' =? hf k) (concat R) = [].
  Proof.
    intros H Hr.
    destruct (filter (fun k' => hf k' =? hf k) (concat R)) as [|x r] eqn:E; [reflexivity|exfalso].
    assert (Hx : In x (filter (fun k' => hf k' =? hf k) (concat R))) by (rewrite E; now left).
    apply filter_In in Hx. destruct Hx as [Hx Hh]. apply N.eqb_eq in Hh.
    apply in_concat in Hx. destruct Hx as (b & Hb & Hxb).
    destruct (In_nth_error _ _ Hb) as [e He].
    pose proof (io_len _ _ H) as HL.
    assert (He' : nth_error (rot (hm k) (buckets t)) (length V + S e) = Some b).
    { rewrite Hr, nth_error_app2 by lia. replace (length V + S e - length V)%nat with (S e) by lia. exact He. }
    assert (Hlt : (length V + S e < n)%nat).
    { pose proof (rot_length (hm k) (buckets t)) as HR. rewrite HL in HR. rewrite <- HR at 1.
      apply nth_error_Some. congruence. }
    rewrite nth_error_rot in He' by (rewrite HL; auto using hm_lt). rewrite HL in He'.
    assert (b = [x]).
    { pose proof (io_single _ _ H) as Hs. rewrite Forall_forall in Hs.
      apply nth_error_In in He'. specialize (Hs _ He').
      destruct b as [|y [|z w]]; cbn in *; try lia. destruct Hxb as [->|[]]. reflexivity. }
    subst b. destruct (io_path _ _ H _ _ He') as (d & Hd & Hi & Ho).
    assert (Hhm : hm x = hm k) by (unfold hm; now rewrite Hh). rewrite Hhm in Hi, Ho.
    assert (d = (length V + S e)%nat).
    { pose proof (hm_lt k). clear - Hi Hd Hlt H0 Hn.
      destruct (Nat.lt_ge_cases (hm k + (length V + S e)) n) as [A|A];
      destruct (Nat.lt_ge_cases (hm k + d) n) as [B|B].
      - rewrite !Nat.mod_small in Hi by lia. lia.
      - rewrite Nat.mod_small in Hi by lia.
        replace (hm k + d)%nat with ((hm k + d - n) + 1 * n)%nat in Hi by lia.
        rewrite Nat.mod_add, Nat.mod_small in Hi by lia. lia.
      - rewrite (Nat.mod_small (hm k + d)) in Hi by lia.
        replace (hm k + (length V + S e))%nat with ((hm k + (length V + S e) - n) + 1 * n)%nat in Hi by lia.
        rewrite Nat.mod_add, Nat.mod_small in Hi by lia. lia.
      - replace (hm k + d)%nat with ((hm k + d - n) + 1 * n)%nat in Hi by lia.
        replace (hm k + (length V + S e))%nat with ((hm k + (length V + S e) - n) + 1 * n)%nat in Hi by lia.
        rewrite !Nat.mod_add, !Nat.mod_small in Hi by lia. lia. }
    destruct (Ho (length V)) as (b & Hb1 & Hb2); [lia|].
    pose proof (nth_error_rot (buckets t) (hm k) (length V)) as HR. rewrite HL in HR.
    rewrite <- HR in Hb1 by (auto using hm_lt; lia).
    rewrite Hr, nth_error_app2, Nat.sub_diag in Hb1 by lia. cbn in Hb1. injection Hb1 as <-. discriminate.
  Qed.

  Lemma oa_step ks t k V R : InvO ks t ->
    rot (hm k) (buckets t) = V ++ [] :: R -> all_occ V ->
    InvO (ks ++ [k])
      (with_bucket t ((hm k + length V) mod n)%nat [k]
         (bump_head (walk hf (hf k) V 0 (bump_insert (st t))))).
  Proof.
    intros H Hr Hocc. pose proof (io_len _ _ H) as HL. pose proof (hm_lt k) as Hk.
    assert (HV : (length V < n)%nat).
    { pose proof (rot_length (hm k) (buckets t)) as HR. rewrite HL, Hr, app_length in HR. cbn in HR. lia. }
    set (j := ((hm k + length V) mod n)%nat).
    assert (Hj : (j < n)%nat) by (apply Nat.mod_upper_bound; lia).
    assert (Hnth : nth_error (buckets t) j = Some []).
    { unfold j. pose proof (nth_error_rot (buckets t) (hm k) (length V)) as HR. rewrite HL in HR.
      rewrite <- HR by auto.
      rewrite Hr, nth_error_app2, Nat.sub_diag by lia. reflexivity. }
    destruct (nth_error_split _ _ Hnth) as (l1 & l2 & E & Hl1).
    assert (Hset : set_nth j [k] (buckets t) = l1 ++ [k] :: l2) by (rewrite E, <- Hl1; apply set_nth_split).
    assert (Hperm : Permutation (concat (l1 ++ [k] :: l2)) (ks ++ [k])).
    { rewrite concat_app. cbn [concat app]. rewrite <- Permutation_middle, <- Permutation_cons_append.
      apply perm_skip. rewrite <- (io_perm _ _ H), E, concat_app. cbn [concat app]. reflexivity. }
    assert (Hlen : N.of_nat (length (ks ++ [k])) = N.of_nat (length ks) + 1) by (rewrite app_length; cbn [length]; lia).
    pose proof (walk_frame hf (hf k) V 0 (bump_insert (st t))) as (W1 & W2 & W3 & W4).
    pose proof (walk_probes hf (hf k) V (bump_insert (st t))) as W5.
    assert (HVs : Forall (fun b : list key => (length b <= 1)%nat) V).
    { assert (Hall : Forall (fun b : list key => (length b <= 1)%nat) (rot (hm k) (buckets t))).
      { unfold rot. apply Forall_app. pose proof (io_single _ _ H) as Hs.
        rewrite <- (firstn_skipn (hm k) (buckets t)) in Hs. apply Forall_app in Hs. tauto. }
      rewrite Hr in Hall. apply Forall_app in Hall. apply Hall. }
    pose proof (walk_dups hf (hf k) V 0 (bump_insert (st t)) HVs) as W6.
    destruct (walk_occ hf (hf k) V (bump_insert (st t)) Hocc) as [W7 W8].
    assert (Hdk : (N.of_nat j + N.of_nat n - home prime (N.of_nat n) (hf k)) mod N.of_nat n = N.of_nat (length V)).
    { assert (Eh : home prime (N.of_nat n) (hf k) = N.of_nat (hm k)) by (unfold hm; lia).
      rewrite Eh. unfold j. clear - Hk HV.
      destruct (Nat.lt_ge_cases (hm k + length V) n) as [A|A].
      - rewrite Nat.mod_small by lia.
        replace (N.of_nat (hm k + length V) + N.of_nat n - N.of_nat (hm k)) with (N.of_nat (length V) + 1 * N.of_nat n) by lia.
        rewrite N.mod_add, N.mod_small by lia. lia.
      - replace (hm k + length V)%nat with ((hm k + length V - n) + 1 * n)%nat at 1 by lia.
        rewrite Nat.mod_add, Nat.mod_small by lia.
        replace (N.of_nat (hm k + length V - n) + N.of_nat n - N.of_nat (hm k)) with (N.of_nat (length V)) by lia.
        apply N.mod_small. lia. }
    assert (Hdisp : forall g : list N -> N, (forall a b, g (a ++ b) = g a + g b) ->
      g (displacements prime (N.of_nat n) hf 0 (set_nth j [k] (buckets t))) =
      g (displacements prime (N.of_nat n) hf 0 (buckets t)) + g [N.of_nat (length V)]).
    { intros g Hg. rewrite Hset, E, !displacements_app. cbn [displacements map app].
      rewrite N.add_0_l, Hl1, Hdk. rewrite !Hg.
      change (N.of_nat (length V) :: displacements prime (N.of_nat n) hf (N.of_nat j + 1) l2)
        with ([N.of_nat (length V)] ++ displacements prime (N.of_nat n) hf (N.of_nat j + 1) l2).
      rewrite Hg. lia. }
    constructor; cbn [with_bucket with_stats buckets size size_mask is_oa is_prime st bump_head
        inserts cols probes heads dups nbuckets longest].
    - destruct (io_shape _ _ H) as (S1 & S2 & S3 & S4). unfold table_shape.
      cbn [with_bucket buckets size size_mask]. rewrite set_nth_length. auto.
    - apply (io_size _ _ H).
    - apply (io_oa _ _ H).
    - apply (io_prime _ _ H).
    - rewrite Hset. pose proof (io_single _ _ H) as Hs. rewrite E in Hs.
      apply Forall_app in Hs. destruct Hs as [A B]. inversion B; subst.
      apply Forall_app; split; auto. 
    - rewrite Hset. exact Hperm.
    - intros i k' Hi. destruct (Nat.eq_dec j i) as [<-|Hne].
      + rewrite set_nth_same in Hi by lia. injection Hi as <-.
        exists (length V). repeat split; auto. intros e He.
        apply occ_set; auto; [lia|].
        assert (He' : (e < length (rot (hm k) (buckets t)))%nat) by (rewrite rot_length; lia).
        exists (nth e V []). split.
        * pose proof (nth_error_rot (buckets t) (hm k) e) as HR. rewrite HL in HR.
          rewrite <- HR by (auto; lia).
          rewrite Hr, nth_error_app1 by lia. now apply nth_error_nth'.
        * unfold all_occ in Hocc. rewrite Forall_forall in Hocc. apply Hocc. now apply nth_In.
      + rewrite set_nth_other in Hi by auto.
        destruct (io_path _ _ H _ _ Hi) as (d & D1 & D2 & D3).
        exists d. repeat split; auto. intros e He. apply occ_set; auto. lia.
    - rewrite W1, Hlen. cbn. rewrite (io_inserts _ _ H). reflexivity.
    - rewrite W2, Hlen. cbn. rewrite (io_heads _ _ H). reflexivity.
    - unfold used_buckets. cbn [with_bucket buckets].
      rewrite (used_set (N.of_nat n) ltac:(lia) t j [] [k] Hnth eq_refl), (io_used _ _ H), Hlen. reflexivity.
    - rewrite W3. apply (io_nbuckets _ _ H).
    - rewrite W4. apply (io_longest _ _ H).
    - pose proof (io_probes _ _ H). cbn [bump_insert probes] in W5. lia.
    - rewrite W8, Hlen, (Hdisp count_nz count_nz_app). cbn [bump_insert probes]. rewrite (io_probes_eq _ _ H).
      unfold count_nz at 3. cbn [filter]. destruct (N.of_nat (length V) =? 0); cbn [negb length]; lia.
    - rewrite W7, (Hdisp sum_pred sum_pred_app). cbn [bump_insert cols]. rewrite (io_cols _ _ H).
      unfold sum_pred at 3. cbn. lia.
    - rewrite W6, pairs_snoc. cbn [bump_insert dups]. rewrite (io_dups _ _ H). f_equal. f_equal.
      rewrite <- (filter_perm_length _ _ _ (io_perm _ _ H)).
      assert (P : Permutation (concat (buckets t)) (concat (rot (hm k) (buckets t)))).
      { unfold rot. rewrite <- (firstn_skipn (hm k) (buckets t)) at 1.
        rewrite !concat_app. apply Permutation_app_comm. }
      rewrite (filter_perm_length _ _ _ P), Hr, concat_app, filter_app_length. cbn [concat app].
      rewrite (later_no_dup _ _ _ _ _ H Hr). cbn. lia.
  Qed.

  Lemma used_full_occ t : used_buckets t = N.of_nat (length (buckets t)) -> all_occ (buckets t).
  Proof.
    unfold used_buckets, all_occ. intros H. assert (E : length (filter nonempty (buckets t)) = length (buckets t)) by lia.
    clear H. induction (buckets t) as [|b l IH]; [constructor|].
    cbn [filter] in E. destruct (nonempty b) eqn:Eb; cbn [length] in E.
    - constructor; [exact Eb|apply IH; lia].
    - pose proof (filter_length_le nonempty l). lia.
  Qed.
  Lemma occ_used_full t : all_occ (buckets t) -> used_buckets t = N.of_nat (length (buckets t)).
  Proof.
    unfold used_buckets, all_occ. intros H. f_equal. induction H; auto.
    cbn [filter]. rewrite H. cbn. auto.
  Qed.

  Lemma oa_insert_inv ks t k : InvO ks t ->
    if (length ks <? n)%nat then exists t', insert hf t k = Ret t' /\ InvO (ks ++ [k]) t'
    else insert hf t k = Panic.
  Proof.
    intros H. pose proof (io_len _ _ H) as HL.
    destruct (oa_insert_cases hf t k (io_shape _ _ H) (io_oa _ _ H)) as [(V & R & E & Ho & Ei)|[Ho Ei]].
    - rewrite (home_nat_hm _ _ _ H), HL in *. 
      destruct (Nat.ltb_spec (length ks) n) as [Hlt|Hge].
      + eexists; split; [exact Ei|]. eapply oa_step; eauto.
      + exfalso. assert (all_occ (buckets t)).
        { apply used_full_occ. rewrite (io_used _ _ H).
          assert (length ks <= n)%nat; [|f_equal; lia].
          pose proof (io_used _ _ H) as U. unfold used_buckets in U.
          pose proof (filter_length_le nonempty (buckets t)). lia. }
        apply (all_occ_rot (hm k)) in H0. rewrite E in H0. apply Forall_app in H0. destruct H0 as [_ B].
        inversion B; subst. discriminate.
    - destruct (Nat.ltb_spec (length ks) n) as [Hlt|Hge]; [|auto].
      exfalso. apply occ_used_full in Ho. rewrite (io_used _ _ H) in Ho. lia.
  Qed.

  Lemma oa_all t0 ks :
    table_shape t0 -> size t0 = N.of_nat n -> is_oa t0 = true -> is_prime t0 = prime ->
    st t0 = zero_stats -> buckets t0 = repeat [] n ->
    if (length ks <=? n)%nat then exists t, insert_all hf t0 ks = Ret t /\ InvO ks t
    else insert_all hf t0 ks = Panic.
  Proof.
    intros S1 S2 S3 S4 S5 S6.
    assert (U : used_buckets t0 = 0).
    { unfold used_buckets. rewrite S6. clear. induction n; auto. }
    assert (C : concat (buckets t0) = []).
    { rewrite S6. clear. induction n; auto. }
    induction ks as [|k ks IH] using rev_ind.
    - cbn [length Nat.leb]. exists t0; split; [reflexivity|].
      assert (D : forall i m, displacements prime (N.of_nat n) hf i (repeat [] m) = []).
      { intros i m. revert i. induction m as [|m IHm]; intros i; cbn; auto. }
      constructor; auto; rewrite ?S5, ?U, ?C, ?S6, ?D; auto.
      + rewrite ?S6. apply Forall_forall. intros x Hx. apply repeat_spec in Hx. subst. cbn. lia.
      + rewrite ?S6. intros i k Hi. apply nth_error_In, repeat_spec in Hi. discriminate.
      + cbn. lia.
    - rewrite insert_all_snoc, app_length. cbn [length].
      destruct (Nat.leb_spec (length ks) n) as [A|A].
      + destruct IH as (t & -> & HI). pose proof (oa_insert_inv ks t k HI) as HS.
        destruct (Nat.ltb_spec (length ks) n); destruct (Nat.leb_spec (length ks + 1) n); try lia; auto.
      + rewrite IH. destruct (Nat.leb_spec (length ks + 1) n); [lia|reflexivity].
  Qed.
End OA.

Lemma oa_new np sz extra prime hf ks :
  let t0 := new_table np sz extra true prime in
  1 <= size t0 -> fits 64 (size t0) ->
  if N.of_nat (length ks) <=? size t0
  then exists t, insert_all hf t0 ks = Ret t /\ InvO hf prime (N.to_nat (size t0)) ks t
  else insert_all hf t0 ks = Panic.
Proof.
  intros t0 H1 H2. pose proof (new_table_shape np sz extra true prime H1 H2) as Hs. fold t0 in Hs.
  destruct (new_table_fields np sz extra true prime) as (F1 & F2 & F3 & F4). fold t0 in F1, F2, F3, F4.
  pose proof (oa_all hf prime (N.to_nat (size t0)) ltac:(lia) t0 ks Hs ltac:(lia) F1 F2 F3 F4) as H.
  destruct (N.leb_spec (N.of_nat (length ks)) (size t0)); destruct (Nat.leb_spec (length ks) (N.to_nat (size t0))); try lia; auto.
Qed.
