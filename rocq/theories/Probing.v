(** From the open-addressing table to the street of Parking.v and back: what an insertion
    does to the figures, and their sums over all hash functions.  (Proofs of C96, C97.) *)
From Coq Require Import Arith ZArith QArith List Lia Permutation.
From Coq Require Import ZifyBool ZifyN ZifyNat.
From Verif Require Import Words WordLemmas HashTableModel ListLemmas HashTableSpec HashTableProofs HashTableOA HashTableOA2 HashTableMore HashTableProps QualitySpec QualityProofs QualityProps BirthdayProps Parking.
Import ListNotations.
Open Scope N_scope.

Definition taken (t : table) (s : N) : bool := match nth_error (buckets t) (N.to_nat s) with Some b => nonempty b | None => false end.
Lemma slot_mod m h d : h < m -> d < m -> slot m h d = (h + d) mod m.
Proof.
  intros Hh Hd. unfold slot. destruct (N.ltb_spec (h + d) m) as [A|A]; [now rewrite N.mod_small|].
  apply (N.mod_unique _ _ 1); lia.
Qed.
Lemma taken_occ t s : taken t s = true <-> occupied t s.
Proof.
  unfold taken, occupied. destruct (nth_error (buckets t) (N.to_nat s)) as [[|k r]|]; cbn [nonempty]; split; try discriminate; try (intros (k' & r' & E); discriminate).
  - intros _. now exists k, r.
  - reflexivity.
Qed.

Section Link.
  Variables (hf : key -> N) (prime : bool) (n : nat).
  Hypothesis Hn : (1 <= n)%nat.
  Let m := N.of_nat n.
  Lemma parked_step ks t k t' F T U : InvO hf prime n ks t -> insert hf t k = Ret t' ->
    parked m (map (fun k => home prime m (hf k)) ks) (taken t) F T U ->
    probes (st t) = N.of_nat (length ks) + U -> probes (st t) + cols (st t) = N.of_nat (length ks) + T ->
    exists F' T' U', parked m (map (fun k => home prime m (hf k)) (ks ++ [k])) (taken t') F' T' U' /\
      probes (st t') = N.of_nat (length (ks ++ [k])) + U' /\ probes (st t') + cols (st t') = N.of_nat (length (ks ++ [k])) + T'.
  Proof.
    intros H E P E1 E2. pose proof (io_len _ _ _ Hn _ _ H) as HL. pose proof (hm_lt hf prime n Hn k) as Hk. pose proof (home_nat_hm _ _ _ _ _ k H) as Hh.
    assert (Eh : home prime m (hf k) = N.of_nat (hm hf prime n k)) by (unfold hm, m; lia).
    destruct (oa_insert_cases hf t k (io_shape _ _ _ _ _ H) (io_oa _ _ _ _ _ H)) as [(V & R & Hr & Ho & Ei)|[_ Ei]]; rewrite Ei in E; [|discriminate].
    injection E as <-. rewrite Hh, HL in *. set (h := hm hf prime n k) in *. set (d := length V) in *.
    assert (Hd : (d < n)%nat). { pose proof (rot_length h (buckets t)) as HR. rewrite HL, Hr, app_length in HR. cbn in HR. unfold d. lia. }
    set (j := ((h + d) mod n)%nat).
    assert (Hj : (j < n)%nat) by (apply Nat.mod_upper_bound; lia).
    assert (Sj : forall e, (e < n)%nat -> N.to_nat (slot m (N.of_nat h) (N.of_nat e)) = ((h + e) mod n)%nat).
    { intros e He. rewrite slot_mod by (unfold m; lia). unfold m. rewrite <- Nat2N.inj_add, <- Nat2N.inj_mod. lia. }
    assert (Nj : forall e, (e < n)%nat -> nth_error (buckets t) (N.to_nat (slot m (N.of_nat h) (N.of_nat e))) = nth_error (V ++ [] :: R) e).
    { intros e He. rewrite Sj by exact He. rewrite <- Hr, nth_error_rot by lia. now rewrite HL. }
    destruct (walk_occ hf (hf k) V (bump_insert (st t)) Ho) as [W7 W8].
    assert (P' : exists F', parked m (map (fun k => home prime m (hf k)) (ks ++ [k])) (taken (with_bucket t j [k] (bump_head (walk hf (hf k) V 0 (bump_insert (st t)))))) F' (T + N.of_nat d) (U + b2n (negb (N.of_nat d =? 0)))).
    { exists (fun s => F s + rej m (N.of_nat h) (N.of_nat d) s). rewrite map_app. cbn [map]. rewrite Eh.
      apply (p_snoc m _ (taken t) F T U (N.of_nat h) (N.of_nat d)); auto; try (unfold m; lia).
      - unfold taken. rewrite Nj, nth_error_app2 by (unfold d; lia). unfold d. now rewrite Nat.sub_diag.
      - intros e He. rewrite <- (N2Nat.id e). unfold taken. rewrite Nj by lia. rewrite nth_error_app1 by (unfold d in He; lia).
        destruct (nth_error V (N.to_nat e)) as [b|] eqn:Eb; [|apply nth_error_None in Eb; unfold d in He; lia]. apply nth_error_In in Eb. now apply (proj1 (Forall_forall _ _) Ho).
      - intros s Hs. unfold taken. cbn [with_bucket buckets]. destruct (N.eqb_spec s (slot m (N.of_nat h) (N.of_nat d))) as [->|Ne].
        + rewrite Sj by exact Hd. fold j. rewrite set_nth_same by lia. now rewrite Bool.orb_true_r.
        + rewrite Bool.orb_false_r. rewrite set_nth_other; [reflexivity|]. unfold j. rewrite <- Sj by exact Hd. lia. }
    destruct P' as (F' & P'). exists F', (T + N.of_nat d), (U + b2n (negb (N.of_nat d =? 0))). split; [exact P'|].
    cbn [with_bucket st bump_head probes cols]. rewrite W7, W8. cbn [bump_insert probes cols]. rewrite app_length. cbn [length]. fold d. unfold b2n.
    destruct (N.eqb_spec (N.of_nat d) 0); cbn [negb]; lia.
  Qed.
  Lemma parked_all t0 ks t :
    table_shape t0 -> size t0 = N.of_nat n -> is_oa t0 = true -> is_prime t0 = prime -> st t0 = zero_stats -> buckets t0 = repeat [] n ->
    insert_all hf t0 ks = Ret t ->
    exists F T U, parked m (map (fun k => home prime m (hf k)) ks) (taken t) F T U /\
      probes (st t) = N.of_nat (length ks) + U /\ probes (st t) + cols (st t) = N.of_nat (length ks) + T.
  Proof.
    intros S1 S2 S3 S4 S5 S6. revert t. induction ks as [|k ks IH] using rev_ind; intros t E.
    - injection E as <-. exists (fun _ => 0), 0, 0. rewrite S5. split; [|now cbn]. constructor; [|reflexivity]. intros s Hs. unfold taken. rewrite S6.
      destruct (nth_error (repeat [] n) (N.to_nat s)) as [b|] eqn:Eb; [|reflexivity]. apply nth_error_In, repeat_spec in Eb. now subst b.
    - pose proof (oa_all hf prime n Hn t0 ks S1 S2 S3 S4 S5 S6) as A. rewrite insert_all_snoc in E.
      destruct (length ks <=? n)%nat; [|rewrite A in E; discriminate]. destruct A as (t1 & E1 & I1). rewrite E1 in *.
      destruct (IH t1 eq_refl) as (F & T & U & P & X1 & X2). now apply (parked_step ks t1 k t F T U).
  Qed.
End Link.
Lemma parked_new np sz extra prime hf ks t :
  let t0 := new_table np sz extra true prime in
  1 <= size t0 -> fits 64 (size t0) -> insert_all hf t0 ks = Ret t ->
  exists F T U, parked (size t0) (map (fun k => home prime (size t0) (hf k)) ks) (taken t) F T U /\
    probes (st t) = N.of_nat (length ks) + U /\ probes (st t) + cols (st t) = N.of_nat (length ks) + T.
Proof.
  intros t0 H1 H2 E. pose proof (new_table_shape np sz extra true prime H1 H2) as Hs. fold t0 in Hs.
  destruct (new_table_fields np sz extra true prime) as (F1 & F2 & F3 & F4). fold t0 in F1, F2, F3, F4.
  pose proof (parked_all hf prime (N.to_nat (size t0)) ltac:(lia) t0 ks t Hs ltac:(lia) F1 F2 F3 F4 E) as X. now rewrite N2Nat.id in X.
Qed.

(** ** Same figures, any order *)
Lemma eq_pairs_perm l l' : Permutation l l' -> eq_pairs l = eq_pairs l'.
Proof.
  induction 1 as [|a l l' P IH|a b l|]; [reflexivity| | |congruence]; cbn [eq_pairs].
  - rewrite IH. f_equal. rewrite <- !(homes_filter 1 (N.le_refl 1)). now apply (homes_perm 1 (N.le_refl 1)).
  - cbn [filter]. rewrite (N.eqb_sym b a). destruct (a =? b); cbn [length]; lia.
Qed.
Lemma filter_perm {A} (f : A -> bool) l l' : Permutation l l' -> Permutation (filter f l) (filter f l').
Proof.
  induction 1 as [|a l l' P IH|a b l|? ? ? ? IH1 ? IH2]; cbn [filter]; [constructor| | |now rewrite IH1].
  - destruct (f a); [now constructor|exact IH].
  - destruct (f a), (f b); try reflexivity. constructor.
Qed.
Lemma lengths_used (bs bs' : list (list key)) : map (@length key) bs = map (@length key) bs' -> length (filter nonempty bs) = length (filter nonempty bs').
Proof.
  revert bs'. induction bs as [|b bs IH]; intros [|b' bs'] E; try discriminate; [reflexivity|]. injection E as E1 E2. cbn [filter].
  specialize (IH _ E2). destruct b, b'; try discriminate; cbn [nonempty length]; lia.
Qed.
Lemma lengths_fold (bs bs' : list (list key)) (a : N) : map (@length key) bs = map (@length key) bs' ->
  fold_left (fun acc v => match v with [] => acc | _ => acc + N.of_nat (length v) * (N.of_nat (length v) + 1) end) bs a =
  fold_left (fun acc v => match v with [] => acc | _ => acc + N.of_nat (length v) * (N.of_nat (length v) + 1) end) bs' a.
Proof.
  revert bs' a. induction bs as [|b bs IH]; intros [|b' bs'] a E; try discriminate; [reflexivity|]. injection E as E1 E2. cbn [fold_left].
  destruct b, b'; try discriminate; [now apply IH|]. rewrite E1. now apply IH.
Qed.
Lemma chained_order np sz extra prime (hf : key -> N) ks ks' t t' :
  let t0 := new_table np sz extra false prime in
  1 <= size t0 -> fits 64 (size t0) -> Permutation ks ks' -> insert_all hf t0 ks = Ret t -> insert_all hf t0 ks' = Ret t' ->
  Forall2 (@Permutation key) (buckets t) (buckets t') /\ st t = st t' /\ hash_quality t = hash_quality t'.
Proof.
  intros t0 H1 H2 P E E'. pose proof (chained_inv np sz extra prime hf ks t H1 H2 E) as I. pose proof (chained_inv np sz extra prime hf ks' t' H1 H2 E') as I'. fold t0 in I, I'.
  assert (B : Forall2 (@Permutation key) (buckets t) (buckets t')).
  { rewrite (ic_buckets _ _ _ _ _ I), (ic_buckets _ _ _ _ _ I'). induction (seq 0 (N.to_nat (size t0))) as [|a l IH]; [constructor|]. cbn [map]. constructor; [|exact IH].
    unfold bucket_of. now apply filter_perm. }
  assert (L : map (@length key) (buckets t) = map (@length key) (buckets t')).
  { clear -B. induction B as [|b b' bs bs' Pb _ IH]; [reflexivity|]. cbn [map]. now rewrite (Permutation_length Pb), IH. }
  pose proof (Permutation_length P) as Ln.
  assert (U : used_buckets t = used_buckets t') by (unfold used_buckets; f_equal; now apply lengths_used).
  assert (G : longest_bucket t = longest_bucket t') by (unfold longest_bucket; now rewrite L).
  assert (Dp : equal_hash_pairs hf ks = equal_hash_pairs hf ks') by (rewrite !equal_hash_pairs_map; apply eq_pairs_perm, Permutation_map, P).
  assert (S : st t = st t').
  { pose proof (ic_nbuckets _ _ _ _ _ I) as N1. pose proof (ic_nbuckets _ _ _ _ _ I') as N2. rewrite (ic_heads _ _ _ _ _ I) in N1. rewrite (ic_heads _ _ _ _ _ I') in N2.
    destruct I, I'. destruct (st t), (st t'). cbn [HashTableModel.inserts HashTableModel.cols HashTableModel.probes HashTableModel.heads HashTableModel.dups HashTableModel.nbuckets HashTableModel.longest] in *. subst. f_equal; try lia; try congruence; now rewrite ?G. }
  split; [exact B|]. split; [exact S|]. unfold hash_quality. rewrite S, (ic_size _ _ _ _ _ I), (ic_size _ _ _ _ _ I'). now rewrite (lengths_fold _ _ _ L).
Qed.
Lemma probing_order np sz extra prime (hf : key -> N) ks ks' t t' :
  let t0 := new_table np sz extra true prime in
  1 <= size t0 -> fits 64 (size t0) -> Permutation ks ks' -> insert_all hf t0 ks = Ret t -> insert_all hf t0 ks' = Ret t' ->
  (forall i, occupied t i <-> occupied t' i) /\
  inserts (st t) = inserts (st t') /\ heads (st t) = heads (st t') /\ dups (st t) = dups (st t') /\
  nbuckets (st t) = nbuckets (st t') /\ longest (st t) = longest (st t') /\
  probes (st t) + cols (st t) = probes (st t') + cols (st t').
Proof.
  intros t0 H1 H2 P E E'. destruct (parked_new np sz extra prime hf ks t H1 H2 E) as (F & T & U & Pk & X1 & X2).
  destruct (parked_new np sz extra prime hf ks' t' H1 H2 E') as (F' & T' & U' & Pk' & X1' & X2'). fold t0 in Pk, Pk'.
  destruct (parked_order _ H1 _ _ _ _ _ _ _ _ _ _ Pk Pk' (Permutation_map _ P)) as (O & Tq).
  destruct (c04_stats_oa np sz extra prime hf ks t H1 H2 E) as (A1 & A2 & _ & A4 & _). destruct (c04_stats_oa np sz extra prime hf ks' t' H1 H2 E') as (B1 & B2 & _ & B4 & _).
  pose proof (c05_dups np sz extra true prime hf ks t H1 H2 E) as A5. pose proof (c05_dups np sz extra true prime hf ks' t' H1 H2 E') as B5.
  pose proof (c06_longest_oa np sz extra prime hf ks t H1 H2 E) as A6. pose proof (c06_longest_oa np sz extra prime hf ks' t' H1 H2 E') as B6.
  pose proof (Permutation_length P) as Ln.
  assert (Dp : equal_hash_pairs hf ks = equal_hash_pairs hf ks') by (rewrite !equal_hash_pairs_map; apply eq_pairs_perm, Permutation_map, P).
  assert (L1 : length (buckets t) = N.to_nat (size t0)).
  { pose proof (c03_oa_history np sz extra prime hf ks H1 H2) as [Le _]. destruct (c02_oa_contents np sz extra prime hf ks H1 H2 (proj1 Le (ex_intro _ t E))) as (t1 & E1 & _ & L1 & _). fold t0 in E1. rewrite E in E1. injection E1 as <-. exact L1. }
  assert (L2 : length (buckets t') = N.to_nat (size t0)).
  { pose proof (c03_oa_history np sz extra prime hf ks' H1 H2) as [Le _]. destruct (c02_oa_contents np sz extra prime hf ks' H1 H2 (proj1 Le (ex_intro _ t' E'))) as (t1 & E1 & _ & L2 & _). fold t0 in E1. rewrite E' in E1. injection E1 as <-. exact L2. }
  split; [|repeat split; try congruence; lia].
  intros i. rewrite <- !taken_occ. destruct (N.lt_ge_cases i (size t0)) as [Hi|Hi]; [now rewrite (proj2 (O i Hi))|].
  unfold taken. rewrite (proj2 (nth_error_None (buckets t) (N.to_nat i))), (proj2 (nth_error_None (buckets t') (N.to_nat i))) by lia. reflexivity.
Qed.

(** ** Sums over all hash functions *)
Section Sums.
Variable m : N.
Hypothesis Hm : 1 <= m.
Lemma snoc_sum n (f : list N -> N) : sumN f (assignments m (S n)) = sumN (fun w => tot m (fun b => f (w ++ [b]))) (assignments m n).
Proof.
  revert f. induction n as [|n IH]; intros f.
  - cbn [assignments flat_map]. rewrite app_nil_r, sumN_map. unfold tot. rewrite sumN_cons. cbn [app]. cbn [sumN fold_right]. rewrite N.add_0_r. reflexivity.
  - remember (S n) as n1. cbn [assignments]. rewrite sumN_flat. rewrite (sumN_ext _ (fun v => sumN (fun a => f (N.of_nat a :: v)) (seq 0 (N.to_nat m)))) by (intros v _; now rewrite sumN_map).
    rewrite (sumN_swap (fun v a => f (N.of_nat a :: v))). subst n1.
    rewrite (sumN_ext _ (fun a => sumN (fun w => tot m (fun b => f (N.of_nat a :: w ++ [b]))) (assignments m n))) by (intros a _; apply (IH (fun v => f (N.of_nat a :: v)))).
    rewrite (sumN_swap (fun a w => tot m (fun b => f (N.of_nat a :: w ++ [b])))). cbn [assignments]. rewrite sumN_flat. apply sumN_ext. intros w _. now rewrite sumN_map.
Qed.
Definition moved (v : list N) : N := snd (street m v).
Lemma moved_snoc v h : Forall (fun h => h < m) v -> h < m -> N.of_nat (length v) < m ->
  moved (v ++ [h]) = moved v + b2n (fst (fst (fst (street m v))) h).
Proof.
  intros H Hh L. pose proof (street_parked m Hm (v ++ [h])) as P. pose proof (street_parked m Hm v H ltac:(lia)) as Pv.
  unfold moved, street. rewrite fold_left_app. fold (street m v). destruct (street m v) as (((o & F) & T) & U) eqn:E. cbn [fold_left fst snd]. f_equal. unfold place.
  destruct (parked_inv m Hm _ _ _ _ _ Pv) as (_ & _ & I4 & _). destruct (free_exists m Hm o) as (s & Hs & Es); [lia|].
  destruct (find_least m Hm (fun d => negb (o (slot m h d))) (N.to_nat m) 0) as (d & F1 & F2 & F3 & F4).
  { exists (N.to_nat (off m s h)). destruct (off_slot m Hm s h Hs Hh) as [X Y]. rewrite N2Nat.id, X, Es. repeat split; lia. }
  rewrite F1. assert (S0 : slot m h 0 = h) by (unfold slot; rewrite N.add_0_r; destruct (N.ltb_spec h m); lia).
  destruct (N.eqb_spec d 0) as [->|Nd]; cbn [negb].
  - rewrite S0 in F3. apply Bool.negb_true_iff in F3. now rewrite F3.
  - specialize (F4 0 ltac:(lia)). rewrite S0 in F4. apply Bool.negb_false_iff in F4. now rewrite F4.
Qed.
Lemma moved_total n : N.of_nat n <= m -> 2 * m * sumN moved (assignments m n) + N.of_nat n * m ^ N.of_nat n = N.of_nat n * N.of_nat n * m ^ N.of_nat n.
Proof.
  induction n as [|n IH]; intros L; [cbn; lia|]. specialize (IH ltac:(lia)). rewrite snoc_sum. rewrite (sumN_ext _ (fun v => m * moved v + N.of_nat n)).
  - rewrite sumN_plus, sumN_const, sumN_mul, assignments_length, Nat2N.inj_succ, N.pow_succ_r'. set (s := sumN moved _) in *. set (q := m ^ N.of_nat n) in *. nia.
  - intros v Hv. apply assignments_in in Hv. destruct Hv as [Lv H]. rewrite (tot_ext m Hm _ (fun b => moved v + b2n (fst (fst (fst (street m v))) b))) by (intros b Hb; apply moved_snoc; auto; lia).
    rewrite tot_plus. f_equal; [unfold tot; rewrite sumN_const, seq_length; lia|].
    pose proof (street_parked m Hm v H ltac:(lia)) as P. destruct (street m v) as (((o & F) & T) & U). destruct (parked_inv m Hm _ _ _ _ _ P) as (_ & _ & I4 & _). cbn [fst]. lia.
Qed.
Lemma parked_moved v o F T U : parked m v o F T U -> N.of_nat (length v) <= m -> U = moved v.
Proof.
  induction 1 as [|hs o F T U h d o' F' P IH Hh Hd Ef Eo _ _]; intros L; [reflexivity|]. rewrite app_length in L. cbn [length] in L. specialize (IH ltac:(lia)).
  destruct (parked_inv m Hm _ _ _ _ _ P) as (Fa & _). rewrite moved_snoc by (auto; lia). rewrite IH. f_equal. pose proof (street_parked m Hm hs Fa ltac:(lia)) as Q.
  destruct (street m hs) as (((o1 & F1) & T1) & U1). cbn [fst]. destruct (parked_order m Hm _ _ _ _ _ _ _ _ _ _ P Q (Permutation_refl _)) as (X & _). rewrite <- (proj2 (X h Hh)).
  assert (S0 : slot m h 0 = h) by (unfold slot; rewrite N.add_0_r; destruct (N.ltb_spec h m); lia).
  destruct (N.eqb_spec d 0) as [->|Nd]; cbn [negb]; [rewrite S0 in Ef; now rewrite Ef|]. specialize (Eo 0 ltac:(lia)). rewrite S0 in Eo. now rewrite Eo.
Qed.
Lemma parked_flow v o F T U : parked m v o F T U -> N.of_nat (length v) <= m -> T = tot m (flow m v).
Proof.
  intros P L. destruct (parked_inv m Hm _ _ _ _ _ P) as (Fa & _ & _ & I). pose proof (street_parked m Hm v Fa L) as Q. unfold flow. destruct (street m v) as (((o1 & F1) & T1) & U1). cbn [fst snd].
  destruct (parked_order m Hm _ _ _ _ _ _ _ _ _ _ P Q (Permutation_refl _)) as (X & _). rewrite <- I. apply tot_ext; [exact Hm|]. intros s Hs. now apply X.
Qed.
(** Knuth's sum. *)
Definition Qsum (a : nat) (n : nat) : N := sumN (fun k => falling (N.of_nat (n - 1)) k * m ^ N.of_nat (n - k)) (seq a (n - a)).
Lemma falling_succ M k : falling (M + 1) (S k) = (M + 1) * falling M k.
Proof. induction k as [|k IH]; [cbn [falling]; lia|]. cbn [falling] in *. rewrite IH. replace (M + 1 - N.of_nat (S k)) with (M - N.of_nat k) by lia. lia. Qed.
Lemma Qsum_succ n : (1 <= n)%nat -> Qsum 1 (S n) = N.of_nat n * (m ^ N.of_nat n + Qsum 1 n) /\ Qsum 2 (S n) = N.of_nat n * Qsum 1 n.
Proof.
  intros Hn. assert (A : Qsum 2 (S n) = N.of_nat n * Qsum 1 n).
  { unfold Qsum. replace (S n - 2)%nat with (n - 1)%nat by lia. rewrite <- (seq_shift (n - 1) 1), sumN_map, <- sumN_mul. apply sumN_ext. intros k Hk. apply in_seq in Hk.
    replace (S n - 1)%nat with n by lia. replace (S n - S k)%nat with (n - k)%nat by lia. replace (N.of_nat n) with (N.of_nat (n - 1) + 1) at 1 by lia. rewrite falling_succ. replace (N.of_nat (n - 1) + 1) with (N.of_nat n) by lia. lia. }
  split; [|exact A]. unfold Qsum. replace (S n - 1)%nat with (S (n - 1)) by lia. cbn [seq]. rewrite sumN_cons.
  replace (S (n - 1)) with n by lia. replace (S n - 1)%nat with n by lia.
  unfold Qsum in A. replace (S n - 2)%nat with (n - 1)%nat in A by lia. replace (S n - 1)%nat with n in A by lia. rewrite A.
  cbn [falling]. unfold Qsum. lia.
Qed.
Lemma displaced_closed n : N.of_nat n <= m -> 2 * displaced m n = N.of_nat n * Qsum 1 n.
Proof.
  induction n as [|n IH]; intros L.
  - unfold displaced. cbn [assignments]. rewrite sumN_cons. change (sumN _ []) with 0. unfold flow. cbn [street fold_left fst snd]. rewrite tot_0. cbn. lia.
  - rewrite (displaced_rec m Hm) by assumption. specialize (IH ltac:(lia)). pose proof (pairs_total m (S n)) as P. set (e := sumN eq_pairs _) in *.
    destruct n as [|n].
    + unfold Qsum. cbn [Nat.sub seq]. change (sumN _ []) with 0. change (N.of_nat 0) with 0 in IH. change (N.of_nat 1) with 1 in *. rewrite N.pow_1_r in P.
      assert (e = 0) by nia. lia.
    + destruct (Qsum_succ (S n) ltac:(lia)) as [Q _]. rewrite Q. remember (S n) as n1. rewrite Nat2N.inj_succ, N.pow_succ_r' in P. set (q := m ^ N.of_nat n1) in *. set (k := Qsum 1 n1) in *. rewrite Nat2N.inj_succ.
      assert (E2 : 2 * e = (N.of_nat n1 + 1) * N.of_nat n1 * q).
      { apply (N.mul_cancel_l _ _ m); [lia|]. nia. }
      nia.
Qed.
Lemma falling_le M k : falling M k <= M ^ N.of_nat k.
Proof. induction k as [|k IH]; [cbn; lia|]. cbn [falling]. rewrite Nat2N.inj_succ, N.pow_succ_r', (N.mul_comm M). apply N.mul_le_mono; [exact IH|lia]. Qed.
Lemma geometric a n c : a <= m -> (c <= n)%nat -> (m - a) * sumN (fun k => a ^ N.of_nat k * m ^ N.of_nat (n - k)) (seq 1 c) + a ^ N.of_nat (S c) * m ^ N.of_nat (n - c) = a * m ^ N.of_nat n.
Proof.
  intros Ha. induction c as [|c IH]; intros Hc; [cbn [seq]; change (sumN _ []) with 0; rewrite Nat.sub_0_r; change (N.of_nat 1) with 1; rewrite N.pow_1_r; lia|].
  specialize (IH ltac:(lia)). rewrite seq_S, sumN_app, sumN_cons. change (sumN _ []) with 0. change (1 + c)%nat with (S c).
  replace (n - c)%nat with (S (n - S c)) in IH by lia. rewrite (Nat2N.inj_succ (S c)), (N.pow_succ_r' a).
  rewrite (Nat2N.inj_succ (n - S c)), (N.pow_succ_r' m) in IH.
  set (q := a ^ N.of_nat (S c)) in *. set (r := m ^ N.of_nat (n - S c)) in *. set (s := sumN _ (seq 1 c)) in *. rewrite <- IH.
  assert (E : (m - a) * (q * r) + a * (q * r) = m * (q * r)) by nia. nia.
Qed.
Lemma Qsum_le n : N.of_nat n <= m -> (m - N.of_nat (n - 1)) * Qsum 1 n <= N.of_nat (n - 1) * m ^ N.of_nat n.
Proof.
  intros L. rewrite <- (geometric (N.of_nat (n - 1)) n (n - 1)) by lia. unfold Qsum.
  match goal with |- ?x * ?s <= ?x * ?t + ?r => assert (s <= t); [|nia] end.
  induction (seq 1 (n - 1)) as [|k l IH]; [apply N.le_refl|]. rewrite !sumN_cons. apply N.add_le_mono; [|exact IH]. apply N.mul_le_mono; [apply falling_le|lia].
Qed.
End Sums.
