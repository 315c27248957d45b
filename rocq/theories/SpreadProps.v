(** C104.  How far the reported figures can be from their averages by chance. *)
From Coq Require Import ZArith QArith Qabs List Lia Permutation.
From Verif Require Import Words WordLemmas HashTableModel HashTableSpec HashTableProofs HashTableProps QualitySpec QualityProofs QualityProps SpreadSpec SpreadProofs.
Import ListNotations.
Open Scope N_scope.

Lemma home_mod prime m a : (prime = true \/ exists e, m = 2 ^ e) -> home prime m a = a mod m.
Proof.
  intros H. unfold home. destruct prime; [reflexivity|]. destruct H as [H|(e & ->)]; [discriminate|].
  rewrite <- N.pred_sub. rewrite <- (N.ones_equiv e), N.land_ones. reflexivity.
Qed.
(** The quality of one placement. *)
Lemma quality_value np sz extra prime ks v : let t0 := new_table np sz extra false prime in let m := size t0 in
  1 <= m -> fits 64 m -> (prime = true \/ exists e, m = 2 ^ e) -> NoDup ks -> ks <> [] -> length v = length ks ->
  (quality_of (given ks v) t0 ks == inject_Z (Z.of_N (2 * m * (N.of_nat (length ks) + eq_pairs (map (fun a => a mod m) v)))) /
    inject_Z (Z.of_nat (length ks) * (Z.of_nat (length ks) + 2 * Z.of_N m - 1)))%Q.
Proof.
  intros t0 m H1 H2 Hp Hd Hne L. destruct (c01_chained_contents np sz extra prime (given ks v) ks H1 H2) as (t & E & _). fold t0 in E. unfold quality_of. rewrite E.
  rewrite (c09_hash_quality np sz extra prime (given ks v) ks t H1 H2 Hne E). fold t0. fold m.
  assert (P : same_bucket_pairs prime m (given ks v) ks = eq_pairs (map (fun a => a mod m) v)).
  { unfold same_bucket_pairs. rewrite equal_hash_pairs_map, <- (map_map (given ks v) (home prime m)), given_map by auto. f_equal. apply map_ext. intros a. now apply home_mod. }
  rewrite P. unfold Qdiv. apply Qmult_comp; [|reflexivity]. apply inject_Z_injective. lia.
Qed.
Lemma sum_Q_Z {A} (f : A -> Z) (d : Q) l : (sum_Q (fun a => inject_Z (f a) / d) l == inject_Z (sumZ f l) / d)%Q.
Proof.
  induction l as [|a l IH]; [cbn; unfold Qdiv; ring|]. cbn [sum_Q sumZ fold_right]. fold (sum_Q (fun a => inject_Z (f a) / d)%Q l) (sumZ f l).
  rewrite IH, inject_Z_plus. unfold Qdiv. ring.
Qed.
Lemma inject_nonzero x : (0 < x)%Z -> ~ (inject_Z x == 0)%Q.
Proof. intros Hx Z. change 0%Q with (inject_Z 0) in Z. apply (proj1 (inject_Z_injective _ _)) in Z. lia. Qed.
Lemma pow_wide (m : N) (c n : nat) : (Z.of_nat c ^ Z.of_nat n * Z.of_N (m ^ N.of_nat n)%N = Z.of_N ((m * N.of_nat c) ^ N.of_nat n)%N)%Z.
Proof. rewrite N.pow_mul_l, N2Z.inj_mul, (N2Z.inj_pow (N.of_nat c)), !nat_N_Z. lia. Qed.

(** The average of C94 over all functions to M = m c hash values (so over all functions to 64-bit
    values when m is a power of two). *)
Theorem c104_average : forall np sz extra prime ks (c : nat),
  let t0 := new_table np sz extra false prime in
  let m := size t0 in
  1 <= m -> fits 64 m -> (prime = true \/ exists e, m = 2 ^ e) -> NoDup ks -> ks <> [] ->
  let M := m * N.of_nat c in
  (sum_Q (fun v => quality_of (given ks v) t0 ks) (assignments M (length ks)) == inject_Z (Z.of_N (M ^ N.of_nat (length ks))))%Q.
Proof.
  intros np sz extra prime ks c t0 m H1 H2 Hp Hd Hne M. set (n := Z.of_nat (length ks)). set (d := (n * (n + 2 * Z.of_N m - 1))%Z).
  assert (Hn : (1 <= n)%Z) by (unfold n; destruct ks; [contradiction|cbn [length]; lia]).
  set (f := fun v => Z.of_N (2 * m * (N.of_nat (length ks) + eq_pairs v))).
  rewrite (sum_Q_ext _ (fun v => inject_Z (f (map (fun a => a mod m) v)) / inject_Z d)%Q).
  - rewrite sum_Q_Z. unfold M. rewrite (wide m c (length ks) f H1), <- pow_wide. unfold f. rewrite <- sumZ_of_N, sumN_mul, sumN_plus, sumN_const, assignments_length. pose proof (pairs_total m (length ks)) as P.
    set (q := m ^ N.of_nat (length ks)) in *. set (s := sumN eq_pairs _) in *.
    assert (E : Z.of_N (2 * m * (N.of_nat (length ks) * q + s)) = (d * Z.of_N q)%Z).
    { apply (f_equal Z.of_N) in P. unfold d. rewrite ?N2Z.inj_add, ?N2Z.inj_mul, ?N2Z.inj_add, ?N2Z.inj_mul, ?nat_N_Z in *. fold n in P |- *. change (Z.of_N 2) with 2%Z in *. nia. }
    rewrite E, !inject_Z_mult. field. apply inject_nonzero. unfold d. nia.
  - intros v Hv. apply assignments_in in Hv. destruct Hv as [L _]. exact (quality_value np sz extra prime ks v H1 H2 Hp Hd Hne L).
Qed.
Print Assumptions c104_average.
(** Over all functions from n distinct keys to M = m c hash values the squared distances of the
    quality from 1 sum up to M^n 2 (n - 1) (m - 1) / (n (n + 2m - 1)^2). *)
Theorem c104_spread : forall np sz extra prime ks (c : nat),
  let t0 := new_table np sz extra false prime in
  let m := size t0 in
  1 <= m -> fits 64 m -> (prime = true \/ exists e, m = 2 ^ e) -> NoDup ks -> ks <> [] ->
  let M := m * N.of_nat c in
  let n := Z.of_nat (length ks) in
  let D := (n + 2 * Z.of_N m - 1)%Z in
  (sum_Q (fun v => (quality_of (given ks v) t0 ks - 1) * (quality_of (given ks v) t0 ks - 1)) (assignments M (length ks)) ==
   inject_Z (Z.of_N (M ^ N.of_nat (length ks))) * (inject_Z (2 * (n - 1) * (Z.of_N m - 1)) / inject_Z (n * (D * D))))%Q.
Proof.
  intros np sz extra prime ks c t0 m H1 H2 Hp Hd Hne M n D. assert (Hn : (1 <= n)%Z) by (unfold n; destruct ks; [contradiction|cbn [length]; lia]).
  assert (HD : (1 <= D)%Z) by (unfold D; lia). set (f := fun v => let e := (2 * Z.of_N m * Z.of_N (eq_pairs v) - Z.of_nat (length ks) * (Z.of_nat (length ks) - 1))%Z in (e * e)%Z).
  rewrite (sum_Q_ext _ (fun v => inject_Z (f (map (fun a => a mod m) v)) / inject_Z (n * D * (n * D)))%Q).
  - rewrite sum_Q_Z. unfold M. rewrite (wide m c (length ks) f H1). unfold f. rewrite deviations, Z.mul_assoc, pow_wide. fold n. fold M.
    rewrite !inject_Z_mult. pose proof (inject_nonzero n ltac:(lia)). pose proof (inject_nonzero D ltac:(lia)). field. split; assumption.
  - intros v Hv. apply assignments_in in Hv. destruct Hv as [L _]. pose proof (quality_value np sz extra prime ks v H1 H2 Hp Hd Hne L) as QV. cbv zeta in QV. fold t0 in QV. fold m in QV. fold n in QV. fold D in QV. rewrite QV. clear QV. unfold f. cbv zeta. fold n.
    set (p := eq_pairs _). replace (Z.of_N (2 * m * (N.of_nat (length ks) + p))) with (2 * Z.of_N m * (n + Z.of_N p))%Z by (unfold n; lia).
    replace (2 * Z.of_N m * Z.of_N p - n * (n - 1))%Z with (2 * Z.of_N m * (n + Z.of_N p) - n * D)%Z by (unfold D; ring).
    set (a := (2 * Z.of_N m * (n + Z.of_N p))%Z). set (d := (n * D)%Z). assert (Hd' : ~ (inject_Z d == 0)%Q) by (apply inject_nonzero; unfold d; nia).
    unfold Z.sub. rewrite !inject_Z_mult, inject_Z_plus, inject_Z_opp. field. exact Hd'.
Qed.
Print Assumptions c104_spread.
(** So at most one in 4 n eps^2 of the functions gives a quality that is off 1 by eps or more,
    however many buckets there are. *)
Theorem c104_quality_chance : forall np sz extra prime ks (c : nat) eps,
  let t0 := new_table np sz extra false prime in
  let m := size t0 in
  1 <= m -> fits 64 m -> (prime = true \/ exists e, m = 2 ^ e) -> NoDup ks -> (0 <= eps)%Q ->
  let M := m * N.of_nat c in
  let n := N.of_nat (length ks) in
  (inject_Z (Z.of_N (4 * n * how_many (fun v => off_one eps (quality_of (given ks v) t0 ks)) (assignments M (length ks)))) * (eps * eps) <= inject_Z (Z.of_N (M ^ n)))%Q.
Proof.
  intros np sz extra prime ks c eps t0 m H1 H2 Hp Hd He M n. destruct (list_eq_dec (list_eq_dec N.eq_dec) ks []) as [->|Hne].
  - cbn [length] in n. unfold n. cbn [length N.of_nat]. rewrite N.mul_0_r, N.mul_0_l. cbn. rewrite Qmult_0_l. discriminate.
  - pose proof (chebyshev (fun v => quality_of (given ks v) t0 ks) eps (assignments M (length ks)) He) as C. cbv beta in C.
    pose proof (c104_spread np sz extra prime ks c H1 H2 Hp Hd Hne) as SP. cbv zeta in SP. fold t0 in SP. fold m in SP. fold M in SP. fold n in SP. rewrite SP in C. clear SP. set (w := how_many _ _) in *.
    set (x := Z.of_nat (length ks)) in *. assert (Hx : (1 <= x)%Z) by (unfold x; destruct ks; [contradiction|cbn [length]; lia]). set (y := Z.of_N m) in *. assert (Hy : (1 <= y)%Z) by (unfold y; lia).
    set (D := (x + 2 * y - 1)%Z) in *. assert (HD : (1 <= D)%Z) by (unfold D; lia).
    assert (B : (inject_Z (4 * x) * (inject_Z (2 * (x - 1) * (y - 1)) / inject_Z (x * (D * D))) <= 1)%Q).
    { setoid_replace (inject_Z (4 * x) * (inject_Z (2 * (x - 1) * (y - 1)) / inject_Z (x * (D * D))))%Q with (inject_Z (8 * (x - 1) * (y - 1)) / inject_Z (D * D))%Q.
      - apply Qle_shift_div_r; [change 0%Q with (inject_Z 0); rewrite <- Zlt_Qlt; nia|]. rewrite Qmult_1_l, <- Zle_Qle. unfold D. pose proof (Z.square_nonneg (x - 1 - 2 * (y - 1))) as SQ. assert (0 <= (x - 1) * (y - 1))%Z by (apply Z.mul_nonneg_nonneg; lia). clear -SQ Hx Hy. lia.
      - rewrite !inject_Z_mult. pose proof (inject_nonzero x ltac:(lia)). pose proof (inject_nonzero D ltac:(lia)). change (inject_Z 8) with (inject_Z 4 * inject_Z 2)%Q. field. split; assumption. }
    replace (Z.of_N (4 * n * w)) with (4 * x * Z.of_N w)%Z by (unfold n, x; lia). rewrite inject_Z_mult.
    assert (P4 : (0 <= inject_Z (4 * x))%Q) by (change 0%Q with (inject_Z 0); rewrite <- Zle_Qle; lia).
    assert (PM : (0 <= inject_Z (Z.of_N (M ^ n)))%Q) by (change 0%Q with (inject_Z 0); rewrite <- Zle_Qle; lia).
    apply (Qmult_le_compat_r _ _ (inject_Z (4 * x))) in C; [|exact P4]. apply (Qmult_le_compat_r _ _ (inject_Z (Z.of_N (M ^ n)))) in B; [|exact PM].
    eapply Qle_trans; [|eapply Qle_trans; [exact C|]].
    + apply Qle_lteq. right. ring.
    + rewrite Qmult_1_l in B. eapply Qle_trans; [|exact B]. apply Qle_lteq. right. ring.
Qed.
Print Assumptions c104_quality_chance.

(** The same for Dups (either mode), over all functions to M hash values. *)
Theorem c104_dups_spread : forall np sz extra oa prime ks M,
  let t0 := new_table np sz extra oa prime in
  1 <= size t0 -> fits 64 (size t0) -> NoDup ks -> (oa = true -> N.of_nat (length ks) <= size t0) ->
  let n := Z.of_nat (length ks) in
  (fold_right Z.add 0 (map (fun v => (2 * Z.of_N M * Z.of_N (after (fun t => dups (st t)) 0%N (given ks v) t0 ks) - n * (n - 1)) ^ 2) (assignments M (length ks))) =
   Z.of_N (M ^ N.of_nat (length ks))%N * (2 * n * (n - 1) * (Z.of_N M - 1)))%Z.
Proof.
  intros np sz extra oa prime ks M t0 H1 H2 D Ho n. unfold n. rewrite <- deviations. unfold sumZ. cbv zeta.
  rewrite <- (map_ext_in (fun v => (2 * Z.of_N M * Z.of_N (eq_pairs v) - Z.of_nat (length ks) * (Z.of_nat (length ks) - 1)) * (2 * Z.of_N M * Z.of_N (eq_pairs v) - Z.of_nat (length ks) * (Z.of_nat (length ks) - 1)))%Z).
  - induction (assignments M (length ks)) as [|v l IH]; [reflexivity|]. cbn [map fold_right]. now rewrite IH.
  - intros v Hv. apply assignments_in in Hv. destruct Hv as [L _]. assert (T : exists t, insert_all (given ks v) t0 ks = Ret t).
    { destruct oa; [destruct (c02_oa_contents np sz extra prime (given ks v) ks H1 H2 (Ho eq_refl)) as (t & E & _)|destruct (c01_chained_contents np sz extra prime (given ks v) ks H1 H2) as (t & E & _)]; exists t; exact E. }
    destruct T as (t & E). unfold after. rewrite E, (c05_dups np sz extra oa prime (given ks v) ks t H1 H2 E), equal_hash_pairs_map, given_map by auto. ring.
Qed.
Print Assumptions c104_dups_spread.

(** LongestChain: at most choose(n, k) / m^(k-1) of the functions give k or more. *)
Lemma list_max_ge l k : (1 <= k)%nat -> (k <= list_max l)%nat -> exists x, In x l /\ (k <= x)%nat.
Proof. intros Hk. induction l as [|a l IH]; cbn [list_max fold_right]; [lia|]. fold (list_max l). intros H. destruct (Nat.le_gt_cases k a); [exists a; split; [now left|lia]|]. destruct IH as (x & Hx & L); [lia|]. exists x. split; [now right|exact L]. Qed.
Lemma list_max_in l x : In x l -> (x <= list_max l)%nat.
Proof. induction l as [|a l IH]; [intros []|]. cbn [list_max fold_right]. fold (list_max l). intros [<-|H]; [lia|]. specialize (IH H). lia. Qed.
Lemma filter_map_len (p : N -> bool) (g : key -> N) ks : length (filter (fun k => p (g k)) ks) = length (filter p (map g ks)).
Proof. induction ks as [|k ks IH]; [reflexivity|]. cbn [filter map]. destruct (p (g k)); cbn [length]; now rewrite IH. Qed.
Lemma longest_value np sz extra prime ks v : let t0 := new_table np sz extra false prime in let m := size t0 in
  1 <= m -> fits 64 m -> (prime = true \/ exists e, m = 2 ^ e) -> NoDup ks -> length v = length ks ->
  forall k, (2 <= k)%nat -> (N.of_nat k <=? after (fun t => longest (st t)) 0 (given ks v) t0 ks) = crowded m k (map (fun a => a mod m) v).
Proof.
  intros t0 m H1 H2 Hp Hd L k Hk. destruct (c01_chained_contents np sz extra prime (given ks v) ks H1 H2) as (t & E & _ & LB & B). fold t0 in E, LB, B. fold m in LB, B. unfold after. rewrite E.
  rewrite (c06_longest_chain np sz extra prime (given ks v) ks t H1 H2 E).
  assert (Bk : forall b, b < m -> exists l, nth_error (buckets t) (N.to_nat b) = Some l /\ length l = tally b (map (fun a => a mod m) v)).
  { intros b Hb. eexists. split; [apply B, Hb|]. unfold tally. rewrite (filter_map_len (fun a => a =? b) (fun k => home prime m (given ks v k)) ks).
    rewrite <- (map_map (given ks v) (home prime m)), given_map by auto. do 2 f_equal. apply map_ext. intros a. now apply home_mod. }
  assert (X : (k <= longest_bucket t)%nat <-> crowded m k (map (fun a => a mod m) v) = true).
  { unfold crowded, longest_bucket. rewrite existsb_exists. split.
    - intros H. apply list_max_ge in H; [|lia]. destruct H as (x & Hx & Lx). apply in_map_iff in Hx. destruct Hx as (l & <- & Hl). apply In_nth_error in Hl. destruct Hl as (i & Hi).
      assert (Li : (i < length (buckets t))%nat) by (apply nth_error_Some; congruence). exists i. split; [apply in_seq; lia|]. apply Nat.leb_le.
      destruct (Bk (N.of_nat i) ltac:(lia)) as (l' & E1 & E2). rewrite Nat2N.id, Hi in E1. injection E1 as <-. lia.
    - intros (i & Hi & Li). apply in_seq in Hi. apply Nat.leb_le in Li. destruct (Bk (N.of_nat i) ltac:(lia)) as (l' & E1 & E2). apply nth_error_In in E1.
      apply (in_map (@length key)), list_max_in in E1. lia. }
  destruct (crowded m k _); destruct (Nat.leb_spec 2 (longest_bucket t)) as [Y|Y].
  - apply N.leb_le. assert (k <= longest_bucket t)%nat by now apply X. lia.
  - assert (k <= longest_bucket t)%nat by now apply X. lia.
  - apply N.leb_gt. assert (~ (k <= longest_bucket t)%nat) by (intros Z; apply X in Z; discriminate). lia.
  - apply N.leb_gt. lia.
Qed.
Theorem c104_longest_chance : forall np sz extra prime ks (c k : nat),
  let t0 := new_table np sz extra false prime in
  let m := size t0 in
  1 <= m -> fits 64 m -> (prime = true \/ exists e, m = 2 ^ e) -> NoDup ks -> (2 <= k)%nat ->
  let M := m * N.of_nat c in
  let n := length ks in
  how_many (fun v => N.of_nat k <=? after (fun t => longest (st t)) 0 (given ks v) t0 ks) (assignments M n) * m ^ N.of_nat (k - 1) <= choose n k * M ^ N.of_nat n.
Proof.
  intros np sz extra prime ks c k t0 m H1 H2 Hp Hd Hk M n.
  assert (E : Z.of_N (how_many (fun v => N.of_nat k <=? after (fun t => longest (st t)) 0 (given ks v) t0 ks) (assignments M n)) = (Z.of_nat c ^ Z.of_nat n * Z.of_N (how_many (crowded m k) (assignments m n)))%Z).
  { rewrite !how_many_sum, !sumZ_of_N. unfold M. rewrite <- (wide m c n (fun v => Z.of_N (if crowded m k v then 1 else 0)) H1). apply sumZ_ext. intros v Hv. apply assignments_in in Hv. destruct Hv as [L _].
    pose proof (longest_value np sz extra prime ks v H1 H2 Hp Hd L k Hk) as LV. cbv zeta in LV. fold t0 in LV. fold m in LV. rewrite LV. reflexivity. }
  pose proof (crowded_count m n (k - 1) H1) as C. replace (S (k - 1)) with k in C by lia. apply N2Z.inj_le. rewrite !N2Z.inj_mul, E. unfold M. rewrite <- pow_wide.
  apply N2Z.inj_le in C. rewrite !N2Z.inj_mul in C. assert (0 <= Z.of_nat c ^ Z.of_nat n)%Z by (apply Z.pow_nonneg; lia). set (q := (Z.of_nat c ^ Z.of_nat n)%Z) in *. clearbody q.
  apply (Z.mul_le_mono_nonneg_l _ _ q) in C; [|assumption]. lia.
Qed.
Print Assumptions c104_longest_chance.

(** ... and no function gives less than n / m (for more keys than buckets). *)
Theorem c104_longest_least : forall np sz extra prime (hf : key -> N) ks t,
  let t0 := new_table np sz extra false prime in
  let m := size t0 in
  1 <= m -> fits 64 m -> m < N.of_nat (length ks) -> insert_all hf t0 ks = Ret t ->
  N.of_nat (length ks) <= m * longest (st t).
Proof.
  intros np sz extra prime hf ks t t0 m H1 H2 Hk E. destruct (c01_chained_contents np sz extra prime hf ks H1 H2) as (t' & E' & _ & LB & B). fold t0 in E', LB, B. fold m in LB, B. rewrite E in E'. injection E' as <-.
  rewrite (c06_longest_chain np sz extra prime hf ks t H1 H2 E).
  pose proof (candidates m (map (fun k => home prime m (hf k)) ks)) as C. rewrite map_length in C.
  assert (F : Forall (fun a => a < m) (map (fun k => home prime m (hf k)) ks)) by (apply Forall_forall; intros a Ha; apply in_map_iff in Ha; destruct Ha as (k & <- & _); now apply home_lt).
  specialize (C F).
  assert (U : sumN (fun a => N.of_nat (length (filter (fun b => b =? N.of_nat a) (map (fun k => home prime m (hf k)) ks)))) (seq 0 (N.to_nat m)) <= m * N.of_nat (longest_bucket t)).
  { apply (N.le_trans _ (sumN (fun _ => N.of_nat (longest_bucket t)) (seq 0 (N.to_nat m)))); [|rewrite sumN_const, seq_length; lia]. apply sumN_le. intros i Hi. apply in_seq in Hi.
    rewrite <- (filter_map_len (fun b => b =? N.of_nat i)). specialize (B (N.of_nat i) ltac:(lia)). apply nth_error_In in B. apply (in_map (@length key)), list_max_in in B. unfold longest_bucket. lia. }
  destruct (Nat.leb_spec 2 (longest_bucket t)); [lia|]. nia.
Qed.
Print Assumptions c104_longest_least.

(** Three keys, four buckets, hash values below 8: 512 functions.  The sum of squares is 512 * 12 / 300;
    32 functions put all three keys in one bucket (quality 1.6), 320 some two. *)
Example c104_nonvacuous :
  let ks := [[1]; [2]; [3; 3]] in
  let t0 := new_table ex_np 4%Z 0%Z false false in
  size t0 = 4 /\ N.of_nat (length (assignments 8 3)) = 512 /\
  (sum_Q (fun v => (quality_of (given ks v) t0 ks - 1) * (quality_of (given ks v) t0 ks - 1)) (assignments 8%N 3) == 512 * (12 # 300))%Q /\
  how_many (fun v => off_one (1 # 2) (quality_of (given ks v) t0 ks)) (assignments 8 3) = 32 /\
  how_many (fun v => 2 <=? after (fun t => longest (st t)) 0 (given ks v) t0 ks) (assignments 8 3) = 320 /\
  how_many (fun v => 3 <=? after (fun t => longest (st t)) 0 (given ks v) t0 ks) (assignments 8 3) = 32 /\ choose 3 3 * 8 ^ 3 = 32 * 4 ^ 2.
Proof. vm_compute. repeat split. Qed.
Example c104_longest_nonvacuous : exists t,
  insert_all (fun k => nth 0 k 0) (new_table ex_np 4 0 false false) [[1]; [5]; [2]; [3]; [9]; [6]; [7]; [4]; [8]] = Ret t /\ longest (st t) = 3 /\ 9 <= 4 * 3.
Proof. eexists. split; [vm_compute; reflexivity|]. split; [vm_compute; reflexivity|lia]. Qed.
