(** C94.  What the hash quality means: averaged over all hash functions it is exactly 1. *)
From Coq Require Import ZArith QArith List Lia Permutation.
From Verif Require Import Words WordLemmas HashTableModel HashTableSpec HashTableProofs HashTableProps QualitySpec QualityProofs.
Import ListNotations.
Open Scope N_scope.

(** [assignments m n] lists each placement of n keys in m buckets once. *)
Theorem c94_assignments : forall m n,
  (forall v, In v (assignments m n) <-> length v = n /\ Forall (fun a => a < m) v) /\ NoDup (assignments m n) /\ N.of_nat (length (assignments m n)) = m ^ N.of_nat n.
Proof. intros m n. split; [intros v; apply assignments_in|]. split; [apply assignments_NoDup|apply assignments_length]. Qed.
Print Assumptions c94_assignments.

Lemma home_small prime m a : (prime = true \/ exists e, m = 2 ^ e) -> a < m -> home prime m a = a.
Proof.
  intros H Ha. unfold home. destruct prime; [now apply N.mod_small|]. destruct H as [H|(e & ->)]; [discriminate|].
  rewrite <- N.pred_sub. rewrite <- (N.ones_equiv e), N.land_ones. now apply N.mod_small.
Qed.
(** The sum of the qualities over all m^n hash functions from n distinct keys to m buckets is m^n. *)
Theorem c94_average : forall np sz extra prime ks,
  let t0 := new_table np sz extra false prime in
  let m := size t0 in
  1 <= m -> fits 64 m -> (prime = true \/ exists e, m = 2 ^ e) -> NoDup ks -> ks <> [] ->
  (forall v, exists t, insert_all (given ks v) t0 ks = Ret t) /\
  (sum_Q (fun v => quality_of (given ks v) t0 ks) (assignments m (length ks)) == inject_Z (Z.of_N (m ^ N.of_nat (length ks))))%Q.
Proof.
  intros np sz extra prime ks t0 m H1 H2 Hp Hd Hne.
  assert (T : forall hf, exists t, insert_all hf t0 ks = Ret t) by (intros hf; destruct (c01_chained_contents np sz extra prime hf ks H1 H2) as (t & E & _); exists t; exact E).
  split; [intros v; apply T|]. set (n := N.of_nat (length ks)). assert (Hn : 1 <= n) by (unfold n; destruct ks; [contradiction|cbn [length]; lia]).
  set (d := inject_Z (Z.of_nat (length ks) * (Z.of_nat (length ks) + 2 * Z.of_N m - 1))).
  transitivity (sum_Q (fun v => inject_Z (Z.of_N (2 * m * (n + eq_pairs v))) / d)%Q (assignments m (length ks))).
  - apply sum_Q_ext. intros v Hv. apply assignments_in in Hv. destruct Hv as [L F]. destruct (T (given ks v)) as (t & E). unfold quality_of. rewrite E.
    rewrite (c09_hash_quality np sz extra prime (given ks v) ks t H1 H2 Hne E). fold t0. fold m. fold d.
    assert (P : same_bucket_pairs prime m (given ks v) ks = eq_pairs v).
    { unfold same_bucket_pairs. rewrite equal_hash_pairs_map, <- (map_map (given ks v) (home prime m)), given_map by auto. f_equal.
      rewrite <- (map_id v) at 2. apply map_ext_in. intros a Ha. apply home_small; [exact Hp|]. now apply (proj1 (Forall_forall _ v) F). }
    rewrite P. unfold Qdiv. apply Qmult_comp; [|reflexivity]. apply inject_Z_injective. unfold n. lia.
  - rewrite sum_Q_div, sumN_mul, sumN_plus, sumN_const, assignments_length. fold n. pose proof (pairs_total m (length ks)) as P. fold n in P.
    set (q := m ^ n) in *. set (s := sumN eq_pairs _) in *. unfold d. rewrite <- (nat_N_Z (length ks)). fold n.
    assert (E : Z.of_N (2 * m * (n * q + s)) = (Z.of_N n * (Z.of_N n + 2 * Z.of_N m - 1) * Z.of_N q)%Z).
    { apply (f_equal Z.of_N) in P. rewrite ?N2Z.inj_add, ?N2Z.inj_mul in *. change (Z.of_N 2) with 2%Z in *. nia. }
    rewrite E.
    rewrite inject_Z_mult. field. intros Z. change 0%Q with (inject_Z 0) in Z. apply (proj1 (inject_Z_injective _ _)) in Z.
    assert (0 < Z.of_N n * (Z.of_N n + 2 * Z.of_N m - 1))%Z by (clearbody m n; clear -Hn H1; apply Z.mul_pos_pos; lia). lia.
Qed.
Print Assumptions c94_average.

Lemma filter_len_le {A} (f : A -> bool) l : (length (filter f l) <= length l)%nat.
Proof. induction l as [|a l IH]; [apply le_n|]. cbn [filter]. destruct (f a); cbn [length]; lia. Qed.
Lemma filter_len_all {A} (f : A -> bool) l : length (filter f l) = length l <-> forall a, In a l -> f a = true.
Proof.
  induction l as [|a l IH]; [split; [intros _ ? []|reflexivity]|]. cbn [filter]. pose proof (filter_len_le f l). destruct (f a) eqn:E; cbn [length]; split.
  - intros H1 b [<-|Hb]; [exact E|]. apply IH; [lia|exact Hb].
  - intros H1. f_equal. apply IH. intros b Hb. apply H1. now right.
  - lia.
  - intros H1. rewrite (H1 a (or_introl eq_refl)) in E. discriminate.
Qed.
Lemma eq_pairs_0 l : eq_pairs l = 0 <-> NoDup l.
Proof.
  induction l as [|a l IH]; [split; [constructor|reflexivity]|]. cbn [eq_pairs]. split.
  - intros H. constructor; [|apply IH; lia]. intros Ha. assert (F : filter (fun b => b =? a) l = []) by (apply length_zero_iff_nil; lia).
    assert (I : In a (filter (fun b => b =? a) l)) by (apply filter_In; split; [exact Ha|apply N.eqb_refl]). rewrite F in I. destruct I.
  - intros H. inversion H as [|? ? Ha Hl]; subst. rewrite (proj2 IH Hl). destruct (filter (fun b => b =? a) l) as [|b r] eqn:F; [reflexivity|].
    assert (I : In b (filter (fun b => b =? a) l)) by (rewrite F; now left). apply filter_In in I. destruct I as [I1 I2]. apply N.eqb_eq in I2. subst b. contradiction.
Qed.
Lemma eq_pairs_max l : 2 * eq_pairs l + N.of_nat (length l) <= N.of_nat (length l) * N.of_nat (length l) /\
  (2 * eq_pairs l + N.of_nat (length l) = N.of_nat (length l) * N.of_nat (length l) <-> forall a b, In a l -> In b l -> a = b).
Proof.
  induction l as [|a l [IH1 IH2]]; [split; [cbn; lia|split; [intros _ ? ? []|reflexivity]]|]. cbn [eq_pairs length].
  pose proof (filter_len_le (fun b => b =? a) l) as L. pose proof (filter_len_all (fun b => b =? a) l) as A. set (c := length (filter _ l)) in *. split; [nia|]. split.
  - intros H. assert (E1 : c = length l) by nia. assert (I : forall b, In b l -> b = a) by (intros b Hb; apply N.eqb_eq; now apply A).
    intros x y [<-|Hx] [<-|Hy]; auto; [symmetry; auto|]. rewrite (I x Hx), (I y Hy). reflexivity.
  - intros H. assert (E1 : c = length l) by (apply A; intros b Hb; apply N.eqb_eq; apply H; [now right|now left]).
    assert (E2 : 2 * eq_pairs l + N.of_nat (length l) = N.of_nat (length l) * N.of_nat (length l)) by (apply IH2; intros; apply H; now right). nia.
Qed.
(** It ranges from the value when no two keys share a bucket to the value when all do. *)
Theorem c94_range : forall np sz extra prime (hf : key -> N) ks t,
  let t0 := new_table np sz extra false prime in
  1 <= size t0 -> fits 64 (size t0) -> ks <> [] -> insert_all hf t0 ks = Ret t ->
  let n := Z.of_nat (length ks) in
  let m := Z.of_N (size t0) in
  let home k := home prime (size t0) (hf k) in
  let best := (inject_Z (2 * m) / inject_Z (n + 2 * m - 1))%Q in
  let worst := (inject_Z (m * (n + 1)) / inject_Z (n + 2 * m - 1))%Q in
  (best <= hash_quality t <= worst)%Q /\
  ((hash_quality t == best)%Q <-> NoDup (map home ks)) /\
  ((hash_quality t == worst)%Q <-> forall k k', In k ks -> In k' ks -> home k = home k').
Proof.
  intros np sz extra prime hf ks t t0 H1 H2 Hne E n m home best worst. pose proof (c09_hash_quality np sz extra prime hf ks t H1 H2 Hne E) as Q. cbv zeta in Q.
  fold t0 in Q. fold n m in Q. unfold same_bucket_pairs in Q. rewrite equal_hash_pairs_map in Q. fold home in Q.
  pose proof (eq_pairs_0 (map home ks)) as Z0. pose proof (eq_pairs_max (map home ks)) as [U1 U2]. rewrite map_length in U1, U2. set (p := eq_pairs _) in *.
  assert (Hn : (1 <= n)%Z) by (unfold n; destruct ks; [contradiction|cbn [length]; lia]). assert (Hm : (1 <= m)%Z) by (unfold m; lia).
  set (D := (n + 2 * m - 1)%Z) in *. assert (HD : (1 <= D)%Z) by (unfold D; lia).
  assert (Ui : forall x : Z, (0 < x)%Z -> ~ (inject_Z x == 0)%Q) by (intros x Hx Z; change 0%Q with (inject_Z 0) in Z; apply (proj1 (inject_Z_injective _ _)) in Z; lia).
  assert (B : (best == inject_Z (2 * m * n) / inject_Z (n * D))%Q) by (unfold best; rewrite !inject_Z_mult; field; split; apply Ui; lia).
  assert (Wq : (worst == inject_Z (m * (n + 1) * n) / inject_Z (n * D))%Q) by (unfold worst; rewrite !inject_Z_mult; field; split; apply Ui; lia).
  assert (Pos : (0 < / inject_Z (n * D))%Q) by (apply Qinv_lt_0_compat; change 0%Q with (inject_Z 0); rewrite <- Zlt_Qlt; nia).
  assert (Cmp : forall x y : Z, (inject_Z x / inject_Z (n * D) <= inject_Z y / inject_Z (n * D))%Q <-> (x <= y)%Z).
  { intros x y. unfold Qdiv. rewrite Qmult_le_r by exact Pos. rewrite <- Zle_Qle. reflexivity. }
  assert (CmpE : forall x y : Z, (inject_Z x / inject_Z (n * D) == inject_Z y / inject_Z (n * D))%Q <-> x = y).
  { intros x y. split; [|intros ->; reflexivity]. intros Eq. assert (A : (x <= y)%Z) by (apply Cmp; rewrite Eq; apply Qle_refl).
    assert (A' : (y <= x)%Z) by (apply Cmp; rewrite Eq; apply Qle_refl). lia. }
  assert (UZ : (2 * Z.of_N p + n <= n * n)%Z) by (unfold n; lia).
  split; [split|split].
  - rewrite B, Q. apply Cmp. nia.
  - rewrite Wq, Q. apply Cmp. nia.
  - rewrite B, Q, CmpE, <- Z0. split; intros H; nia.
  - rewrite Wq, Q, CmpE. transitivity (2 * p + N.of_nat (length ks) = N.of_nat (length ks) * N.of_nat (length ks)); [unfold n; split; intros; nia|].
    rewrite U2. split.
    + intros H k k' Hk Hk'. apply H; now apply in_map.
    + intros H a b Ha Hb. apply in_map_iff in Ha as (k & <- & Hk). apply in_map_iff in Hb as (k' & <- & Hk'). now apply H.
Qed.
Print Assumptions c94_range.

(** In open-addressing mode it depends on the number of keys and slots only. *)
Lemma fold_single (bs : list (list key)) (a : N) : Forall (fun b => length b <= 1)%nat bs ->
  fold_left (fun acc v => match v with [] => acc | _ => acc + N.of_nat (length v) * (N.of_nat (length v) + 1) end) bs a = a + 2 * N.of_nat (length (concat bs)).
Proof.
  intros H. revert a. induction H as [|b bs Hb Hbs IH]; intros a; [cbn; lia|]. cbn [fold_left concat]. rewrite IH, app_length. destruct b as [|k [|k' b]]; cbn [length] in *; lia.
Qed.
Theorem c94_open_addressing : forall np sz extra prime (hf : key -> N) ks t,
  let t0 := new_table np sz extra true prime in
  1 <= size t0 -> fits 64 (size t0) -> ks <> [] -> insert_all hf t0 ks = Ret t ->
  let n := Z.of_nat (length ks) in
  let m := Z.of_N (size t0) in
  (hash_quality t == inject_Z (2 * m) / inject_Z (n + 2 * m - 1))%Q.
Proof.
  intros np sz extra prime hf ks t t0 H1 H2 Hne E n m. pose proof (c03_oa_history np sz extra prime hf ks H1 H2) as [Le _].
  assert (L : N.of_nat (length ks) <= size t0) by (apply Le; exists t; exact E).
  destruct (c02_oa_contents np sz extra prime hf ks H1 H2 L) as (t' & E' & Sz & _ & F & P & _). fold t0 in E', Sz. rewrite E in E'. injection E' as <-.
  destruct (c04_stats_oa np sz extra prime hf ks t H1 H2 E) as (I & _). unfold hash_quality. rewrite I, Sz.
  assert (Hn : (1 <= length ks)%nat) by (destruct ks; [contradiction|cbn [length]; lia]). destruct (N.eqb_spec (N.of_nat (length ks)) 0); [lia|].
  rewrite (fold_single (buckets t) 0 F), (Permutation_length P), N.add_0_l.
  replace (Z.of_N (2 * N.of_nat (length ks) * size t0)) with (2 * m * n)%Z by (unfold m, n; lia).
  replace (Z.of_N (N.of_nat (length ks) * (N.of_nat (length ks) + 2 * size t0 - 1))) with (n * (n + 2 * m - 1))%Z by (unfold m, n; lia).
  rewrite !inject_Z_mult. assert (Ui : forall x : Z, (0 < x)%Z -> ~ (inject_Z x == 0)%Q) by (intros x Hx Z; change 0%Q with (inject_Z 0) in Z; apply (proj1 (inject_Z_injective _ _)) in Z; lia).
  field. split; apply Ui; unfold n, m; lia.
Qed.
Print Assumptions c94_open_addressing.

(** Averages of the two other figures: Dups over all functions to M hash values (any table, either
    mode), Heads over all functions to the buckets. *)
Theorem c94_average_dups : forall np sz extra oa prime ks M,
  let t0 := new_table np sz extra oa prime in
  1 <= size t0 -> fits 64 (size t0) -> NoDup ks -> (oa = true -> N.of_nat (length ks) <= size t0) ->
  let n := N.of_nat (length ks) in
  2 * M * sumN (fun v => after (fun t => dups (st t)) 0 (given ks v) t0 ks) (assignments M (length ks)) + n * M ^ n = n * n * M ^ n.
Proof.
  intros np sz extra oa prime ks M t0 H1 H2 D Ho n. pose proof (pairs_total M (length ks)) as P. fold n in P. rewrite <- P. do 2 f_equal. apply sumN_ext. intros v Hv.
  apply assignments_in in Hv. destruct Hv as [L _]. assert (T : exists t, insert_all (given ks v) t0 ks = Ret t).
  { destruct oa; [destruct (c02_oa_contents np sz extra prime (given ks v) ks H1 H2 (Ho eq_refl)) as (t & E & _)|destruct (c01_chained_contents np sz extra prime (given ks v) ks H1 H2) as (t & E & _)]; exists t; exact E. }
  destruct T as (t & E). unfold after. rewrite E, (c05_dups np sz extra oa prime (given ks v) ks t H1 H2 E), equal_hash_pairs_map. now rewrite given_map by auto.
Qed.
Print Assumptions c94_average_dups.

Definition has (b : N) (v : list N) : bool := existsb (N.eqb b) v.
(** Placements that leave bucket b empty. *)
Lemma missing m n b : b < m -> sumN (fun v => if has b v then 0 else 1) (assignments m n) = (m - 1) ^ N.of_nat n.
Proof.
  intros Hb. induction n as [|n IH]; [reflexivity|]. rewrite Nat2N.inj_succ, N.pow_succ_r'. cbn [assignments]. rewrite sumN_flat.
  rewrite (sumN_ext _ (fun v => (m - 1) * (if has b v then 0 else 1))); [now rewrite sumN_mul, IH|]. intros v _. rewrite sumN_map. unfold has at 1. cbn [existsb]. fold (has b v).
  destruct (has b v); [rewrite (sumN_ext _ (fun _ => 0)); [rewrite sumN_const; lia|intros a _; now destruct (b =? N.of_nat a)]|].
  pose proof (candidate_count m b Hb) as C. assert (X : sumN (fun a => (if ((b =? N.of_nat a) || false)%bool then 0 else 1) + (if b =? N.of_nat a then 1 else 0)) (seq 0 (N.to_nat m)) = m).
  { rewrite (sumN_ext _ (fun _ => 1)); [rewrite sumN_const, seq_length; lia|]. intros a _. now destruct (b =? N.of_nat a). }
  rewrite sumN_plus, C in X. lia.
Qed.
Lemma filter_seq_sum {A} (f : A -> bool) l : N.of_nat (length (filter f l)) = sumN (fun a => if f a then 1 else 0) l.
Proof. induction l as [|a l IH]; [reflexivity|]. cbn [filter]. rewrite sumN_cons, <- IH. destruct (f a); cbn [length]; lia. Qed.
Lemma used_sum (bs : list (list key)) (g : nat -> list key) n : bs = map g (seq 0 n) -> N.of_nat (length (filter nonempty bs)) = sumN (fun i => if nonempty (g i) then 1 else 0) (seq 0 n).
Proof. intros ->. rewrite filter_seq_sum, sumN_map. reflexivity. Qed.
Lemma nonempty_filter {A} (f : A -> bool) l : nonempty (filter f l) = existsb f l.
Proof. induction l as [|a l IH]; [reflexivity|]. cbn [filter existsb]. destruct (f a); [reflexivity|exact IH]. Qed.
Lemma existsb_map {A B} (f : B -> bool) (g : A -> B) l : existsb f (map g l) = existsb (fun a => f (g a)) l.
Proof. induction l as [|a l IH]; [reflexivity|]. cbn [map existsb]. now rewrite IH. Qed.
Theorem c94_average_heads : forall np sz extra prime ks,
  let t0 := new_table np sz extra false prime in
  let m := size t0 in
  1 <= m -> fits 64 m -> (prime = true \/ exists e, m = 2 ^ e) -> NoDup ks ->
  let n := N.of_nat (length ks) in
  sumN (fun v => after (fun t => heads (st t)) 0 (given ks v) t0 ks) (assignments m (length ks)) + m * (m - 1) ^ n = m * m ^ n.
Proof.
  intros np sz extra prime ks t0 m H1 H2 Hp D n.
  assert (E : sumN (fun v => after (fun t => heads (st t)) 0 (given ks v) t0 ks) (assignments m (length ks)) =
    sumN (fun v => sumN (fun i => if has (N.of_nat i) v then 1 else 0) (seq 0 (N.to_nat m))) (assignments m (length ks))).
  { apply sumN_ext. intros v Hv. apply assignments_in in Hv. destruct Hv as [L F]. destruct (c01_chained_contents np sz extra prime (given ks v) ks H1 H2) as (t & E & _ & LB & B).
    fold t0 in E, LB, B. unfold after. rewrite E. destruct (c04_stats_chained np sz extra prime (given ks v) ks t H1 H2 E) as (_ & Hh & _). rewrite Hh. unfold used_buckets.
    rewrite (used_sum (buckets t) (fun i => filter (fun k => home prime (size t0) (given ks v k) =? N.of_nat i) ks) (N.to_nat m)).
    - apply sumN_ext. intros i _. rewrite nonempty_filter. unfold has.
      replace (existsb (N.eqb (N.of_nat i)) v) with (existsb (N.eqb (N.of_nat i)) (map (given ks v) ks)) by (now rewrite (given_map ks v D (eq_sym L))). rewrite existsb_map.
      assert (X : existsb (fun k => home prime (size t0) (given ks v k) =? N.of_nat i) ks = existsb (fun k => N.of_nat i =? given ks v k) ks); [|now rewrite X].
      assert (Hk : forall k, In k ks -> given ks v k < m) by (intros k Hk; apply (proj1 (Forall_forall _ v) F); assert (I : In (given ks v k) (map (given ks v) ks)) by (now apply in_map); rewrite (given_map ks v D (eq_sym L)) in I; exact I).
      clear -Hk Hp. revert Hk. generalize (given ks v) as g. intros g. induction ks as [|k r IH]; intros Hk; [reflexivity|]. cbn [existsb].
      rewrite IH by (intros; apply Hk; now right). fold m. rewrite (home_small prime m (g k) Hp (Hk k (or_introl eq_refl))). now rewrite N.eqb_sym.
    - apply nth_ext with (d := []) (d' := []); [rewrite map_length, seq_length; exact LB|]. intros i Hi. rewrite LB in Hi.
      specialize (B (N.of_nat i) ltac:(lia)). rewrite Nat2N.id in B. rewrite (nth_error_nth _ _ _ B).
      rewrite (nth_indep _ [] (filter (fun k => home prime (size t0) (given ks v k) =? N.of_nat (length (buckets t))) ks)) by (rewrite map_length, seq_length; exact Hi).
      rewrite (map_nth (fun i => filter (fun k => home prime (size t0) (given ks v k) =? N.of_nat i) ks)), seq_nth by exact Hi. reflexivity. }
  rewrite E, sumN_swap.
  rewrite (sumN_ext _ (fun _ => m ^ n - (m - 1) ^ n)).
  - rewrite sumN_const, seq_length, N2Nat.id. assert ((m - 1) ^ n <= m ^ n) by (apply N.pow_le_mono_l; lia). rewrite N.mul_sub_distr_r, (N.mul_comm m (m ^ n)), (N.mul_comm m ((m - 1) ^ n)). apply N.sub_add. now apply N.mul_le_mono_r.
  - intros i Hi. apply in_seq in Hi. pose proof (missing m (length ks) (N.of_nat i) ltac:(lia)) as M. fold n in M.
    assert (X : sumN (fun v => (if has (N.of_nat i) v then 1 else 0) + (if has (N.of_nat i) v then 0 else 1)) (assignments m (length ks)) = m ^ n).
    { rewrite (sumN_ext _ (fun _ => 1)); [rewrite sumN_const, assignments_length; fold n; lia|]. intros v _. now destruct (has (N.of_nat i) v). }
    rewrite sumN_plus, M in X. lia.
Qed.
Print Assumptions c94_average_heads.

(** Three keys in four buckets: 64 placements; best and worst placement; open addressing. *)
Example c94_nonvacuous :
  let ks := [[1]; [2]; [3; 3]] in
  let t0 := new_table ex_np 4%Z 0%Z false false in
  size t0 = 4 /\ length (assignments 4 3) = 64%nat /\ (sum_Q (fun v => quality_of (given ks v) t0 ks) (assignments 4%N 3) == inject_Z 64)%Q /\
  (quality_of (given ks [3; 0; 1]%N) t0 ks == 8 # 10)%Q /\ (quality_of (given ks [2; 2; 2]%N) t0 ks == 16 # 10)%Q /\
  (quality_of (given ks [2; 2; 2]%N) (new_table ex_np 4%Z 0%Z true false) ks == 8 # 10)%Q.
Proof. vm_compute. repeat split. Qed.
Example c94_nonvacuous_figures :
  let ks := [[1]; [2]; [3; 3]] in
  let t0 := new_table ex_np 4%Z 0%Z false false in
  sumN (fun v => after (fun t => heads (st t)) 0 (given ks v) t0 ks) (assignments 4 3) = 148 /\ (148 + 4 * 3 ^ 3 = 4 * 4 ^ 3)%N /\
  sumN (fun v => after (fun t => dups (st t)) 0 (given ks v) t0 ks) (assignments 5 3) = 75.
Proof. vm_compute. repeat split. Qed.
