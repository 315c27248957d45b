(** C96, C97.  Open addressing: what the order of insertion can change, and the averages of
    Probes and Cols over all hash functions. *)
From Coq Require Import Arith ZArith QArith List Lia Permutation.
From Coq Require Import ZifyBool ZifyN ZifyNat.
From Verif Require Import Words WordLemmas HashTableModel HashTableSpec HashTableProofs HashTableProps QualitySpec QualityProofs QualityProps BirthdayProps Parking Probing.
Import ListNotations.
Open Scope N_scope.

(** C96.  Chained table: inserting the same keys in another order permutes each bucket and
    changes no figure. *)
Theorem c96_chained_order : forall np sz extra prime (hf : key -> N) ks ks' t,
  let t0 := new_table np sz extra false prime in
  1 <= size t0 -> fits 64 (size t0) -> Permutation ks ks' -> insert_all hf t0 ks = Ret t ->
  exists t', insert_all hf t0 ks' = Ret t' /\
    Forall2 (@Permutation key) (buckets t) (buckets t') /\ st t' = st t /\ hash_quality t' = hash_quality t.
Proof.
  intros np sz extra prime hf ks ks' t t0 H1 H2 P E. destruct (c01_chained_contents np sz extra prime hf ks' H1 H2) as (t' & E' & _). exists t'. split; [exact E'|].
  destruct (chained_order np sz extra prime hf ks ks' t t' H1 H2 P E E') as (A & B & C). auto.
Qed.
Print Assumptions c96_chained_order.
(** Open addressing: the same slots are taken, and the number of slots looked at
    (Probes + Cols) is the same. *)
Theorem c96_probing_order : forall np sz extra prime (hf : key -> N) ks ks' t,
  let t0 := new_table np sz extra true prime in
  1 <= size t0 -> fits 64 (size t0) -> Permutation ks ks' -> insert_all hf t0 ks = Ret t ->
  exists t', insert_all hf t0 ks' = Ret t' /\
    (forall i, occupied t' i <-> occupied t i) /\
    inserts (st t') = inserts (st t) /\ heads (st t') = heads (st t) /\ dups (st t') = dups (st t) /\
    nbuckets (st t') = nbuckets (st t) /\ longest (st t') = longest (st t) /\
    probes (st t') + cols (st t') = probes (st t) + cols (st t).
Proof.
  intros np sz extra prime hf ks ks' t t0 H1 H2 P E. pose proof (c03_oa_history np sz extra prime hf ks H1 H2) as [L _]. pose proof (c03_oa_history np sz extra prime hf ks' H1 H2) as [L' _].
  destruct (proj2 L') as (t' & E'). { rewrite <- (Permutation_length P). apply L. now exists t. } exists t'. split; [exact E'|].
  destruct (probing_order np sz extra prime hf ks' ks t' t H1 H2 (Permutation_sym P) E' E) as (A & B). auto.
Qed.
Print Assumptions c96_probing_order.
(** Probes and Cols one by one (the printed ppi and cpi) do depend on the order. *)
Theorem c96_split_refuted : exists sz (hf : key -> N) ks ks' t t', Permutation ks ks' /\ NoDup ks /\
  insert_all hf (new_table ex_np sz 0 true false) ks = Ret t /\ insert_all hf (new_table ex_np sz 0 true false) ks' = Ret t' /\
  probes (st t) <> probes (st t') /\ cols (st t) <> cols (st t').
Proof.
  exists 4%Z, (given [[1]; [2]; [3]] [0; 1; 0]), [[1]; [2]; [3]], [[1]; [3]; [2]].
  do 2 eexists. split; [apply perm_skip, perm_swap|]. split; [repeat constructor; cbn; intuition discriminate|]. split; [vm_compute; reflexivity|]. split; [vm_compute; reflexivity|]. vm_compute. split; discriminate.
Qed.
Print Assumptions c96_split_refuted.
Example c96_nonvacuous : exists t t',
  let hf := given [[1]; [2]; [3]] [0; 1; 0] in
  insert_all hf (new_table ex_np 4 0 true false) [[1]; [2]; [3]] = Ret t /\
  insert_all hf (new_table ex_np 4 0 true false) [[3]; [1]; [2]] = Ret t' /\
  buckets t = [[[1]]; [[2]]; [[3]]; []] /\ buckets t' = [[[3]]; [[1]]; [[2]]; []] /\
  (probes (st t), cols (st t)) = (4, 1) /\ (probes (st t'), cols (st t')) = (5, 0).
Proof. do 2 eexists. cbv zeta. split; [vm_compute; reflexivity|]. split; [vm_compute; reflexivity|]. vm_compute. repeat split; reflexivity. Qed.
Example c96_chained_nonvacuous : exists t t',
  let hf := given [[1]; [2]; [3]] [0; 1; 0] in
  insert_all hf (new_table ex_np 4 0 false false) [[1]; [2]; [3]] = Ret t /\
  insert_all hf (new_table ex_np 4 0 false false) [[3]; [1]; [2]] = Ret t' /\
  buckets t = [[[1]; [3]]; [[2]]; []; []] /\ buckets t' = [[[3]; [1]]; [[2]]; []; []] /\ st t = st t'.
Proof. eexists _, _. split; [vm_compute; reflexivity|]. split; [vm_compute; reflexivity|]. split; [vm_compute; reflexivity|]. split; vm_compute; reflexivity. Qed.

(** C97.  Averages over all m^n hash functions from n distinct keys to the m slots. *)
Lemma after_moved np sz extra prime ks v :
  let t0 := new_table np sz extra true prime in
  let m := size t0 in
  1 <= m -> fits 64 m -> (prime = true \/ exists e, m = 2 ^ e) -> NoDup ks -> N.of_nat (length ks) <= m -> In v (assignments m (length ks)) ->
  exists t, insert_all (given ks v) t0 ks = Ret t /\ probes (st t) = N.of_nat (length ks) + moved m v /\
    probes (st t) + cols (st t) = N.of_nat (length ks) + tot m (flow m v).
Proof.
  intros t0 m H1 H2 Hp D L Hv. apply assignments_in in Hv. destruct Hv as [Lv Fv].
  destruct (c02_oa_contents np sz extra prime (given ks v) ks H1 H2 L) as (t & E & _). exists t. split; [exact E|].
  destruct (parked_new np sz extra prime (given ks v) ks t H1 H2 E) as (F & T & U & P & X1 & X2). fold t0 in P. fold m in P.
  assert (Ev : map (fun k => home prime m (given ks v k)) ks = v).
  { rewrite <- (map_map (given ks v) (home prime m)), given_map by auto. rewrite <- (map_id v) at 2. apply map_ext_in. intros a Ha. apply home_small; [exact Hp|]. now apply (proj1 (Forall_forall _ v) Fv). }
  rewrite Ev in P. rewrite (parked_moved m H1 v _ _ _ _ P) in X1 by (rewrite Lv; exact L). rewrite (parked_flow m H1 v _ _ _ _ P) in X2 by (rewrite Lv; exact L). auto.
Qed.
Theorem c97_probes : forall np sz extra prime ks,
  let t0 := new_table np sz extra true prime in
  let m := size t0 in
  let n := N.of_nat (length ks) in
  1 <= m -> fits 64 m -> (prime = true \/ exists e, m = 2 ^ e) -> NoDup ks -> n <= m ->
  2 * m * sumN (fun v => after (fun t => probes (st t)) 0 (given ks v) t0 ks) (assignments m (length ks)) = n * (2 * m + n - 1) * m ^ n.
Proof.
  intros np sz extra prime ks t0 m n H1 H2 Hp D L.
  rewrite (sumN_ext _ (fun v => n + moved m v)).
  - rewrite sumN_plus, sumN_const, assignments_length. pose proof (moved_total m H1 (length ks) L) as M. fold n in M |- *. set (q := m ^ n) in *. set (s := sumN _ _) in *. destruct (N.eq_dec n 0); [nia|].
    replace (n * (2 * m + n - 1) * q) with (2 * m * n * q + (n * n * q - n * q)) by nia. nia.
  - intros v Hv. destruct (after_moved np sz extra prime ks v H1 H2 Hp D L Hv) as (t & E & X & _). fold t0 in E. unfold after. now rewrite E.
Qed.
Print Assumptions c97_probes.
(** Slots looked at beyond the first of each key. *)
Lemma c97_total np sz extra prime ks :
  let t0 := new_table np sz extra true prime in
  let m := size t0 in
  let n := N.of_nat (length ks) in
  1 <= m -> fits 64 m -> (prime = true \/ exists e, m = 2 ^ e) -> NoDup ks -> n <= m ->
  2 * sumN (fun v => after (fun t => probes (st t) + cols (st t)) 0 (given ks v) t0 ks) (assignments m (length ks)) = 2 * n * m ^ n + n * Qsum m 1 (length ks).
Proof.
  intros t0 m n H1 H2 Hp D L. rewrite (sumN_ext _ (fun v => n + tot m (flow m v))).
  - rewrite sumN_plus, sumN_const, assignments_length. pose proof (displaced_closed m H1 (length ks) L) as M. unfold displaced in M. fold n in M |- *. lia.
  - intros v Hv. destruct (after_moved np sz extra prime ks v H1 H2 Hp D L Hv) as (t & E & _ & X). fold t0 in E. unfold after. now rewrite E.
Qed.
Theorem c97_cols : forall np sz extra prime ks,
  let t0 := new_table np sz extra true prime in
  let m := size t0 in
  let n := length ks in
  1 <= m -> fits 64 m -> (prime = true \/ exists e, m = 2 ^ e) -> NoDup ks -> N.of_nat n <= m ->
  2 * sumN (fun v => after (fun t => cols (st t)) 0 (given ks v) t0 ks) (assignments m n) =
  N.of_nat n * sumN (fun k => falling (N.of_nat (n - 1)) k * m ^ N.of_nat (n - k)) (seq 2 (n - 2)).
Proof.
  intros np sz extra prime ks t0 m n H1 H2 Hp D L. change (sumN (fun k => falling (N.of_nat (n - 1)) k * m ^ N.of_nat (n - k)) (seq 2 (n - 2))) with (Qsum m 2 n).
  pose proof (c97_total np sz extra prime ks H1 H2 Hp D L) as T. cbv zeta in T. fold t0 in T. fold m in T. fold n in T.
  pose proof (c97_probes np sz extra prime ks H1 H2 Hp D L) as P. cbv zeta in P. fold t0 in P. fold m in P. fold n in P.
  rewrite (sumN_ext _ (fun v => after (fun t => probes (st t)) 0 (given ks v) t0 ks + after (fun t => cols (st t)) 0 (given ks v) t0 ks)) in T.
  2:{ intros v _. unfold after. destruct (insert_all _ _ _); reflexivity. }
  rewrite sumN_plus in T. set (p := sumN (fun v => after (fun t => probes (st t)) _ _ _ _) _) in *. set (c := sumN (fun v => after (fun t => cols (st t)) _ _ _ _) _) in *.
  destruct n as [|[|n1]] eqn:En.
  - change (N.of_nat 0) with 0 in *. lia.
  - change (N.of_nat 1) with 1 in *. change (Qsum m 2 1) with 0. change (Qsum m 1 1) with 0 in T. rewrite N.pow_1_r in *. nia.
  - destruct (Qsum_succ m H1 (S n1) ltac:(lia)) as [Q1 Q2]. rewrite Q1 in T. rewrite Q2. rewrite (Nat2N.inj_succ (S n1)), N.pow_succ_r' in T, P. rewrite (Nat2N.inj_succ (S n1)). set (x := N.of_nat (S n1)) in *. set (q := m ^ x) in *. set (s := Qsum m 1 (S n1)) in *.
    assert (E2 : 2 * p = N.succ x * (2 * m + x) * q).
    { apply (N.mul_cancel_l _ _ m); [lia|]. replace (2 * m + N.succ x - 1) with (2 * m + x) in P by lia. nia. }
    nia.
Qed.
Print Assumptions c97_cols.
(** With n keys in m slots an insertion looks at no more than 1 + (n-1)/(2(m-n+1)) slots on average,
    however large the table. *)
Theorem c97_bound : forall np sz extra prime ks,
  let t0 := new_table np sz extra true prime in
  let m := size t0 in
  let n := N.of_nat (length ks) in
  1 <= m -> fits 64 m -> (prime = true \/ exists e, m = 2 ^ e) -> NoDup ks -> 1 <= n <= m ->
  2 * (m - n + 1) * sumN (fun v => after (fun t => probes (st t) + cols (st t)) 0 (given ks v) t0 ks) (assignments m (length ks)) <=
  n * (2 * (m - n + 1) + (n - 1)) * m ^ n.
Proof.
  intros np sz extra prime ks t0 m n H1 H2 Hp D L. pose proof (c97_total np sz extra prime ks H1 H2 Hp D (proj2 L)) as T. cbv zeta in T. fold t0 in T. fold m in T. fold n in T.
  pose proof (Qsum_le m H1 (length ks) (proj2 L)) as Q. fold n in Q. replace (N.of_nat (length ks - 1)) with (n - 1) in Q by lia. replace (m - (n - 1)) with (m - n + 1) in Q by lia.
  set (s := sumN _ _) in *. set (q := m ^ n) in *. set (x := Qsum m 1 (length ks)) in *. set (r := m - n + 1) in *.
  replace (2 * r * s) with (r * (2 * s)) by lia. rewrite T. replace (r * (2 * n * q + n * x)) with (2 * r * n * q + n * (r * x)) by lia. nia.
Qed.
Print Assumptions c97_bound.
Example c97_nonvacuous : let t0 := new_table ex_np 4 0 true false in let ks := [[1]; [2]; [3]] in
  size t0 = 4 /\ NoDup ks /\ length (assignments 4 3) = 64%nat /\
  sumN (fun v => after (fun t => probes (st t)) 0 (given ks v) t0 ks) (assignments 4 3) = 240 /\
  sumN (fun v => after (fun t => cols (st t)) 0 (given ks v) t0 ks) (assignments 4 3) = 12 /\
  2 * 4 * 240 = 3 * (2 * 4 + 3 - 1) * 4 ^ 3 /\ 2 * 12 = 3 * (falling 2 2 * 4 ^ 1) /\
  2 * (4 - 3 + 1) * (240 + 12) <= 3 * (2 * (4 - 3 + 1) + (3 - 1)) * 4 ^ 3.
Proof. cbv zeta. split; [reflexivity|]. split; [repeat constructor; cbn; intuition discriminate|]. split; [reflexivity|]. split; [vm_compute; reflexivity|]. split; [vm_compute; reflexivity|]. split; [reflexivity|]. split; [reflexivity|]. vm_compute. discriminate. Qed.
