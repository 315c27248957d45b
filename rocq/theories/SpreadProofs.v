(** Second moment of the number of colliding pairs, and moments of the bucket sizes, over all
    placements (C104). *)
From Coq Require Import ZArith QArith Qabs List Lia Permutation.
From Verif Require Import Words WordLemmas HashTableModel HashTableSpec HashTableProofs QualitySpec QualityProofs SpreadSpec.
Import ListNotations.
Open Scope N_scope.

(** Number of members of [v] equal to [a]. *)
Definition times (a : N) (v : list N) : N := N.of_nat (length (filter (fun b => b =? a) v)).
Lemma times_cons a b v : times a (b :: v) = (if b =? a then 1 else 0) + times a v.
Proof. unfold times. cbn [filter]. destruct (b =? a); cbn [length]; lia. Qed.
Lemma eq_pairs_cons a v : eq_pairs (a :: v) = times a v + eq_pairs v.
Proof. reflexivity. Qed.
Lemma pick m b (f : N -> N) : b < m -> sumN (fun a => if b =? N.of_nat a then f (N.of_nat a) else 0) (seq 0 (N.to_nat m)) = f b.
Proof.
  intros Hb. rewrite (sumN_ext _ (fun a => f b * (if b =? N.of_nat a then 1 else 0))).
  - rewrite sumN_mul, candidate_count by exact Hb. lia.
  - intros a _. destruct (N.eqb_spec b (N.of_nat a)) as [<-|]; lia.
Qed.
Lemma squares m v : Forall (fun a => a < m) v -> sumN (fun a => times (N.of_nat a) v * times (N.of_nat a) v) (seq 0 (N.to_nat m)) = N.of_nat (length v) + 2 * eq_pairs v.
Proof.
  intros H. induction H as [|b v Hb Hv IH]; [cbn [times]; rewrite (sumN_ext _ (fun _ => 0)) by reflexivity; rewrite sumN_const; reflexivity|].
  rewrite (sumN_ext _ (fun a => (if b =? N.of_nat a then 1 + 2 * times (N.of_nat a) v else 0) + times (N.of_nat a) v * times (N.of_nat a) v)).
  - rewrite sumN_plus, IH, (pick m b (fun a => 1 + 2 * times a v)) by exact Hb. rewrite eq_pairs_cons. cbn [length]. lia.
  - intros a _. rewrite times_cons. destruct (b =? N.of_nat a); lia.
Qed.
Lemma squares_step m n v : In v (assignments m n) ->
  sumN (fun a => eq_pairs (N.of_nat a :: v) * eq_pairs (N.of_nat a :: v)) (seq 0 (N.to_nat m)) =
  N.of_nat n + (2 * N.of_nat n + 2) * eq_pairs v + m * (eq_pairs v * eq_pairs v).
Proof.
  intros Hv. apply assignments_in in Hv. destruct Hv as [L F].
  rewrite (sumN_ext _ (fun a => times (N.of_nat a) v * times (N.of_nat a) v + (2 * eq_pairs v * times (N.of_nat a) v + eq_pairs v * eq_pairs v))).
  - rewrite !sumN_plus, sumN_mul, sumN_const, seq_length, (squares m v F). unfold times. rewrite (candidates m v F), L. lia.
  - intros a _. rewrite eq_pairs_cons. lia.
Qed.
(** 4 m^2 (sum of squares) = m^n (2 n (n-1) (m-1) + (n (n-1))^2). *)
Lemma squares_total m n : (let s2 := Z.of_N (sumN (fun v => (eq_pairs v * eq_pairs v)%N) (assignments m n)) in
  let n' := Z.of_nat n in let m' := Z.of_N m in
  4 * m' * m' * s2 = Z.of_N (m ^ N.of_nat n)%N * (2 * n' * (n' - 1) * (m' - 1) + n' * (n' - 1) * (n' * (n' - 1))))%Z.
Proof.
  cbv zeta. induction n as [|n IH]; [cbn; lia|]. cbn [assignments]. rewrite sumN_flat.
  rewrite (sumN_ext _ (fun v => N.of_nat n + ((2 * N.of_nat n + 2) * eq_pairs v + m * (eq_pairs v * eq_pairs v)))).
  - rewrite !sumN_plus, !sumN_mul, sumN_const, assignments_length, Nat2N.inj_succ, N.pow_succ_r'. pose proof (pairs_total m n) as P.
    set (s1 := sumN eq_pairs _) in *. set (s2 := sumN _ _) in *. set (q := m ^ N.of_nat n) in *. clearbody s1 s2 q.
    rewrite Nat2Z.inj_succ. apply (f_equal Z.of_N) in P. rewrite ?N2Z.inj_add, ?N2Z.inj_mul, ?N2Z.inj_add, ?N2Z.inj_mul, ?nat_N_Z in *.
    change (Z.of_N 2) with 2%Z in *. set (x := Z.of_nat n) in *. set (y := Z.of_N m) in *. set (z := Z.of_N q) in *. set (a := Z.of_N s1) in *. set (b := Z.of_N s2) in *. clearbody x y z a b.
    unfold Z.succ.
    replace (4 * y * y * (x * z + ((2 * x + 2) * a + y * b)))%Z with (4 * y * y * x * z + 4 * y * (x + 1) * (2 * y * a) + y * (4 * y * y * b))%Z by ring.
    rewrite IH. replace (2 * y * a)%Z with (x * x * z - x * z)%Z by lia. ring.
  - intros v Hv. rewrite sumN_map, (squares_step m n v Hv). lia.
Qed.

Definition sumZ {A} (f : A -> Z) (l : list A) : Z := fold_right (fun a s => (f a + s)%Z) 0%Z l.
Lemma sumZ_N {A} (f : A -> N) (c d : Z) l : (forall e, e = sumZ (fun a => c * Z.of_N (f a) + d) l -> e = c * Z.of_N (sumN f l) + d * Z.of_nat (length l))%Z.
Proof. intros e ->. induction l as [|a l IH]; [cbn; lia|]. cbn [sumZ fold_right length]. fold (sumZ (fun a => c * Z.of_N (f a) + d)%Z l). rewrite IH, sumN_cons. lia. Qed.
(** Sum of the squared deviations of 2 m pairs from n (n - 1). *)
Lemma deviations m n : (sumZ (fun v => let e := 2 * Z.of_N m * Z.of_N (eq_pairs v) - Z.of_nat n * (Z.of_nat n - 1) in e * e) (assignments m n) =
  Z.of_N (m ^ N.of_nat n)%N * (2 * Z.of_nat n * (Z.of_nat n - 1) * (Z.of_N m - 1)))%Z.
Proof.
  cbv zeta.
  assert (G : forall (y w : Z) l, (sumZ (fun v => (2 * y * Z.of_N (eq_pairs v) - w) * (2 * y * Z.of_N (eq_pairs v) - w)) l =
    4 * y * y * Z.of_N (sumN (fun v => (eq_pairs v * eq_pairs v)%N) l) - 4 * y * w * Z.of_N (sumN eq_pairs l) + w * w * Z.of_nat (length l))%Z).
  { intros y w l. induction l as [|v l IH]; [cbn; ring|]. cbn [sumZ fold_right]. fold (sumZ (fun v => (2 * y * Z.of_N (eq_pairs v) - w) * (2 * y * Z.of_N (eq_pairs v) - w))%Z l).
    rewrite IH, !sumN_cons, !N2Z.inj_add, N2Z.inj_mul. cbn [length]. rewrite Nat2Z.inj_succ. unfold Z.succ. ring. }
  rewrite G. pose proof (squares_total m n) as S2. cbv zeta in S2. pose proof (pairs_total m n) as P. rewrite S2, <- (nat_N_Z (length _)), assignments_length.
  apply (f_equal Z.of_N) in P. rewrite ?N2Z.inj_add, ?N2Z.inj_mul, ?N2Z.inj_add, ?N2Z.inj_mul, ?nat_N_Z in *. change (Z.of_N 2) with 2%Z in *.
  set (s1 := Z.of_N (sumN eq_pairs _)) in *. set (q := Z.of_N (m ^ N.of_nat n)) in *. set (x := Z.of_nat n) in *. set (y := Z.of_N m) in *. clearbody s1 q x y.
  replace (4 * y * (x * (x - 1)) * s1)%Z with (2 * (x * (x - 1)) * (2 * y * s1))%Z by ring. replace (2 * y * s1)%Z with (x * x * q - x * q)%Z by lia. ring.
Qed.

(** Chebyshev. *)
Lemma how_many_cons {A} (p : A -> bool) a l : how_many p (a :: l) = (if p a then 1 else 0) + how_many p l.
Proof. unfold how_many. cbn [filter]. destruct (p a); cbn [length]; lia. Qed.
Lemma sum_Q_nonneg {A} (f : A -> Q) l : (forall a, 0 <= f a)%Q -> (0 <= sum_Q f l)%Q.
Proof. intros H. induction l as [|a l IH]; [cbn; apply Qle_refl|]. cbn [sum_Q fold_right]. fold (sum_Q f l). specialize (H a). setoid_replace 0%Q with (0 + 0)%Q by ring. now apply Qplus_le_compat. Qed.
Lemma Qsq_nonneg (x : Q) : (0 <= x * x)%Q.
Proof. unfold Qle, Qmult. cbn [Qnum Qden]. nia. Qed.
Lemma chebyshev {A} (f : A -> Q) eps l : (0 <= eps)%Q ->
  (inject_Z (Z.of_N (how_many (fun a => off_one eps (f a)) l)) * (eps * eps) <= sum_Q (fun a => (f a - 1) * (f a - 1)) l)%Q.
Proof.
  intros He. induction l as [|a l IH]; [cbn; rewrite Qmult_0_l; apply Qle_refl|]. cbn [sum_Q fold_right]. fold (sum_Q (fun a => (f a - 1) * (f a - 1))%Q l).
  rewrite how_many_cons, N2Z.inj_add, inject_Z_plus, Qmult_plus_distr_l. apply Qplus_le_compat; [|exact IH].
  unfold off_one. destruct (Qle_bool eps (Qabs (f a - 1))) eqn:B.
  - apply Qle_bool_iff in B. change (inject_Z (Z.of_N 1)) with 1%Q. rewrite Qmult_1_l. set (d := (f a - 1)%Q) in *.
    apply Qle_trans with (Qabs d * Qabs d)%Q; [apply Qle_trans with (eps * Qabs d)%Q|].
    + setoid_replace (eps * Qabs d)%Q with (Qabs d * eps)%Q by ring. now apply Qmult_le_compat_r.
    + apply Qmult_le_compat_r; [exact B|apply Qabs_nonneg].
    + rewrite <- Qabs_Qmult. rewrite Qabs_pos; [apply Qle_refl|apply Qsq_nonneg].
  - change (inject_Z (Z.of_N 0)) with 0%Q. rewrite Qmult_0_l. apply Qsq_nonneg.
Qed.

(** Moments of the number of keys of one bucket. *)
Lemma choose_0 n : choose n 0 = 1.
Proof. now destruct n. Qed.
Lemma choose_SS n k : choose (S n) (S k) = choose n k + choose n (S k).
Proof. reflexivity. Qed.
Lemma choose_pos n k : (k <= n)%nat -> 1 <= choose n k.
Proof. revert k. induction n as [|n IH]; intros k H; [replace k with 0%nat by lia; cbn; lia|]. destruct k as [|k]; [cbn; lia|]. rewrite choose_SS. specialize (IH k). lia. Qed.
Definition tally (b : N) (v : list N) : nat := length (filter (fun a => a =? b) v).
Lemma tally_cons b a v : tally b (a :: v) = if a =? b then S (tally b v) else tally b v.
Proof. unfold tally. cbn [filter]. now destruct (a =? b). Qed.
Lemma moment m n k b : b < m -> sumN (fun v => choose (tally b v) k) (assignments m n) * m ^ N.of_nat k = choose n k * m ^ N.of_nat n.
Proof.
  intros Hb. revert k. induction n as [|n IH]; intros k.
  - cbn [assignments sumN fold_right]. destruct k as [|k]; cbn [tally filter length choose]; lia.
  - destruct k as [|k].
    + rewrite (sumN_ext _ (fun _ => 1)) by (intros; apply choose_0). rewrite sumN_const, assignments_length, choose_0. lia.
    + cbn [assignments]. rewrite sumN_flat. rewrite (sumN_ext _ (fun v => choose (tally b v) k + m * choose (tally b v) (S k))).
      * rewrite sumN_plus, sumN_mul, choose_SS, !Nat2N.inj_succ, !N.pow_succ_r'. pose proof (IH k) as A. pose proof (IH (S k)) as B. rewrite Nat2N.inj_succ, N.pow_succ_r' in B.
        set (s := sumN (fun v => choose (tally b v) k) _) in *. set (s' := sumN (fun v => choose (tally b v) (S k)) _) in *. set (q := m ^ N.of_nat k) in *. set (p := m ^ N.of_nat n) in *. clearbody s s' q p.
        replace ((s + m * s') * (m * q)) with (m * (s * q) + m * (s' * (m * q))) by ring. rewrite A, B. ring.
      * intros v Hv. rewrite sumN_map. rewrite (sumN_ext _ (fun a => (if b =? N.of_nat a then choose (tally b v) k else 0) + choose (tally b v) (S k))).
        -- rewrite sumN_plus, (pick m b (fun _ => choose (tally b v) k) Hb), sumN_const, seq_length. lia.
        -- intros a _. rewrite tally_cons, (N.eqb_sym (N.of_nat a) b). destruct (b =? N.of_nat a); [rewrite choose_SS|]; lia.
Qed.
(** Placements that give some bucket at least k keys. *)
Definition crowded (m : N) (k : nat) (v : list N) : bool := existsb (fun b => Nat.leb k (tally (N.of_nat b) v)) (seq 0 (N.to_nat m)).
Lemma sumN_le {A} (f g : A -> N) l : (forall a, In a l -> f a <= g a) -> sumN f l <= sumN g l.
Proof. intros H. induction l as [|a l IH]; [cbn; lia|]. rewrite !sumN_cons. pose proof (H a (or_introl eq_refl)). specialize (IH ltac:(intros; apply H; now right)). lia. Qed.
Lemma sumN_member {A} (f : A -> N) l a : In a l -> f a <= sumN f l.
Proof. intros H. induction l as [|b l IH]; [destruct H|]. rewrite sumN_cons. destruct H as [->|H]; [lia|]. specialize (IH H). lia. Qed.
Lemma how_many_sum {A} (p : A -> bool) l : how_many p l = sumN (fun a => if p a then 1 else 0) l.
Proof. induction l as [|a l IH]; [reflexivity|]. now rewrite how_many_cons, sumN_cons, IH. Qed.
Lemma crowded_count m n k : 1 <= m -> how_many (crowded m (S k)) (assignments m n) * m ^ N.of_nat k <= choose n (S k) * m ^ N.of_nat n.
Proof.
  intros Hm. rewrite how_many_sum.
  apply (N.le_trans _ (sumN (fun v => sumN (fun b => choose (tally (N.of_nat b) v) (S k)) (seq 0 (N.to_nat m))) (assignments m n) * m ^ N.of_nat k)).
  - apply N.mul_le_mono_r, sumN_le. intros v _. unfold crowded. destruct (existsb _ _) eqn:E; [|lia]. apply existsb_exists in E. destruct E as (b & Hb & E). apply Nat.leb_le in E.
    apply (N.le_trans _ (choose (tally (N.of_nat b) v) (S k))); [now apply choose_pos|]. apply (sumN_member (fun b => choose (tally (N.of_nat b) v) (S k)) _ b Hb).
  - rewrite sumN_swap. apply (N.mul_le_mono_pos_r _ _ m); [lia|]. rewrite <- N.mul_assoc, (N.mul_comm (m ^ N.of_nat k)), <- N.pow_succ_r', <- Nat2N.inj_succ.
    assert (E : sumN (fun b => sumN (fun a => choose (tally (N.of_nat b) a) (S k)) (assignments m n) * m ^ N.of_nat (S k)) (seq 0 (N.to_nat m)) = choose n (S k) * m ^ N.of_nat n * m).
    { rewrite (sumN_ext _ (fun _ => choose n (S k) * m ^ N.of_nat n)); [rewrite sumN_const, seq_length; now rewrite N2Nat.id|]. intros b Hb. apply in_seq in Hb. apply moment. lia. }
    rewrite <- E, N.mul_comm, <- sumN_mul. apply N.eq_le_incl, sumN_ext. intros b _. apply N.mul_comm.
Qed.

(** Hash functions to m c values, taken modulo m: every placement comes up c^n times. *)
Lemma sumZ_cons {A} (f : A -> Z) a l : sumZ f (a :: l) = (f a + sumZ f l)%Z.
Proof. reflexivity. Qed.
Lemma sumZ_app {A} (f : A -> Z) l l' : sumZ f (l ++ l') = (sumZ f l + sumZ f l')%Z.
Proof. induction l as [|a l IH]; [reflexivity|]. cbn [app]. rewrite !sumZ_cons, IH. lia. Qed.
Lemma sumZ_ext {A} (f g : A -> Z) l : (forall a, In a l -> f a = g a) -> sumZ f l = sumZ g l.
Proof. intros H. induction l as [|a l IH]; [reflexivity|]. rewrite !sumZ_cons, IH by (intros; apply H; now right). now rewrite (H a (or_introl eq_refl)). Qed.
Lemma sumZ_flat {A B} (f : B -> Z) (g : A -> list B) l : sumZ f (flat_map g l) = sumZ (fun a => sumZ f (g a)) l.
Proof. induction l as [|a l IH]; [reflexivity|]. cbn [flat_map]. now rewrite sumZ_app, IH. Qed.
Lemma sumZ_map {A B} (f : B -> Z) (g : A -> B) l : sumZ f (map g l) = sumZ (fun a => f (g a)) l.
Proof. induction l as [|a l IH]; [reflexivity|]. cbn [map]. now rewrite !sumZ_cons, IH. Qed.
Lemma sumZ_mul {A} c (f : A -> Z) l : sumZ (fun a => c * f a)%Z l = (c * sumZ f l)%Z.
Proof. induction l as [|a l IH]; [cbn; lia|]. rewrite !sumZ_cons, IH. lia. Qed.
Lemma sumZ_of_N {A} (f : A -> N) l : Z.of_N (sumN f l) = sumZ (fun a => Z.of_N (f a)) l.
Proof. induction l as [|a l IH]; [reflexivity|]. rewrite sumN_cons, sumZ_cons. lia. Qed.
Lemma wide_seq (m : N) (c : nat) (g : N -> Z) : 1 <= m ->
  sumZ (fun a => g (N.of_nat a mod m)) (seq 0 (N.to_nat m * c)) = (Z.of_nat c * sumZ (fun a => g (N.of_nat a)) (seq 0 (N.to_nat m)))%Z.
Proof.
  intros Hm. induction c as [|c IH]; [rewrite Nat.mul_0_r; cbn; lia|].
  replace (N.to_nat m * S c)%nat with (N.to_nat m * c + N.to_nat m)%nat by lia. rewrite seq_app, sumZ_app, IH.
  assert (E : sumZ (fun a => g (N.of_nat a mod m)) (seq (0 + N.to_nat m * c) (N.to_nat m)) = sumZ (fun a => g (N.of_nat a)) (seq 0 (N.to_nat m))).
  { replace (0 + N.to_nat m * c)%nat with (N.to_nat m * c)%nat by lia. rewrite <- (map_id (seq 0 (N.to_nat m))).
    assert (S' : forall k l, seq k l = map (fun i => (k + i)%nat) (seq 0 l)).
    { intros k l. revert k. induction l as [|l IHl]; intros k; [reflexivity|]. cbn [seq map]. rewrite Nat.add_0_r. f_equal. rewrite (IHl (S k)), (IHl 1%nat), map_map. apply map_ext. intros; lia. }
    rewrite S', !sumZ_map. apply sumZ_ext. intros i Hi. apply in_seq in Hi. f_equal. rewrite Nat2N.inj_add, Nat2N.inj_mul, N2Nat.id, N.add_comm, N.mul_comm, N.mod_add by lia. apply N.mod_small. lia. }
  rewrite E. lia.
Qed.
Lemma wide (m : N) (c : nat) (n : nat) (f : list N -> Z) : 1 <= m ->
  sumZ (fun v => f (map (fun a => a mod m) v)) (assignments (m * N.of_nat c) n) = (Z.of_nat c ^ Z.of_nat n * sumZ f (assignments m n))%Z.
Proof.
  intros Hm. revert f. induction n as [|n IH]; intros f; [cbn [assignments sumZ fold_right map]; lia|]. cbn [assignments]. rewrite !sumZ_flat.
  rewrite (sumZ_ext _ (fun v => Z.of_nat c * sumZ (fun a => f (N.of_nat a :: map (fun a => (a mod m)%N) v)) (seq 0 (N.to_nat m)))%Z).
  - rewrite sumZ_mul, (IH (fun v => sumZ (fun a => f (N.of_nat a :: v)) (seq 0 (N.to_nat m)))), Nat2Z.inj_succ, Z.pow_succ_r by lia. rewrite Z.mul_assoc. f_equal.
    apply sumZ_ext. intros v _. now rewrite sumZ_map.
  - intros v _. rewrite sumZ_map. cbn [map]. rewrite N2Nat.inj_mul, Nat2N.id. apply (wide_seq m c (fun a => f (a :: map (fun a => a mod m) v)) Hm).
Qed.
