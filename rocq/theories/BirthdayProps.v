(** C95.  What the SMHasher verdict says about a random function. *)
From Coq Require Import NArith List Lia ListDec.
From Verif Require Import Words SmhModel SmhSpec SmhProofs SmhKeys SmhProps2 QualitySpec QualityProofs.
Import ListNotations.
Open Scope N_scope.

(** M (M-1) ... (M-n+1), 0 when n exceeds M. *)
Fixpoint falling (M : N) (n : nat) : N := match n with O => 1 | S n => falling M n * (M - N.of_nat n) end.
Definition count {A} (f : A -> bool) (l : list A) : N := N.of_nat (length (filter f l)).

Definition distinctb (v : list N) : bool := if NoDup_dec N.eq_dec v then true else false.
Lemma distinctb_iff v : distinctb v = true <-> NoDup v.
Proof. unfold distinctb. destruct (NoDup_dec N.eq_dec v); split; easy. Qed.
Lemma distinctb_nil : distinctb [] = true.
Proof. apply distinctb_iff. constructor. Qed.
Lemma count_sum {A} (f : A -> bool) l : count f l = sumN (fun a => if f a then 1 else 0) l.
Proof. unfold count. induction l as [|a l IH]; [reflexivity|]. cbn [filter]. rewrite sumN_cons, <- IH. destruct (f a); cbn [length]; lia. Qed.
Lemma count_one v a : NoDup v -> length (filter (fun b => b =? a) v) = (if in_dec N.eq_dec a v then 1 else 0)%nat.
Proof.
  intros H. induction H as [|b v Hb Hv IH]; [reflexivity|]. cbn [filter]. destruct (N.eqb_spec b a) as [->|D].
  - destruct (in_dec N.eq_dec a (a :: v)) as [_|X]; [|exfalso; apply X; now left]. cbn [length]. rewrite IH. destruct (in_dec N.eq_dec a v); [contradiction|reflexivity].
  - rewrite IH. destruct (in_dec N.eq_dec a v) as [I|I], (in_dec N.eq_dec a (b :: v)) as [J|J]; auto; [exfalso; apply J; now right|]. destruct J; [contradiction|contradiction].
Qed.
Lemma extensions m v : Forall (fun a => a < m) v ->
  sumN (fun a => if distinctb (N.of_nat a :: v) then 1 else 0) (seq 0 (N.to_nat m)) = (if distinctb v then 1 else 0) * (m - N.of_nat (length v)).
Proof.
  intros F. destruct (distinctb v) eqn:D.
  - apply distinctb_iff in D. pose proof (candidates m v F) as C. rewrite N.mul_1_l.
    assert (X : sumN (fun a => (if distinctb (N.of_nat a :: v) then 1 else 0) + N.of_nat (length (filter (fun b => b =? N.of_nat a) v))) (seq 0 (N.to_nat m)) = m).
    { rewrite (sumN_ext _ (fun _ => 1)); [rewrite sumN_const, seq_length; lia|]. intros a _. rewrite (count_one v _ D).
      destruct (in_dec N.eq_dec (N.of_nat a) v) as [I|I].
      - destruct (distinctb (N.of_nat a :: v)) eqn:Q; [|reflexivity]. apply distinctb_iff in Q. inversion Q; contradiction.
      - destruct (distinctb (N.of_nat a :: v)) eqn:Q; [reflexivity|]. exfalso. assert (Y : distinctb (N.of_nat a :: v) = true) by (apply distinctb_iff; constructor; assumption). congruence. }
    rewrite sumN_plus, C in X. lia.
  - rewrite (sumN_ext _ (fun _ => 0)); [rewrite sumN_const; lia|]. intros a _. destruct (distinctb (N.of_nat a :: v)) eqn:Q; [|reflexivity].
    apply distinctb_iff in Q. inversion Q as [|? ? _ Q']; subst. apply distinctb_iff in Q'. congruence.
Qed.
Lemma count_distinct m n : count distinctb (assignments m n) = falling m n.
Proof.
  rewrite count_sum. induction n as [|n IH]; [cbn [assignments]; rewrite sumN_cons, distinctb_nil; reflexivity|]. cbn [assignments falling]. rewrite sumN_flat.
  rewrite (sumN_ext _ (fun v => (m - N.of_nat n) * (if distinctb v then 1 else 0))); [rewrite sumN_mul, IH; lia|].
  intros v Hv. apply assignments_in in Hv. destruct Hv as [<- F]. rewrite sumN_map, extensions by exact F. lia.
Qed.
Lemma falling_upper m n : falling m n * (2 * m + N.of_nat n * N.of_nat n - N.of_nat n) <= 2 * m * m ^ N.of_nat n.
Proof.
  induction n as [|n IH]; [cbn [falling]; change (N.of_nat 0) with 0; rewrite N.pow_0_r; lia|]. cbn [falling]. rewrite Nat2N.inj_succ, N.pow_succ_r'. set (k := N.of_nat n) in *. set (f := falling m n) in *. set (q := m ^ k) in *.
  destruct (N.le_gt_cases m k) as [G|G]; [replace (m - k) with 0 by lia; lia|].
  clearbody k f q. assert (K : k <= k * k) by (destruct (N.eq_0_gt_0_cases k) as [->|]; [apply N.le_refl|nia]). assert (A : (m - k) * (2 * m + N.succ k * N.succ k - N.succ k) <= m * (2 * m + k * k - k)).
  { replace (2 * m + N.succ k * N.succ k - N.succ k) with (2 * m + k * k + k) by nia. assert (E : exists d, m = k + d) by (exists (m - k); lia). destruct E as (d & ->).
    replace (k + d - k) with d by lia. assert (E : exists e, k * k = k + e) by (exists (k * k - k); lia). destruct E as (e & E).
    replace (2 * (k + d) + k * k - k) with (2 * (k + d) + e) by lia. replace (2 * (k + d) + k * k + k) with (2 * (k + d) + e + 2 * k) by lia. nia. }
  transitivity (f * (m * (2 * m + k * k - k))); [rewrite <- N.mul_assoc; now apply N.mul_le_mono_l|].
  replace (f * (m * (2 * m + k * k - k))) with (m * (f * (2 * m + k * k - k))) by lia. replace (2 * m * (m * q)) with (m * (2 * m * q)) by lia. now apply N.mul_le_mono_l.
Qed.
Lemma count_compl {A} (f : A -> bool) l : count f l + count (fun a => negb (f a)) l = N.of_nat (length l).
Proof. unfold count. induction l as [|a l IH]; [reflexivity|]. cbn [filter length]. destruct (f a); cbn [negb length]; lia. Qed.
Lemma count_ext {A} (f g : A -> bool) l : (forall a, In a l -> f a = g a) -> count f l = count g l.
Proof. intros H. rewrite !count_sum. apply sumN_ext. intros a Ha. now rewrite (H a Ha). Qed.
Lemma sumN_le {A} (f g : A -> N) l : (forall a, In a l -> f a <= g a) -> sumN f l <= sumN g l.
Proof. intros H. induction l as [|a l IH]; [reflexivity|]. rewrite !sumN_cons. pose proof (H a (or_introl eq_refl)). specialize (IH (fun b Hb => H b (or_intror Hb))). lia. Qed.
Lemma pairs_pos v : distinctb v = false -> 1 <= eq_pairs v.
Proof.
  intros D. induction v as [|a v IH]; [rewrite distinctb_nil in D; discriminate|]. cbn [eq_pairs]. destruct (distinctb v) eqn:E; [|specialize (IH eq_refl); lia].
  destruct (filter (fun b => b =? a) v) as [|b r] eqn:F; [|cbn [length]; lia]. exfalso. assert (X : distinctb (a :: v) = true); [|congruence].
  apply distinctb_iff. apply distinctb_iff in E. constructor; [|exact E]. intros I. assert (J : In a (filter (fun b => b =? a) v)) by (apply filter_In; split; [exact I|apply N.eqb_refl]). rewrite F in J. destruct J.
Qed.

Section Verdict.
  Variable ks : list (list N).
  Hypothesis D : NoDup ks.
  Hypothesis L : (length ks <= 2 ^ 27)%nat.
  Lemma verdict_given M v : In v (assignments M (length ks)) -> verdict (fun k _ => given ks v k) ks = negb (distinctb v).
  Proof.
    intros Hv. apply assignments_in in Hv. destruct Hv as [Lv _]. unfold verdict, BytesHash. rewrite given_map by auto.
    assert (Lv' : (length v <= 2 ^ 27)%nat) by (rewrite Lv; exact L). pose proof (check_iff v Lv') as C. pose proof (distinctb_iff v) as B.
    destruct (check (set_of v)), (distinctb v); try reflexivity; exfalso; [apply C; [reflexivity|now apply B]|]. assert (X : ~ NoDup v) by (intros X; apply B in X; discriminate). apply C in X. discriminate.
  Qed.
  Lemma silent M : count (fun v => negb (verdict (fun k _ => given ks v k) ks)) (assignments M (length ks)) = falling M (length ks).
  Proof. rewrite <- count_distinct. apply count_ext. intros v Hv. rewrite (verdict_given M v Hv). apply Bool.negb_involutive. Qed.
  Lemma alarms M : 2 * M * count (fun v => verdict (fun k _ => given ks v k) ks) (assignments M (length ks)) + N.of_nat (length ks) * M ^ N.of_nat (length ks)
    <= N.of_nat (length ks) * N.of_nat (length ks) * M ^ N.of_nat (length ks).
  Proof.
    rewrite <- pairs_total. apply N.add_le_mono_r, N.mul_le_mono_l. rewrite count_sum. apply sumN_le. intros v Hv. rewrite (verdict_given M v Hv).
    destruct (distinctb v) eqn:E; cbn [negb]; [lia|now apply pairs_pos].
  Qed.
End Verdict.

(** Of the M^n functions from n distinct keys to M hash values exactly M (M-1) ... (M-n+1) pass. *)
Theorem c95_passing : forall (ks : list (list N)) M, NoDup ks -> (length ks <= 2 ^ 27)%nat ->
  count (fun v => negb (verdict (fun k _ => given ks v k) ks)) (assignments M (length ks)) = falling M (length ks).
Proof. intros ks M D L. now apply silent. Qed.
Print Assumptions c95_passing.
(** The share that is reported is at most n (n-1) / 2M, the share that passes at most 2M / (2M + n (n-1)). *)
Theorem c95_shares : forall (ks : list (list N)) M, NoDup ks -> (length ks <= 2 ^ 27)%nat ->
  let n := N.of_nat (length ks) in
  let reported := count (fun v => verdict (fun k _ => given ks v k) ks) (assignments M (length ks)) in
  let passing := count (fun v => negb (verdict (fun k _ => given ks v k) ks)) (assignments M (length ks)) in
  reported + passing = M ^ n /\
  2 * M * reported <= n * (n - 1) * M ^ n /\
  (2 * M + n * (n - 1)) * passing <= 2 * M * M ^ n.
Proof.
  intros ks M D L n reported passing. split; [unfold reported, passing; rewrite count_compl; apply assignments_length|]. split.
  - pose proof (alarms ks D L M) as A. fold n reported in A. replace (n * (n - 1) * M ^ n) with (n * n * M ^ n - n * M ^ n) by (rewrite N.mul_sub_distr_l, N.mul_1_r, N.mul_sub_distr_r; reflexivity). apply N.le_add_le_sub_r. exact A.
  - unfold passing. rewrite silent by assumption. pose proof (falling_upper M (length ks)) as U. fold n in U. rewrite N.mul_comm. rewrite N.mul_sub_distr_l, N.mul_1_r, N.add_sub_assoc; [exact U|].
    destruct (N.eq_0_gt_0_cases n) as [->|]; [apply N.le_refl|nia].
Qed.
Print Assumptions c95_shares.

(** All strings of one to three bytes: fewer than one 64-bit function in 2^16 is reported,
    fewer than one 32-bit function in 33000 passes. *)
Definition of_values (v : list N) (k : list N) (_ : N) : N := given (small_keys 256 Short) v k.
Theorem c95_small_keys : forall n, n = N.of_nat (length (small_keys 256 Short)) -> n = 16843008 /\
  2 ^ 16 * count (fun v => TestSmhasherSmallKeys (of_values v)) (assignments (2 ^ 64) (N.to_nat n)) < (2 ^ 64) ^ n /\
  33000 * count (fun v => negb (TestSmhasherSmallKeys (of_values v))) (assignments (2 ^ 32) (N.to_nat n)) < (2 ^ 32) ^ n.
Proof.
  intros n En. pose proof small_length as SL. pose proof small_enum as [D _]. unfold of_values, TestSmhasherSmallKeys. generalize dependent (small_keys 256 Short). intros ks En SL D.
  split; [congruence|]. rewrite SL in En. assert (L : (length ks <= 2 ^ 27)%nat) by (apply le27; rewrite SL; discriminate).
  replace (N.to_nat n) with (length ks) by (rewrite En, <- SL, Nat2N.id; reflexivity).
  destruct (c95_shares ks (2 ^ 64) D L) as (_ & A & _). destruct (c95_shares ks (2 ^ 32) D L) as (_ & _ & B). cbv zeta in A, B. rewrite SL, <- En in A, B.
  set (x := count _ _) in *. set (y := count _ (assignments (2 ^ 32) _)) in *.
  assert (P : 0 < (2 ^ 64) ^ n) by (apply N.neq_0_lt_0, N.pow_nonzero; discriminate). assert (P' : 0 < (2 ^ 32) ^ n) by (apply N.neq_0_lt_0, N.pow_nonzero; discriminate).
  set (X := (2 ^ 64) ^ n) in *. set (Y := (2 ^ 32) ^ n) in *. clearbody x y X Y. subst n.
  change (2 * 2 ^ 64) with 36893488147419103232 in A. change (16843008 * (16843008 - 1)) with 283686901645056 in A, B. change (2 * 2 ^ 32) with 8589934592 in B. change (2 ^ 16) with 65536. lia.
Qed.
Print Assumptions c95_small_keys.

(** Two keys, three hash values: 6 of the 9 functions pass; more keys than values: none. *)
Example c95_nonvacuous :
  count (fun v => negb (verdict (fun k _ => given [[1]; [2]] v k) [[1]; [2]])) (assignments 3 2) = 6 /\ falling 3 2 = 6 /\
  verdict (fun k _ => given [[1]; [2]] [2; 2] k) [[1]; [2]] = true /\ falling 3 4 = 0 /\
  count (fun v => verdict (fun k _ => given [[1]; [2]; []; [7]] v k) [[1]; [2]; []; [7]]) (assignments 3 4) = 81.
Proof. vm_compute. repeat split. Qed.
