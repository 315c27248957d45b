(** More about the verdicts on a machine with 32-bit words: key families and random functions. *)
From Coq Require Import ZArith NArith Reals Lia Lra List Permutation Bool.
From Flocq Require Raux.
From Verif Require Import Words WordLemmas ListLemmas HashTableModel HtModel HtSpec SmhModel SmhSpec SmhProofs SmhKeys SmhKeys2 QualitySpec QualityProofs SpreadSpec SpreadProofs F64 FloatModel SmhWordModel SmhWordSpec SmhWordProofs.
Import ListNotations.
Open Scope N_scope.

Lemma repeats_distinct l : repeats l = (length l - distinct l)%nat. Proof. reflexivity. Qed.
Lemma repeats_perm l l' : Permutation l l' -> repeats l = repeats l'.
Proof.
  intros P. unfold repeats. rewrite (Permutation_length P). f_equal. apply Nat.le_antisymm; apply NoDup_incl_length; try apply NoDup_nodup; intros x Hx; apply nodup_In; apply nodup_In in Hx.
  - now apply (Permutation_in x P).
  - now apply (Permutation_in x (Permutation_sym P)).
Qed.
Lemma repeats_cons a l : (repeats (a :: l) <= S (repeats l))%nat.
Proof. unfold repeats. cbn [nodup length]. pose proof (distinct_le l) as D. unfold distinct in D. destruct (in_dec N.eq_dec a l); cbn [length]; lia. Qed.
Lemma repeats_nodup l : NoDup l -> repeats l = 0%nat.
Proof. intros H. unfold repeats. rewrite nodup_fixed_point by exact H. apply Nat.sub_diag. Qed.
Lemma repeats_pairs l : N.of_nat (repeats l) <= eq_pairs l.
Proof.
  induction l as [|a l IH]; [cbn; lia|]. unfold repeats in *. cbn [nodup length eq_pairs]. pose proof (distinct_le l) as D. unfold distinct in D. destruct (in_dec N.eq_dec a l) as [I|I].
  - assert (X : 1 <= N.of_nat (length (filter (fun b => b =? a) l))).
    { assert (J : In a (filter (fun b => b =? a) l)) by (apply filter_In; split; [exact I|apply N.eqb_refl]). destruct (filter _ l); [destruct J|cbn [length]; lia]. }
    lia.
  - cbn [length]. lia.
Qed.
Lemma wrap32_mod x : wrap 32 x = x mod 2 ^ 32. Proof. unfold wrap. apply N.land_ones. Qed.
Lemma verdict_on_eq hf ks : verdict_on 32 hf ks = check_on 32 (set_of (map (fun k => hf k 0 mod 2 ^ 32) ks)).
Proof. unfold verdict_on, BytesHash_on. do 2 f_equal. apply map_ext. intros k. apply wrap32_mod. Qed.

(** A margin checked by computation. *)
Definition marginb (n t : N) : bool := let s := scaled (Z.of_N n) in ((Z.of_N t * 4294967296 + 2 <=? s) && (s <=? Z.of_N t * 4294967296 + 4294967293))%Z.
Lemma marginb_ok n t : marginb n t = true -> margin (Z.of_N n) (Z.of_N t).
Proof. unfold marginb, margin. rewrite andb_true_iff, !Z.leb_le. easy. Qed.
Lemma le26 n : N.of_nat n <= 67108864 -> (n <= 2 ^ 26)%nat.
Proof. assert (E : N.of_nat (2 ^ 26) = 67108864) by (rewrite Nat2N.inj_pow; reflexivity). lia. Qed.
Lemma check_count hs n t : N.of_nat (length hs) = n -> (n <=? 67108864) = true -> marginb n t = true ->
  check_on 32 (set_of hs) = true <-> t < N.of_nat (repeats hs).
Proof.
  intros E L M. apply N.leb_le in L. apply marginb_ok in M. rewrite <- (N2Nat.id t) in M. rewrite nat_N_Z, <- E, nat_N_Z in M.
  rewrite (check_32_exact hs (N.to_nat t)); [|apply le26; lia|exact M]. rewrite <- repeats_distinct. lia.
Qed.
Lemma family hf ks (P : list N -> Prop) n t : enumerates ks P -> N.of_nat (length ks) = n -> (n <=? 67108864) = true -> marginb n t = true ->
  forall ks', enumerates ks' P -> N.of_nat (length ks') = n /\ (verdict_on 32 hf ks = true <-> t < N.of_nat (repeats (map (fun k => hf k 0 mod 2 ^ 32) ks'))).
Proof.
  intros [D I] E L M ks' [D' I']. assert (PE : Permutation ks ks') by (apply NoDup_Permutation; [exact D|exact D'|intros x; rewrite I, I'; reflexivity]).
  split; [now rewrite <- (Permutation_length PE)|]. rewrite verdict_on_eq. rewrite (check_count _ n t) by (rewrite ?map_length; assumption).
  now rewrite (repeats_perm _ _ (Permutation_map (fun k => hf k 0 mod 2 ^ 32) PE)).
Qed.

(** ** Random functions *)
Lemma reported_pairs w : (length w <= 2 ^ 26)%nat -> check_on 32 (set_of w) = true ->
  let p := (Z.of_nat (length w) * (Z.of_nat (length w) - 1) / 2)%Z in
  (1 <= p /\ 899 * p * 4294967296 <= (4294967296 * Z.of_N (eq_pairs w) - p) * (4294967296 * Z.of_N (eq_pairs w) - p))%Z.
Proof.
  intros L C p. destruct (check_32 w L) as (x & E & X0 & X). rewrite E in C. destruct (Raux.Rlt_bool_spec x (INR (length w - distinct w))) as [Q|]; [|discriminate].
  rewrite <- repeats_distinct in Q. pose proof (repeats_pairs w) as RP. pose proof (bound_scaled (length w)) as [B1 _]. apply Raux.Rabs_le_inv in X.
  replace (/ 2 ^ 32)%R with (/ 4294967296)%R in X by (cbn; lra).
  assert (S1 : (scaled (Z.of_nat (length w)) - 1 < 4294967296 * Z.of_nat (repeats w))%Z).
  { apply lt_IZR. rewrite minus_IZR, mult_IZR, <- INR_IZR_INZ. lra. }
  assert (Pos : (1 <= repeats w)%nat) by (apply INR_lt; cbn [INR]; lra).
  unfold scaled in S1. fold p in S1.
  assert (P1 : (1 <= p)%Z).
  { unfold p. assert (2 <= length w)%nat.
    { destruct w as [|a [|b w]]; cbn [length] in *; [cbn in Pos; lia|cbn in Pos; lia|lia]. }
    apply Z.div_le_lower_bound; nia. }
  split; [exact P1|]. clearbody p. set (X1 := (900 * p * 4294967296)%Z) in *. assert (X10 : (3865470566400 <= X1)%Z) by (unfold X1; lia).
  pose proof (Z.sqrt_spec X1 ltac:(lia)) as [A B]. assert (R0 : (1966080 <= Z.sqrt X1)%Z) by (change 1966080%Z with (Z.sqrt 3865470566400); apply Z.sqrt_le_mono; exact X10).
  set (r := Z.sqrt X1) in *. assert (Er : (r <= 4294967296 * Z.of_N (eq_pairs w) - p)%Z) by lia.
  set (e := (4294967296 * Z.of_N (eq_pairs w) - p)%Z) in *. assert (RR : (r * r <= e * e)%Z) by (apply Z.mul_le_mono_nonneg; lia).
  unfold Z.succ in B. assert (R2 : (1966080 * r <= r * r)%Z) by (apply Z.mul_le_mono_nonneg_r; lia). unfold X1 in *. lia.
Qed.
Lemma half_pairs n : (2 * (Z.of_nat n * (Z.of_nat n - 1) / 2) = Z.of_nat n * (Z.of_nat n - 1))%Z.
Proof.
  destruct (Z.Even_or_Odd (Z.of_nat n)) as [[q ->]|[q ->]].
  - replace (2 * q * (2 * q - 1))%Z with (q * (2 * q - 1) * 2)%Z by ring. rewrite Z.div_mul by lia. lia.
  - replace ((2 * q + 1) * (2 * q + 1 - 1))%Z with (q * (2 * q + 1) * 2)%Z by ring. rewrite Z.div_mul by lia. lia.
Qed.
Definition flagged (w : list N) : Z := if check_on 32 (set_of w) then 1%Z else 0%Z.
Lemma sumZ_le {A} (f g : A -> Z) l : (forall a, In a l -> (f a <= g a)%Z) -> (sumZ f l <= sumZ g l)%Z.
Proof. intros H. induction l as [|a l IH]; [cbn; lia|]. rewrite !sumZ_cons. pose proof (H a (or_introl eq_refl)). specialize (IH (fun b Hb => H b (or_intror Hb))). lia. Qed.
Lemma flagged_total n : (n <= 2 ^ 26)%nat -> (899 * sumZ flagged (assignments (2 ^ 32) n) <= Z.of_N ((2 ^ 32) ^ N.of_nat n)%N)%Z.
Proof.
  intros L. set (p := (Z.of_nat n * (Z.of_nat n - 1) / 2)%Z). pose proof (half_pairs n) as H2. fold p in H2.
  pose proof (deviations (2 ^ 32) n) as D. cbv zeta in D. change (Z.of_N (2 ^ 32)) with 4294967296%Z in D.
  set (q := Z.of_N ((2 ^ 32) ^ N.of_nat n)) in *. assert (Q0 : (0 <= q)%Z) by (unfold q; lia).
  assert (C : (p = 0 \/ 1 <= p)%Z) by (unfold p in *; destruct n; [left; reflexivity|lia]).
  destruct C as [C|C].
  - assert (E : sumZ flagged (assignments (2 ^ 32) n) = 0%Z); [|rewrite E; lia].
    assert (G : forall l, (forall w, In w l -> length w = n) -> sumZ flagged l = 0%Z).
    { induction l as [|w l IH]; intros Hl; [reflexivity|]. rewrite sumZ_cons, IH by (intros; apply Hl; now right). pose proof (Hl w (or_introl eq_refl)) as Lw. unfold flagged. destruct (check_on 32 (set_of w)) eqn:F; [|reflexivity].
      destruct (reported_pairs w ltac:(rewrite Lw; exact L) F) as [X _]. rewrite Lw in X. fold p in X. lia. }
    apply G. intros w Hw. apply assignments_in in Hw. apply Hw.
  - assert (S : (sumZ (fun w => 4 * (899 * p * 4294967296) * flagged w) (assignments (2 ^ 32)%N n) <=
      sumZ (fun v => (2 * 4294967296 * Z.of_N (eq_pairs v) - Z.of_nat n * (Z.of_nat n - 1)) * (2 * 4294967296 * Z.of_N (eq_pairs v) - Z.of_nat n * (Z.of_nat n - 1))) (assignments (2 ^ 32)%N n))%Z).
    { apply sumZ_le. intros w Hw. apply assignments_in in Hw. destruct Hw as [Lw _]. rewrite <- H2. unfold flagged. destruct (check_on 32 (set_of w)) eqn:F; [|rewrite Z.mul_0_r; apply Z.square_nonneg].
      destruct (reported_pairs w ltac:(rewrite Lw; exact L) F) as [_ X]. rewrite Lw in X. fold p in X. set (e := Z.of_N (eq_pairs w)) in *.
      replace ((2 * 4294967296 * e - 2 * p) * (2 * 4294967296 * e - 2 * p))%Z with (4 * ((4294967296 * e - p) * (4294967296 * e - p)))%Z by ring. lia. }
    rewrite sumZ_mul, D in S. set (s := sumZ flagged _) in *. replace (2 * Z.of_nat n * (Z.of_nat n - 1))%Z with (4 * p)%Z in S by lia. clearbody s q p. assert (S' : (4 * p * 4294967296 * (899 * s) <= 4 * p * 4294967296 * q)%Z) by nia. apply Z.mul_le_mono_pos_l in S'; lia.
Qed.
Lemma how_many_flagged (c n : nat) : (n <= 2 ^ 26)%nat -> 
  899 * how_many (fun v => check_on 32 (set_of (map (fun a => a mod 2 ^ 32) v))) (assignments (2 ^ 32 * N.of_nat c) n) <= (2 ^ 32 * N.of_nat c) ^ N.of_nat n.
Proof.
  intros L. rewrite how_many_sum. apply N2Z.inj_le. rewrite N2Z.inj_mul, sumZ_of_N.
  rewrite (sumZ_ext _ (fun v => flagged (map (fun a => a mod 2 ^ 32) v))) by (intros v _; unfold flagged; destruct (check_on 32 _); reflexivity).
  rewrite (wide (2 ^ 32) c n flagged) by (now apply N.leb_le). pose proof (flagged_total n L) as T.
  rewrite N.pow_mul_l, N2Z.inj_mul, (N2Z.inj_pow (N.of_nat c)), !nat_N_Z. change (Z.of_N 899) with 899%Z. set (k := (Z.of_nat c ^ Z.of_nat n)%Z). assert (0 <= k)%Z by (apply Z.pow_nonneg; lia). nia.
Qed.
