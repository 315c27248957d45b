(** C88.  Murmur3: collisions that no salt removes. *)
From Coq Require Import ZArith List.
From Verif Require Import Words WordLemmas ListLemmas HashTableModel HashTableSpec HashTableProofs HashTableProps SipProofs Mm3Model Mm3Proofs Mm3Coll CollSpec.
Import ListNotations.
Open Scope N_scope.

(** Every two blocks have a partner that may be put in their place anywhere in any message. *)
Theorem c88_partner32 : forall b, bytes_ok b -> length b = 8%nat -> exists c, bytes_ok c /\ length c = 8%nat /\ c <> b /\
  forall p r, (length p mod 4 = 0)%nat -> mm_sum32 (p ++ b ++ r) = mm_sum32 (p ++ c ++ r).
Proof. exact mm32_partner. Qed.
Print Assumptions c88_partner32.
Theorem c88_partner128 : forall b, bytes_ok b -> length b = 32%nat -> exists c, bytes_ok c /\ length c = 32%nat /\ c <> b /\
  forall p r, (length p mod 16 = 0)%nat -> mm_sum128 (p ++ b ++ r) = mm_sum128 (p ++ c ++ r) /\ mm_sum64 (p ++ b ++ r) = mm_sum64 (p ++ c ++ r).
Proof.
  intros b H L. destruct (mm128_partner b H L) as (c & C1 & C2 & C3 & C4). exists c. split; [exact C1|]. split; [exact C2|]. split; [exact C3|].
  intros p r Hp. split; [now apply C4|]. unfold mm_sum64. now rewrite (C4 p r Hp).
Qed.
Print Assumptions c88_partner128.

(** So there are two strings such that all 2^n combinations of n of them collide, after every salt. *)
Theorem c88_multi32 : exists x y, bytes_ok x /\ bytes_ok y /\ length x = 8%nat /\ length y = 8%nat /\ forall n,
  length (choices x y n) = (2 ^ n)%nat /\ NoDup (choices x y n) /\
  forall salt r m m', (length salt mod 4 = 0)%nat -> In m (choices x y n) -> In m' (choices x y n) -> mm_sum32 (salt ++ m ++ r) = mm_sum32 (salt ++ m' ++ r).
Proof.
  destruct (mm32_partner (repeat 0 8)) as (c & C1 & C2 & C3 & C4); [apply repeat0_ok|reflexivity|].
  exists (repeat 0 8), c. split; [apply repeat0_ok|]. split; [exact C1|]. split; [reflexivity|]. split; [exact C2|]. intros n.
  split; [apply choices_len|]. split; [apply choices_NoDup; auto|]. intros salt r m m'. apply (choices_same mm_sum32 4 (repeat 0 8) c); auto; lia.
Qed.
Print Assumptions c88_multi32.
Theorem c88_multi128 : exists x y, bytes_ok x /\ bytes_ok y /\ length x = 32%nat /\ length y = 32%nat /\ forall n,
  length (choices x y n) = (2 ^ n)%nat /\ NoDup (choices x y n) /\
  forall salt r m m', (length salt mod 16 = 0)%nat -> In m (choices x y n) -> In m' (choices x y n) -> mm_sum128 (salt ++ m ++ r) = mm_sum128 (salt ++ m' ++ r).
Proof.
  destruct (mm128_partner (repeat 0 32)) as (c & C1 & C2 & C3 & C4); [apply repeat0_ok|reflexivity|].
  exists (repeat 0 32), c. split; [apply repeat0_ok|]. split; [exact C1|]. split; [reflexivity|]. split; [exact C2|]. intros n.
  split; [apply choices_len|]. split; [apply choices_NoDup; auto|]. intros salt r m m'. apply (choices_same mm_sum128 16 (repeat 0 32) c); auto; lia.
Qed.
Print Assumptions c88_multi128.

(** A chained table keyed by salted Murmur3 keeps them all in one bucket. *)
Theorem c88_one_bucket : exists x y, bytes_ok x /\ bytes_ok y /\ length x = 8%nat /\ length y = 8%nat /\
  forall n np sz extra prime salt t,
  let t0 := new_table np sz extra false prime in
  1 <= size t0 -> fits 64 (size t0) -> (length salt mod 4 = 0)%nat -> (1 <= n)%nat ->
  insert_all (fun k => mm_sum32 (salt ++ k)) t0 (choices x y n) = Ret t ->
  used_buckets t = 1 /\ longest_bucket t = (2 ^ n)%nat /\ longest (st t) = 2 ^ N.of_nat n.
Proof.
  destruct c88_multi32 as (x & y & X1 & X2 & X3 & X4 & M). exists x, y. split; [exact X1|]. split; [exact X2|]. split; [exact X3|]. split; [exact X4|].
  intros n np sz extra prime salt t t0 H1 H2 Hs Hn E. destruct (M n) as (L & _ & SM). destruct (chained_new np sz extra prime (fun k => mm_sum32 (salt ++ k)) (choices x y n) H1 H2) as (t' & E' & I).
  fold t0 in E', I. rewrite E in E'. injection E' as <-. pose proof (ic_longest _ _ _ _ _ I) as LG. pose proof (ic_buckets _ _ _ _ _ I) as BK.
  assert (Hne : choices x y n <> []) by (intros Z; rewrite Z in L; cbn in L; pose proof (Nat.pow_nonzero 2 n ltac:(lia)); lia).
  destruct (choices x y n) as [|k ks] eqn:EK; [congruence|].
  set (i := home prime (size t0) (mm_sum32 (salt ++ k))). pose proof (home_lt prime (size t0) (mm_sum32 (salt ++ k)) H1) as Hi. fold i in Hi.
  assert (A : forall j, bucket_of (fun k => mm_sum32 (salt ++ k)) prime (size t0) (k :: ks) j = if N.of_nat j =? i then k :: ks else []).
  { intros j. unfold bucket_of. assert (F : forall k', In k' (k :: ks) -> home prime (size t0) (mm_sum32 (salt ++ k')) = i).
    { intros k' Hk. unfold i. f_equal. pose proof (SM salt [] k' k Hs Hk (or_introl eq_refl)) as Q. rewrite !app_nil_r in Q. exact Q. }
    revert F. generalize (k :: ks) as l. induction l as [|a l IH]; intros F; [now destruct (_ =? _)|]. cbn [filter]. rewrite (F a (or_introl eq_refl)), N.eqb_sym.
    rewrite IH by (intros; apply F; now right). destruct (N.of_nat j =? i); reflexivity. }
  assert (Sp : seq 0 (N.to_nat (size t0)) = seq 0 (N.to_nat i) ++ N.to_nat i :: seq (S (N.to_nat i)) (N.to_nat (size t0) - N.to_nat i - 1)).
  { replace (N.to_nat (size t0)) with (N.to_nat i + S (N.to_nat (size t0) - N.to_nat i - 1))%nat at 1 by lia. rewrite seq_app. reflexivity. }
  assert (Em : forall a c, (forall j, (a <= j < a + c)%nat -> j <> N.to_nat i) -> map (bucket_of (fun k => mm_sum32 (salt ++ k)) prime (size t0) (k :: ks)) (seq a c) = repeat [] c).
  { intros a c. revert a. induction c as [|c IH]; intros a Ha; [reflexivity|]. cbn [seq map repeat]. rewrite IH by (intros; apply Ha; lia). f_equal. rewrite A.
    destruct (N.eqb_spec (N.of_nat a) i); [exfalso; apply (Ha a); lia|reflexivity]. }
  assert (BK' : buckets t = repeat [] (N.to_nat i) ++ (k :: ks) :: repeat [] (N.to_nat (size t0) - N.to_nat i - 1)).
  { rewrite BK, Sp, map_app. cbn [map]. rewrite !Em by lia. rewrite A, N2Nat.id, N.eqb_refl. reflexivity. }
  assert (Rf : forall c, filter (@nonempty key) (repeat [] c) = []) by (induction c; auto).
  assert (Rm : forall c, list_max (map (@length key) (repeat [] c)) = 0%nat) by (induction c as [|c IH]; [reflexivity|exact IH]).
  assert (LB : longest_bucket t = (2 ^ n)%nat).
  { unfold longest_bucket. rewrite BK', map_app, list_max_app, Rm. cbn [map]. change (list_max (?a :: ?l)) with (Nat.max a (list_max l)). rewrite Rm. change (@length key (k :: ks)) with (@length (list N) (k :: ks)). rewrite L. lia. }
  split; [|split; [exact LB|]].
  - unfold used_buckets. rewrite BK', filter_app, Rf. cbn [filter nonempty]. rewrite Rf. reflexivity.
  - rewrite LG, LB. assert (2 <= 2 ^ n)%nat by (change 2%nat with (2 ^ 1)%nat at 1; apply Nat.pow_le_mono_r; lia).
    destruct (Nat.leb_spec 2 (2 ^ n)); [|lia]. rewrite Nat2N.inj_pow. reflexivity.
Qed.
Print Assumptions c88_one_bucket.
(** The partners of zero bytes. *)
Example c88_nonvacuous :
  let c := [88; 161; 130; 108; 0; 0; 177; 59] in
  let c' := [96; 160; 253; 33; 158; 14; 242; 205; 66; 224; 152; 211; 142; 232; 114; 141; 0; 0; 0; 0; 125; 77; 206; 130; 0; 0; 0; 0; 0; 0; 0; 0] in
  mm_sum32 ([115; 97; 108; 116] ++ repeat 0 8 ++ [1]) = mm_sum32 ([115; 97; 108; 116] ++ c ++ [1]) /\
  mm_sum32 (repeat 0 8 ++ c) = mm_sum32 (c ++ c) /\
  mm_sum32 ([115; 97; 108; 116] ++ c) <> mm_sum32 ([115; 97; 108; 117] ++ c) /\
  mm_sum128 (repeat 7 16 ++ repeat 0 32) = mm_sum128 (repeat 7 16 ++ c').
Proof. vm_compute. repeat split; discriminate. Qed.
Example c88_nonvacuous_table : exists t,
  insert_all (fun k => mm_sum32 ([1; 2; 3; 4] ++ k)) (new_table ex_np 8%Z 0%Z false false) (choices (repeat 0 8) [88; 161; 130; 108; 0; 0; 177; 59] 3) = Ret t /\
  used_buckets t = 1 /\ longest (st t) = 8.
Proof. eexists. vm_compute. auto. Qed.
