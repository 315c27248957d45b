(** C115.  The SMHasher tests on a machine with 32-bit words. *)
From Coq Require Import ZArith NArith Reals Lia Lra List Permutation Bool Arith String.
From Flocq Require Raux.
From Verif Require Import Words WordLemmas ListLemmas HashTableModel HtModel HtSpec HtProofs HtMore HtKeys SmhModel SmhSpec SmhProofs SmhBits SmhKeys SmhKeys2 SmhFlip SmhProps SmhProps2
  QualitySpec QualityProofs SpreadSpec SpreadProofs F64 FloatModel FloatProps RunSpec SmhWordModel SmhWordSpec SmhWordProofs SmhWordProofs2.
From Verif Require HashfModel HashfSpec HashfProps Mm3Model Mm3Spec Mm3Props RunLinesProofs3 RunLinesProps.
Import ListNotations.
Open Scope N_scope.
Open Scope list_scope.

(** hashSize is the width of the word; with 64 bits the tests are those of C79. *)
Theorem c115_width : hashSize 32 = 32 /\ hashSize 64 = 64 /\
  forall hf ks, (List.length ks <= 2 ^ 27)%nat -> (forall k, hf k 0 < 2 ^ 64) -> verdict_on 64 hf ks = verdict hf ks.
Proof.
  split; [reflexivity|]. split; [reflexivity|]. intros hf ks L B. unfold verdict_on, verdict.
  transitivity (check_f (set_of (map (fun k => BytesHash_on 64 hf k 0) ks))); [reflexivity|].
  rewrite c79_check_same by (rewrite map_length; exact L). do 2 f_equal. apply map_ext. intros k. unfold BytesHash_on, BytesHash. apply wrap_small. apply B.
Qed.
Print Assumptions c115_width.

(** Up to 2^26 hashes: a complaint exactly when the number of repeated hashes exceeds the expected
    number by thirty standard deviations, but for a difference of at most 2^-32 from rounding. *)
Theorem c115_check : forall hs, (List.length hs <= 2 ^ 26)%nat ->
  ((bound (List.length hs) + / 2 ^ 32 < INR (repeats hs))%R -> check_on 32 (set_of hs) = true) /\
  ((INR (repeats hs) < bound (List.length hs) - / 2 ^ 32)%R -> check_on 32 (set_of hs) = false).
Proof.
  intros hs L. destruct (check_32 hs L) as (x & -> & _ & N). rewrite <- repeats_distinct. apply Raux.Rabs_le_inv in N.
  split; intros H; [apply Raux.Rlt_bool_true|apply Raux.Rlt_bool_false]; lra.
Qed.
Print Assumptions c115_check.

(** The number of repeated hashes that each test puts up with.  The keys may be listed in any order. *)
Theorem c115_small : forall hf ks, enumerates ks (fun k => byte_string k /\ (1 <= List.length k <= 3)%nat) ->
  N.of_nat (List.length ks) = 16843008 /\ (small_on 32 hf = true <-> 38477 < N.of_nat (repeats (map (fun k => hf k 0 mod 2 ^ 32) ks))).
Proof. intros hf. unfold small_on. apply family; [exact small_enum|exact small_length|reflexivity|vm_compute; reflexivity]. Qed.
Print Assumptions c115_small.

Theorem c115_appended : forall hf ks, enumerates ks (fun k => exists t, [104; 101; 108; 108; 111] ++ repeat 0 256 = k ++ t) ->
  N.of_nat (List.length ks) = 262 /\ (appended_on 32 hf = true <-> 0 < N.of_nat (repeats (map (fun k => hf k 0 mod 2 ^ 32) ks))).
Proof.
  intros hf. unfold appended_on. change (str "hello") with [104; 101; 108; 108; 111]. apply family; [apply appended_enum|reflexivity|reflexivity|vm_compute; reflexivity].
Qed.
Print Assumptions c115_appended.

Definition twos (n : N) : N := 1 + 255 * n + 65025 * (n * (n - 1) / 2).
Lemma twos_pairs n : map (fun i => 255 * (N.of_nat (n - (i + 1)) * 255)) (seq 0 n) = map (fun i => 65025 * N.of_nat (n - 1 - i)) (seq 0 n).
Proof. apply map_ext. intros i. replace (n - (i + 1))%nat with (n - 1 - i)%nat by lia. lia. Qed.
Lemma twoNonZero_exact n : (n <= 16)%nat -> N.of_nat (List.length (fst (twoNonZero n))) = twos (N.of_nat n).
Proof.
  intros H. rewrite twoNonZero_eq. cbn [fst List.length]. rewrite Nat2N.inj_succ, app_length, Nat2N.inj_add.
  assert (E1 : N.of_nat (List.length (ones_keys n)) = N.of_nat n * 255).
  { unfold ones_keys. rewrite flat_map_len_N with (c := 255); [now rewrite seq_length|].
    intros i _. rewrite flat_map_len_N with (c := 1); [now rewrite seq_length|reflexivity]. }
  assert (E2 : N.of_nat (List.length (twos_keys n)) = 65025 * (N.of_nat n * (N.of_nat n - 1) / 2)).
  { unfold twos_keys. rewrite flat_map_length'.
    assert (M : map (fun i => N.of_nat (List.length (flat_map (fun x => flat_map (fun j => flat_map (fun y =>
      [set_nth j (N.of_nat y) (set_nth i (N.of_nat x) (zeros n))]) (seq 1 255)) (seq (i + 1) (n - (i + 1)))) (seq 1 255)))) (seq 0 n)
      = map (fun i => 255 * (N.of_nat (n - (i + 1)) * 255)) (seq 0 n)).
    { apply map_ext. intros i. rewrite flat_map_len_N with (c := N.of_nat (n - (i + 1)) * 255); [now rewrite seq_length|].
      intros x _. rewrite flat_map_len_N with (c := 255); [now rewrite seq_length|].
      intros j _. rewrite flat_map_len_N with (c := 1); [now rewrite seq_length|reflexivity]. }
    rewrite M. clear M E1. do 17 (destruct n as [|n]; [vm_compute; reflexivity|]). lia. }
  rewrite E1, E2. unfold twos. lia.
Qed.
Lemma two_all_exact : N.of_nat (List.length (flat_map (fun n => fst (twoNonZero n)) (seq 2 15))) = 44251440.
Proof.
  assert (G : forall l, Forall (fun n => n <= 16)%nat l -> N.of_nat (List.length (flat_map (fun n => fst (twoNonZero n)) l)) = fold_right (fun n s => twos (N.of_nat n) + s) 0 l).
  { induction l as [|n l IH]; intros F; [reflexivity|]. apply Forall_cons_iff in F. destruct F as [Fn F]. cbn [flat_map fold_right]. rewrite app_length, Nat2N.inj_add, twoNonZero_exact, IH by assumption. reflexivity. }
  rewrite G; [reflexivity|]. apply Forall_forall. intros n Hn. apply in_seq in Hn. lia.
Qed.
Theorem c115_two_nonzero : forall hf ks, enumerates ks (fun k => (2 <= List.length k <= 16)%nat /\ byte_string k /\ (List.length (nonzero k) <= 2)%nat) ->
  N.of_nat (List.length ks) = 44251440 /\ (two_on 32 hf = true <-> 242286 < N.of_nat (repeats (map (fun k => hf k 0 mod 2 ^ 32) ks))).
Proof. intros hf. unfold two_on. apply family; [exact two_all_enum|exact two_all_exact|reflexivity|vm_compute; reflexivity]. Qed.
Print Assumptions c115_two_nonzero.

(** The number of keys with few bits, row by row of Pascal's triangle. *)
Fixpoint next_row (r : list N) : list N := match r with a :: (b :: _) as t => (a + b) :: next_row t | _ => [1] end.
Definition sparse_row (k m : nat) : list N := Nat.iter m next_row (repeat 1 (S k)).
Lemma sparse_count_step k m : sparse_count (S k) (S m) = sparse_count (S k) m + sparse_count k m.
Proof. cbn [sparse_count]. rewrite seq_S, map_app, fold_right_app. cbn [map fold_right Nat.add]. rewrite N.add_0_r.
  generalize (map (fun j => sparse_count k j) (seq 0 m)) (sparse_count k m). intros l x. induction l as [|y l IH]; cbn [fold_right]; lia. Qed.
Lemma sparse_row_eq k m : sparse_row k m = map (fun i => sparse_count i m) (rev (seq 0 (S k))).
Proof.
  induction m as [|m IH].
  - unfold sparse_row. cbn [Nat.iter].
    assert (E : forall l, map (fun i => sparse_count i 0) l = repeat 1 (List.length l)) by (induction l as [|x l I]; [reflexivity|]; cbn [map List.length repeat]; rewrite I; now destruct x).
    rewrite E, rev_length, seq_length. reflexivity.
  - unfold sparse_row in *. cbn [Nat.iter].
    etransitivity; [apply (f_equal next_row IH)|]. clear IH. induction k as [|k IH]; [reflexivity|].
    rewrite (seq_S (S k)), rev_app_distr. cbn [rev app map Nat.add].
    replace (rev (seq 0 (S k))) with (k :: rev (seq 0 k)) in * by (rewrite (seq_S k), rev_app_distr; reflexivity).
    cbn [map] in *. rewrite (sparse_count_step k m). cbn [next_row] in *. f_equal. exact IH.
Qed.
Lemma sparse_count_row k m : sparse_count k m = hd 0 (sparse_row k m).
Proof. rewrite sparse_row_eq, seq_S, rev_app_distr. reflexivity. Qed.

Theorem c115_sparse : forall hf n k c t,
  In (n, k, (c, t)) [(32%nat, 6%nat, (1149017, 525)); (40%nat, 6%nat, (4598479, 3950)); (48%nat, 5%nat, (1925357, 1054)); (56%nat, 5%nat, (4216423, 3434));
                     (64%nat, 5%nat, (8303633, 10714)); (96%nat, 4%nat, (3469497, 2524)); (256%nat, 3%nat, (2796417, 1815)); (2048%nat, 2%nat, (2098177, 1191))] ->
  forall ks, enumerates ks (fun y => (8 * List.length y = n)%nat /\ byte_string y /\ (List.length (ones_from 0 y) <= k)%nat) ->
  N.of_nat (List.length ks) = c /\ (sparse_on 32 hf n k = true <-> t < N.of_nat (repeats (map (fun y => hf y 0 mod 2 ^ 32) ks))).
Proof.
  intros hf n k c t I. match type of I with In _ ?l => assert (T : forallb (fun '(n, k, (c, t)) => Nat.eqb n (8 * (n / 8)) && (hd 0 (sparse_row k (8 * (n / 8))) =? c) && (c <=? 67108864) && marginb c t) l = true) by (vm_compute; reflexivity) end.
  rewrite forallb_forall in T. specialize (T _ I). cbv beta iota in T. rewrite !andb_true_iff, Nat.eqb_eq, N.eqb_eq in T. destruct T as [[[E8 C] L] M]. clear I.
  unfold sparse_on. apply family; [| |exact L|exact M].
  - rewrite E8 at 1. destruct (c49_sparse_all (n / 8) k) as [A B]. split; [exact A|]. intros y. rewrite B. intuition lia.
  - unfold sparse_keys. rewrite setbits_eq; [|apply zeros_bytes|intros j _; unfold bit; fold (zeros (n / 8)); rewrite nth_zeros; apply N.bits_0].
    cbn [fst]. rewrite sparse_length, repeat_length, Nat.sub_0_r, sparse_count_row. exact C.
Qed.
Print Assumptions c115_sparse.

Theorem c115_permutation : forall hf n s c t,
  In (n, s, (c, t)) [(8%nat, [0; 1; 2; 3; 4; 5; 6; 7], (19173961, 49005));
    (8%nat, [0; 536870912; 1073741824; 1610612736; 2147483648; 2684354560; 3221225472; 3758096384], (19173961, 49005));
    (20%nat, [0; 1], (2097151, 1190)); (20%nat, [0; 2147483648], (2097151, 1190));
    (6%nat, [0; 1; 2; 3; 4; 5; 6; 7; 536870912; 1073741824; 1610612736; 2147483648; 2684354560; 3221225472; 3758096384], (12204241, 21289))] ->
  forall ks, enumerates ks (fun k => exists vs, (List.length vs <= n)%nat /\ incl vs s /\ k = flat_map block vs) ->
  N.of_nat (List.length ks) = c /\ (permutation_on 32 hf n s = true <-> t < N.of_nat (repeats (map (fun y => hf y 0 mod 2 ^ 32) ks))).
Proof.
  intros hf n s c t I. match type of I with In _ ?l => assert (T : forallb (fun '(n, s, (c, t)) => nodupb s && forallb (fun v => v <? 2 ^ 32) s && (perm_count n (N.of_nat (List.length s)) =? c) && (c <=? 67108864) && marginb c t) l = true) by (vm_compute; reflexivity) end.
  rewrite forallb_forall in T. specialize (T _ I). cbv beta iota in T. rewrite !andb_true_iff, N.eqb_eq in T. destruct T as [[[[T1 T2] C] L] M]. clear I.
  unfold permutation_on. apply family; [| |exact L|exact M].
  - apply permutation_enum; [now apply nodupb_ok|]. apply Forall_forall. intros v Hv. rewrite forallb_forall in T2. apply N.ltb_lt. now apply T2.
  - rewrite permutation_length. exact C.
Qed.
Print Assumptions c115_permutation.

Theorem c115_text : forall hf p q ks, enumerates ks (fun k => exists m, List.length m = 4%nat /\ Forall (fun c => 65 <= c <= 84 \/ 97 <= c <= 116 \/ 48 <= c <= 57) m /\ k = p ++ m ++ q) ->
  N.of_nat (List.length ks) = 6250000 /\ (text_on 32 hf p q = true <-> 6570 < N.of_nat (repeats (map (fun k => hf k 0 mod 2 ^ 32) ks))).
Proof.
  intros hf p q. unfold text_on. apply family; [|rewrite text_length; reflexivity|reflexivity|vm_compute; reflexivity].
  destruct (c78_text p q) as [A B]. split; [exact A|]. intros k. rewrite B. split; intros (m & L & I & E); exists m; (split; [exact L|]; split; [|exact E]).
  - apply Forall_forall. intros c Hc. apply c78_text_letters. now apply I.
  - intros c Hc. apply c78_text_letters. rewrite Forall_forall in I. now apply I.
Qed.
Print Assumptions c115_text.

Theorem c115_cyclic : forall hf n rb, (4 <= n <= 12)%nat -> (forall i, List.length (rb i) = (n - 4)%nat) ->
  let key c := cycled 8 ([c * 79 mod 97; c * 43 mod 137; c * 151 mod 197; c * 199 mod 251] ++ rb (N.to_nat c)) in
  cyclic_on 32 hf n rb = true <-> 440 < N.of_nat (repeats (map (fun c => hf (key c) 0 mod 2 ^ 32) (map N.of_nat (seq 0 (N.to_nat 1000000))))).
Proof.
  intros hf n rb [Hn _] Hr key. unfold cyclic_on. rewrite verdict_on_eq.
  assert (M : cyclic_keys n rb (N.to_nat 1000000) = map key (map N.of_nat (seq 0 (N.to_nat 1000000)))).
  { rewrite cyclic_eq by auto. rewrite map_map. apply map_ext. intros i. unfold key. rewrite Nat2N.id. reflexivity. }
  rewrite M, map_map. apply (check_count _ 1000000); [|reflexivity|vm_compute; reflexivity]. rewrite !map_length, seq_length. apply N2Nat.id.
Qed.
Print Assumptions c115_cyclic.

Theorem c115_seed : forall hf, seed_on 32 hf = true <->
  33 < N.of_nat (repeats (map (fun seed => hf [104; 101; 108; 108; 111] seed mod 2 ^ 32) (map N.of_nat (seq 0 (N.to_nat 100000))))).
Proof.
  intros hf. unfold seed_on, BytesHash_on. change (str "hello") with [104; 101; 108; 108; 111]. rewrite map_map.
  rewrite (map_ext_in _ (fun i => hf [104; 101; 108; 108; 111] (N.of_nat i) mod 2 ^ 32)).
  - apply (check_count _ 100000); [|reflexivity|vm_compute; reflexivity]. rewrite map_length, seq_length. apply N2Nat.id.
  - intros i Hi. apply in_seq in Hi. rewrite wrap32_mod, (wrap_small 32); [reflexivity|]. red. change (2 ^ 32) with 4294967296. lia.
Qed.
Print Assumptions c115_seed.

Theorem c115_windowed : forall hf k r, key_ok k -> (16 <= bits k)%nat -> (r < bits k)%nat ->
  exists b, windowed_on 32 hf r k = Some b /\
  forall ks, enumerates ks (fun y => exists i, (i < 2 ^ 16)%nat /\ rotation (bits k) r i y) ->
  (b = true <-> 21 < N.of_nat (repeats (map (fun y => hf y 0 mod 2 ^ 32) ks))).
Proof.
  intros hf k r O Hb Hr. assert (E16 : N.to_nat 65536 = (2 ^ 16)%nat) by (apply Nat2N.inj; rewrite N2Nat.id, Nat2N.inj_pow; reflexivity).
  unfold windowed_on. rewrite E16. destruct (window_keys_spec k r (2 ^ 16) O Hb Hr (le_n _)) as (wk & E & L & R & ND). rewrite E. cbn [option_map].
  eexists. split; [reflexivity|]. intros ks Hks.
  assert (W : enumerates (map key_bytes wk) (fun y => exists i, (i < 2 ^ 16)%nat /\ rotation (bits k) r i y)).
  { split; [exact ND|]. intros y. rewrite in_map_iff. split.
    - intros (z & <- & Iz). apply (In_nth _ _ (Int32Key 0)) in Iz. destruct Iz as (i & Hi & <-). rewrite L in Hi. exists i. auto.
    - intros (i & Hi & Rot). exists (nth i wk (Int32Key 0)). split; [|apply nth_In; now rewrite L].
      destruct (R i Hi) as (L1 & B1 & F1). destruct Rot as (L2 & B2 & F2). apply bits_ext; auto; [lia|].
      intros p Hp. rewrite F1, F2 by lia. reflexivity. }
  assert (KH : map (key_hash_on 32 hf) wk = map (fun y => BytesHash_on 32 hf y 0) (map key_bytes wk)).
  { rewrite map_map. apply map_ext. intros z. pose proof (key_hash_bytes hf z) as K. unfold BytesHash_on. rewrite <- K. destruct z; reflexivity. }
  rewrite KH. change (check_on 32 (set_of (map (fun y => BytesHash_on 32 hf y 0) (map key_bytes wk)))) with (verdict_on 32 hf (map key_bytes wk)).
  apply (family hf _ _ 65536 21 W); [rewrite map_length, L, Nat2N.inj_pow; reflexivity|reflexivity|vm_compute; reflexivity|exact Hks].
Qed.
Print Assumptions c115_windowed.

(** A hash of at most 32 bits that is reported on the 32-bit machine is reported on the 64-bit one. *)
Theorem c115_fewer : forall hf ks, (List.length ks <= 2 ^ 26)%nat -> (forall k, In k ks -> hf k 0 < 2 ^ 32) ->
  verdict_on 32 hf ks = true -> verdict hf ks = true.
Proof.
  intros hf ks L B V. unfold verdict. apply check_iff; [rewrite map_length; lia|]. intros D. revert V. rewrite verdict_on_eq.
  rewrite (map_ext_in _ (fun k => hf k 0)) by (intros k Hk; apply N.mod_small, B, Hk). change (map (fun k => BytesHash hf k 0) ks) with (map (fun k => hf k 0) ks) in D.
  destruct (check_32 (map (fun k => hf k 0) ks)) as (x & -> & X & _); [now rewrite map_length|].
  rewrite <- repeats_distinct, (repeats_nodup _ D). rewrite Raux.Rlt_bool_false; [discriminate|]. cbn [INR]. exact X.
Qed.
Print Assumptions c115_fewer.
(** For thirteen names of Hashf, and any keys. *)
Theorem c115_names : forall e name ks, In name ["adler32"; "sbox"; "CrapWow"; "j332c"; "j332b"; "j232"; "j264l"; "j264h"; "j264xor"; "spooky32"; "gomap32"; "murmur332"; "FarmHash32"]%string ->
  (forall k, HashfModel.adler32 e k < 2 ^ 32) -> (List.length ks <= 2 ^ 26)%nat -> Forall byte_string ks ->
  verdict_on 32 (answer e name) ks = true -> verdict (answer e name) ks = true.
Proof.
  intros e name ks I A L F. apply c115_fewer; [exact L|]. intros k Hk. rewrite Forall_forall in F. specialize (F k Hk). unfold answer.
  destruct (HashfSpec.reference e name k 0) as [h|] eqn:E; [|reflexivity]. exact (HashfProps.narrow_range e name k 0 h A F I E).
Qed.
Print Assumptions c115_names.
(** The test of appended zeros tolerates nothing on either machine. *)
Theorem c115_appended_both : forall hf, (forall k, byte_string k -> hf k 0 < 2 ^ 32) -> appended_on 32 hf = TestSmhasherAppendedZeros hf.
Proof.
  intros hf B. assert (A0 : enumerates (appended_keys ([104; 101; 108; 108; 111] ++ repeat 0 256)) (fun k => exists t, [104; 101; 108; 108; 111] ++ repeat 0 256 = k ++ t)) by apply appended_enum.
  destruct (c115_appended hf _ A0) as [L H].
  assert (BK : forall k, In k (appended_keys ([104; 101; 108; 108; 111] ++ repeat 0 256)) -> hf k 0 < 2 ^ 32).
  { intros k Hk. apply A0 in Hk. destruct Hk as [t E]. apply B. assert (W : byte_string ([104; 101; 108; 108; 111] ++ repeat 0 256)).
    { apply Forall_app. split; [repeat constructor|]. apply Forall_forall. intros x Hx. apply repeat_spec in Hx. subst x. reflexivity. }
    rewrite E in W. apply Forall_app in W. apply W. }
  apply eq_true_iff_eq. rewrite H. unfold TestSmhasherAppendedZeros, verdict. change (str "hello") with [104; 101; 108; 108; 111].
  rewrite check_iff by (rewrite map_length; apply le27; rewrite L; discriminate).
  rewrite (map_ext_in _ (fun k => BytesHash hf k 0)) by (intros k Hk; apply N.mod_small, BK, Hk).
  set (l := map _ _). split.
  - intros R D. rewrite (repeats_nodup _ D) in R. now apply N.lt_irrefl in R.
  - intros D. apply N.neq_0_lt_0. intros R. apply D. unfold repeats in R.
    assert (X : (List.length l <= List.length (nodup N.eq_dec l))%nat) by lia.
    refine (NoDup_incl_NoDup (NoDup_nodup N.eq_dec l) X _). intros x. apply nodup_In.
Qed.
Print Assumptions c115_appended_both.
(** Murmur3 Sum32 passes the test of small keys on both machines, and CrapWow fails appended zeros on both. *)
Theorem c115_murmur_crapwow : forall e, small_on 32 (fun k _ => Mm3Model.mm_sum32 k) = false /\ appended_on 32 (answer e "CrapWow"%string) = true.
Proof.
  intros e. split.
  - apply not_true_is_false. destruct (c115_small (fun k _ => Mm3Model.mm_sum32 k) _ small_enum) as [_ H]. rewrite H. clear H.
    rewrite repeats_nodup; [discriminate|]. refine (NoDup_map_in _ _ _ (proj1 small_enum)). intros k k' Hk Hk' E.
    apply (proj1 (proj2 small_enum _)) in Hk, Hk'. destruct Hk as [Bk Lk], Hk' as [Bk' Lk'].
    refine (RunLinesProps.c108_murmur_small k k' Bk Bk' (proj2 Lk) (proj2 Lk') _).
    rewrite !N.mod_small in E; [exact E| |]; rewrite (fun m H => proj1 (Mm3Props.c52_reference m H)) by assumption; unfold Mm3Spec.murmur3_x86_32; destruct (Mm3Spec.blocks 4 _); apply HashfProps.xsr32.
  - rewrite c115_appended_both; [apply RunLinesProofs3.crapwow_appended|]. intros k Hk. unfold answer.
    destruct (HashfSpec.reference e "CrapWow"%string k 0) as [h|] eqn:E; [|reflexivity].
    revert E. cbv [HashfSpec.reference HashfSpec.assoc HashfSpec.table String.eqb Ascii.eqb Bool.eqb]. intros E. injection E as <-. now apply HashfProps.crapwow_range.
Qed.
Print Assumptions c115_murmur_crapwow.

(** A repeated hash that the 64-bit test reports and the 32-bit test does not. *)
Theorem c115_collision_refuted : exists hf, (forall k s, hf k s < 2 ^ 32 \/ 100000 <= s) /\ TestSmhasherSeed hf = true /\ seed_on 32 hf = false /\
  hf [104; 101; 108; 108; 111] 0 = hf [104; 101; 108; 108; 111] 1.
Proof.
  exists (fun _ s => N.max s 1). split; [intros k s; destruct (N.lt_ge_cases s 100000); [left; change (2 ^ 32) with 4294967296; lia|now right]|]. split; [|split; [|reflexivity]].
  - apply c79_seed. exists 0, 1. repeat split; lia.
  - apply not_true_is_false. rewrite c115_seed. apply N.le_ngt.
    assert (X : exists m, N.to_nat 100000 = S m /\ (N.of_nat m < 100000)%N) by (exists (N.to_nat 99999); split; lia). destruct X as (m & -> & Hm).
    cbn [seq map]. match goal with |- N.of_nat (repeats (?a :: ?l)) <= _ => pose proof (repeats_cons a l) as RC; assert (Z0 : repeats l = 0%nat) end.
    { apply repeats_nodup. rewrite map_map. apply NoDup_map_in; [|apply seq_NoDup]. intros x y Hx Hy. apply in_seq in Hx, Hy.
      rewrite !N.mod_small by (change (2 ^ 32) with 4294967296; lia). lia. }
    rewrite Z0 in RC. lia.
Qed.
Print Assumptions c115_collision_refuted.

(** Of the functions from n keys to 2^32 c values (c = 1: 32-bit hashes, c = 2^32: 64-bit hashes)
    at most one in 899 is reported. *)
Theorem c115_random : forall ks (c : nat), NoDup ks -> (List.length ks <= 2 ^ 26)%nat ->
  let M := 2 ^ 32 * N.of_nat c in
  899 * how_many (fun v => verdict_on 32 (fun k _ => given ks v k) ks) (assignments M (List.length ks)) <= M ^ N.of_nat (List.length ks).
Proof.
  intros ks c D L M. pose proof (how_many_flagged c (List.length ks) L) as H. fold M in H. refine (N.le_trans _ _ _ (N.eq_le_incl _ _ _) H). f_equal.
  unfold how_many. do 2 f_equal. apply filter_ext_in. intros v Hv. apply assignments_in in Hv. destruct Hv as [Lv _].
  rewrite verdict_on_eq. do 2 f_equal. rewrite <- (map_map (given ks v) (fun a => a mod 2 ^ 32)). f_equal. now apply given_map.
Qed.
Print Assumptions c115_random.

(** ** Concrete cases *)
Lemma repeats_all l v : NoDup v -> (forall x, In x l <-> In x v) -> repeats l = (List.length l - List.length v)%nat.
Proof.
  intros D I. unfold repeats. f_equal. apply Permutation_length, NoDup_Permutation; [apply NoDup_nodup|exact D|].
  intros x. rewrite nodup_In. apply I.
Qed.
Lemma repeats_const {A} (f : A -> N) ks : ks <> [] -> (forall k, In k ks -> f k = 0) -> repeats (map f ks) = (List.length ks - 1)%nat.
Proof.
  intros NE F. rewrite (repeats_all _ [0]); [now rewrite map_length|repeat constructor; intros []|].
  intros x. rewrite in_map_iff. split; [intros (k & <- & Hk); left; now rewrite F|].
  intros [<-|[]]. destruct ks as [|k ks]; [easy|]. exists k. split; [apply F|]; now left.
Qed.
Lemma nonempty {A} (l : list A) (n : N) : N.of_nat (List.length l) = n -> n <> 0 -> l <> [].
Proof. intros E H ->. apply H. now rewrite <- E. Qed.
Definition zero_hash : list N -> N -> N := fun _ _ => 0.
(** Every family has an enumeration, and the hash that is always 0 is reported. *)
Example c115_width_nonvacuous : verdict_on 64 (fun k _ => 2 ^ 63 + hd 0 k) [[1]; [2]; [1; 1]] = true /\ verdict_on 64 (fun k _ => 2 ^ 63 + hd 0 k) [[1]; [2]] = false.
Proof. split; vm_compute; reflexivity. Qed.
(** On 64 bits these two hashes differ; on 32 bits they are the same. *)
Example c115_width_nonvacuous2 : verdict_on 32 (fun k _ => 2 ^ 32 * hd 0 k) [[1]; [2]] = true /\ verdict_on 64 (fun k _ => 2 ^ 32 * hd 0 k) [[1]; [2]] = false.
Proof. split; vm_compute; reflexivity. Qed.
Example c115_check_nonvacuous : (bound 3 + / 2 ^ 32 < INR (repeats [5; 6; 5]%N))%R /\ check_on 32 (set_of [5; 6; 5]) = true /\ (INR (repeats [5; 6; 7]%N) < bound 3 - / 2 ^ 32)%R.
Proof.
  assert (E : (expected 3 = 3 / 4294967296)%R) by (unfold expected; cbn [INR]; field).
  assert (S1 : (sqrt (expected 3) < / 32768)%R).
  { rewrite E. replace (/ 32768)%R with (sqrt (/ 1073741824)); [apply sqrt_lt_1; lra|]. replace (/ 1073741824)%R with (/ 32768 * / 32768)%R by field. apply sqrt_square. lra. }
  pose proof (sqrt_pos (expected 3)) as S0. change (repeats [5; 6; 5]) with 1%nat. change (repeats [5; 6; 7]) with 0%nat. unfold bound. rewrite E in *. cbn [INR].
  replace (2 ^ 32)%R with 4294967296%R by ring. split; [lra|]. split; [vm_compute; reflexivity|]. lra.
Qed.
Example c115_small_nonvacuous : exists ks, enumerates ks (fun k => byte_string k /\ (1 <= List.length k <= 3)%nat) /\ small_on 32 zero_hash = true.
Proof.
  exists (small_keys 256 Short). split; [exact small_enum|]. destruct (c115_small zero_hash _ small_enum) as [L H]. apply H. clear H.
  rewrite repeats_const; [lia|apply (nonempty _ _ L); discriminate|reflexivity].
Qed.
Example c115_appended_nonvacuous : exists ks, enumerates ks (fun k => exists t, [104; 101; 108; 108; 111] ++ repeat 0 256 = k ++ t) /\
  appended_on 32 (fun k _ => N.max 7 (N.of_nat (List.length k))) = true /\ appended_on 32 (fun k _ => N.of_nat (List.length k)) = false.
Proof. exists (appended_keys ([104; 101; 108; 108; 111] ++ repeat 0 256)). split; [apply appended_enum|]. split; vm_compute; reflexivity. Qed.
Example c115_two_nonzero_nonvacuous : exists ks, enumerates ks (fun k => (2 <= List.length k <= 16)%nat /\ byte_string k /\ (List.length (nonzero k) <= 2)%nat) /\ two_on 32 zero_hash = true.
Proof.
  eexists. split; [exact two_all_enum|]. destruct (c115_two_nonzero zero_hash _ two_all_enum) as [L H]. apply H. clear H.
  rewrite repeats_const; [lia|apply (nonempty _ _ L); discriminate|reflexivity].
Qed.
(** The keys are those of the 64-bit tests. *)
Example c115_sparse_nonvacuous : exists ks, enumerates ks (fun y => (8 * List.length y = 40)%nat /\ byte_string y /\ (List.length (ones_from 0 y) <= 6)%nat) /\
  sparse_on 32 zero_hash 40 6 = true.
Proof.
  assert (E : enumerates (sparse_keys 40 6) (fun y => (8 * List.length y = 40)%nat /\ byte_string y /\ (List.length (ones_from 0 y) <= 6)%nat)).
  { destruct (c49_sparse_all 5 6) as [A B]. split; [exact A|]. intros y. change 40%nat with (8 * 5)%nat at 1. rewrite B. intuition lia. }
  eexists. split; [exact E|].
  destruct (c115_sparse zero_hash 40 6 4598479 3950 (or_intror (or_introl eq_refl)) _ E) as [L H]. apply H.
  rewrite repeats_const; [lia|apply (nonempty _ _ L); discriminate|reflexivity].
Qed.
Example c115_permutation_nonvacuous : exists ks, enumerates ks (fun k => exists vs, (List.length vs <= 20)%nat /\ incl vs [0; 1] /\ k = flat_map block vs) /\
  permutation_on 32 zero_hash 20 [0; 1] = true.
Proof.
  assert (E : enumerates (permutation_keys [0; 1] 20) (fun k => exists vs, (List.length vs <= 20)%nat /\ incl vs [0; 1] /\ k = flat_map block vs)) by (apply permutation_enum; [now apply nodupb_ok|repeat constructor]).
  eexists. split; [exact E|].
  destruct (c115_permutation zero_hash 20 [0; 1] 2097151 1190 (or_intror (or_intror (or_introl eq_refl))) _ E) as [L H]. apply H.
  rewrite repeats_const; [lia|apply (nonempty _ _ L); discriminate|reflexivity].
Qed.
Example c115_text_nonvacuous : exists ks, enumerates ks (fun k => exists m, List.length m = 4%nat /\ Forall (fun c => 65 <= c <= 84 \/ 97 <= c <= 116 \/ 48 <= c <= 57) m /\ k = [70] ++ m ++ [66]) /\
  text_on 32 zero_hash [70] [66] = true.
Proof.
  assert (E : enumerates (text_keys alphabet [70] [66]) (fun k => exists m, List.length m = 4%nat /\ Forall (fun c => 65 <= c <= 84 \/ 97 <= c <= 116 \/ 48 <= c <= 57) m /\ k = [70] ++ m ++ [66])).
  { destruct (c78_text [70] [66]) as [A B]. split; [exact A|]. intros k. rewrite B. split; intros (m & L & I & E); exists m; (split; [exact L|]; split; [|exact E]).
    - apply Forall_forall. intros c Hc. apply c78_text_letters. now apply I.
    - intros c Hc. apply c78_text_letters. rewrite Forall_forall in I. now apply I. }
  eexists. split; [exact E|]. destruct (c115_text zero_hash [70] [66] _ E) as [L H]. apply H.
  rewrite repeats_const; [lia|apply (nonempty _ _ L); discriminate|reflexivity].
Qed.
Example c115_cyclic_nonvacuous : cyclic_on 32 zero_hash 6 (fun i => [N.of_nat i mod 256; 7]) = true.
Proof.
  apply c115_cyclic; [lia|reflexivity|]. rewrite repeats_const; [|intros E; apply (f_equal (@List.length N)) in E; rewrite map_length, seq_length in E; cbn [List.length] in E; lia|reflexivity].
  rewrite map_length, seq_length. lia.
Qed.
(** The last tolerated number of repeated hashes and the first that is not. *)
Lemma repeats_max t n : (t < n)%nat -> N.of_nat n <= 2 ^ 32 ->
  repeats (map (fun s => N.max s (N.of_nat t) mod 2 ^ 32) (map N.of_nat (seq 0 n))) = t.
Proof.
  intros H B. rewrite (repeats_all _ (map N.of_nat (seq t (n - t)))).
  - rewrite !map_length, !seq_length. lia.
  - apply NoDup_map_in; [|apply seq_NoDup]. intros x y _ _. apply Nat2N.inj.
  - intros x. rewrite map_map, !in_map_iff. split.
    + intros (i & <- & I). apply in_seq in I. exists (Nat.max i t). rewrite N.mod_small by lia. split; [lia|]. apply in_seq. lia.
    + intros (i & <- & I). apply in_seq in I. exists i. rewrite N.mod_small by lia. split; [lia|]. apply in_seq. lia.
Qed.
Example c115_seed_nonvacuous : seed_on 32 (fun _ s => N.max s 33) = false /\ seed_on 32 (fun _ s => N.max s 34) = true.
Proof.
  split; [apply not_true_is_false|]; rewrite c115_seed.
  - change 33 with (N.of_nat 33) at 2. rewrite repeats_max by lia. lia.
  - change 34 with (N.of_nat 34). rewrite repeats_max by lia. lia.
Qed.
Example c115_windowed_nonvacuous : let k := BytesKey [1; 2; 3; 4; 5] in key_ok k /\ (16 <= bits k)%nat /\ (39 < bits k)%nat.
Proof. cbv zeta. split; [repeat constructor|]. split; vm_compute; lia. Qed.
Example c115_fewer_nonvacuous : let hf := (fun k (_ : N) => N.of_nat (List.length k)) in let ks := [[1]; [2]; [3; 4]] in
  (forall k, In k ks -> hf k 0 < 2 ^ 32) /\ verdict_on 32 hf ks = true /\ verdict_on 32 hf [[1]; [3; 4]] = false.
Proof. cbv zeta. split; [intros k [<-|[<-|[<-|[]]]]; reflexivity|]. split; vm_compute; reflexivity. Qed.
(** Without the bound on the hash this fails: two hashes that differ above bit 32 only. *)
Example c115_fewer_needs_32 : let hf := (fun k (_ : N) => 2 ^ 32 * hd 0 k) in verdict_on 32 hf [[1]; [2]] = true /\ verdict hf [[1]; [2]] = false.
Proof. split; vm_compute; reflexivity. Qed.
Example c115_names_nonvacuous : forall e, (forall k, HashfModel.adler32 e k < 2 ^ 32) -> Forall byte_string [[1; 2]; [3; 4]] /\ verdict_on 32 (answer e "sbox"%string) [[7]; [7]] = true.
Proof. intros e _. split; [repeat constructor|vm_compute; reflexivity]. Qed.
Example c115_appended_both_nonvacuous : (forall k, byte_string k -> (fun (_ : list N) (_ : N) => 5) k 0 < 2 ^ 32) /\ appended_on 32 (fun _ _ => 5) = true.
Proof. split; [reflexivity|vm_compute; reflexivity]. Qed.
Example c115_random_nonvacuous : let ks := [[1]; [2]; [3; 4]] in
  NoDup ks /\ In [5; 6; 5] (assignments (2 ^ 32 * 1) 3) /\ verdict_on 32 (fun k _ => given ks [5; 6; 5] k) ks = true /\ verdict_on 32 (fun k _ => given ks [5; 6; 7] k) ks = false.
Proof.
  cbv zeta. split; [repeat (apply NoDup_cons; [cbn; intuition discriminate|]); apply NoDup_nil|].
  split; [rewrite assignments_in; split; [reflexivity|repeat (apply Forall_cons; [reflexivity|]); apply Forall_nil]|]. split; vm_compute; reflexivity.
Qed.
