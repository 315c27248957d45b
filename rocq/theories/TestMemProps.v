(** C109: the tests that make their own keys, on memory, and what they report for hash functions
    without collisions on those keys. *)
From Coq Require Import NArith ZArith List Arith Lia String Bool Permutation.
From Verif Require Import Words WordLemmas Mem ListLemmas KeccakModel HashfModel HashfSpec HashfProofs HashfProps HashTableModel HashTableSpec HashTableProofs HashTableProps
  LiveModel LiveSpec LiveProps HtModel HtSpec HtProofs HtKeys HtRuns HtProps HtProps2 Mm3Spec Mm3Model Mm3Proofs Mm3Props Mm3Small
  UniformSpec UniformProofs UniformProofs2 UniformProps TestMemModel TestMemProofs.
From Verif Require GomapSpec GomapModel GomapProps MetroSpec MetroModel MetroProps.
Import ListNotations.
Open Scope N_scope.
Notation length := List.length.

Local Opaque triples march.

(** The keys of a test that makes its own. *)
Definition own_keys (cf : config) (t : test) : list key :=
  match t with TI => keysI (cf_ni cf) | TJ => march 900 | TL => triples 256 | _ => [] end.
(** A run on memory and a run of the table as a function of bytes end alike. *)
Definition agrees (r : res (world * live)) (o : outcome table) : Prop :=
  match o with Ret t => exists w l, r = Ok (w, l) /\ table_in (mem w) l = t | Panic => r = Panics | OutOfFuel => False end.

Lemma hashes_iff e name k seed : counter name = false -> hashes e name k seed <-> reference e name k seed <> None.
Proof.
  intros C. unfold hashes. unfold counter in C. apply orb_false_iff in C. destruct C as [C1 C2].
  apply String.eqb_neq in C1. apply String.eqb_neq in C2. tauto.
Qed.

(** One buffer is used for all keys: still the table gets every key as it was when it was
    inserted, and the run is that of HtModel.v (C73, C75).  If one key cannot be hashed, the
    test panics. *)
Theorem c109_memory e grow np cf name seed w n c lines t : ext_ok e -> world_ok w -> counter name = false -> seed < 2 ^ 64 -> In t [TI; TJ; TL] ->
  ((forall k, In k (own_keys cf t) -> reference e name k seed <> None) ->
     agrees (mem_test e grow np cf name seed w n t) (snd (run_test np cf (named e name seed) n c lines t))) /\
  ((exists k, In k (own_keys cf t) /\ reference e name k seed = None) -> mem_test e grow np cf name seed w n t = Panics).
Proof.
  intros He Hw Hc Hs Ht.
  assert (G : forall sz ops ks, keys_of [] ops = ks -> lops_ok [] ops -> (all_hash e name seed [] ops <-> forall k, In k ks -> hashes e name k seed) ->
    let r := live_run e grow name w [] (live_new np sz seed (cf_extra cf) (cf_oa cf) (cf_prime cf)) ops in
    ((forall k, In k ks -> reference e name k seed <> None) ->
       agrees r (insert_all (named e name seed) (new_table np sz (cf_extra cf) (cf_oa cf) (cf_prime cf)) ks)) /\
    ((exists k, In k ks /\ reference e name k seed = None) -> r = Panics)).
  { intros sz ops ks K L A r. split.
    - intros H. assert (A' : all_hash e name seed [] ops) by (apply A; intros k Hk; apply hashes_iff; auto).
      pose proof (c102_programs e grow w name seed np sz (cf_extra cf) (cf_oa cf) (cf_prime cf) ops He Hw Hc Hs L A') as P. cbv zeta in P.
      rewrite K in P. unfold agrees. exact P.
    - intros (k & Hk & R). apply c102_panics; auto. intros A'. apply (proj1 A A') in Hk. apply hashes_iff in Hk; auto. }
  destruct Ht as [<-|[<-|[<-|[]]]]; cbn [mem_test run_test snd own_keys].
  - destruct (testI_whole e name seed (cf_ni cf)) as (K & L & A). apply G; assumption.
  - destruct (testJ_whole e name seed 900) as (K & L & A); [reflexivity|]. apply G; assumption.
  - destruct (testL_whole e name seed Hs 256) as (K & L & A); [lia|]. apply G; assumption.
Qed.
Print Assumptions c109_memory.

(** ** Names without collisions *)
Lemma keysI_key ni k : In k (keysI ni) -> bytes_ok k /\ length k = 4%nat.
Proof. intros H. unfold keysI in H. apply in_map_iff in H. destruct H as (i & <- & _). apply int_key_ok. Qed.
Lemma named_perfect e seed k : length k = 4%nat -> named e "perfecthash" seed k = le_int k.
Proof.
  intros H. change (match needs 4 k (le_int (firstn 4 k)) with Some h => h | None => 0 end = le_int k). unfold needs. rewrite H. change (Nat.ltb 4 4) with false. cbv iota.
  now rewrite firstn_all2 by lia.
Qed.
Lemma named_gomap32 e seed k : k <> [] -> named e "gomap32" seed k = GomapSpec.gomap32 k (low32 seed).
Proof. intros H. unfold named, reference. cbn. unfold needs. destruct k; [contradiction|]. reflexivity. Qed.
Lemma named_gomap64 e seed k : k <> [] -> named e "gomap64" seed k = GomapSpec.gomap64 k seed.
Proof. intros H. unfold named, reference. cbn. unfold needs. destruct k; [contradiction|]. reflexivity. Qed.
Lemma named_murmur e seed k : named e "murmur332" seed k = murmur3_x86_32 k.
Proof. reflexivity. Qed.
Lemma long_enough (k : list N) n : length k = S n -> k <> [].
Proof. now destruct k. Qed.

Lemma gomap32_inj seed k k' : bytes_ok k -> bytes_ok k' -> length k = length k' -> (1 <= length k <= 4)%nat ->
  GomapSpec.gomap32 k (low32 seed) = GomapSpec.gomap32 k' (low32 seed) -> k = k'.
Proof.
  intros B B' L L4 E. apply (GomapProps.c41_hash32_short_keys k k' (low32 seed)); auto; [apply N.mod_lt; discriminate|].
  rewrite !GomapProps.c41_hash32_value; auto; [now rewrite E|destruct k'; cbn [length] in *; [lia|discriminate]|destruct k; cbn [length] in *; [lia|discriminate]].
Qed.
Lemma gomap64_inj seed k k' : seed < 2 ^ 64 -> bytes_ok k -> bytes_ok k' -> length k = length k' -> (1 <= length k <= 8)%nat ->
  GomapSpec.gomap64 k seed = GomapSpec.gomap64 k' seed -> k = k'.
Proof.
  intros S B B' L L4 E. apply (GomapProps.c41_hash64_short_keys k k' seed); auto.
  rewrite !GomapProps.c41_hash64_value; auto; [now rewrite E|destruct k'; cbn [length] in *; [lia|discriminate]|destruct k; cbn [length] in *; [lia|discriminate]].
Qed.
Lemma murmur_even4 : even 4 32 (fun b => Some (murmur3_x86_32 b)).
Proof.
  destruct (c101_murmur [] [] ltac:(constructor) ltac:(constructor)) as [M _]. specialize (M eq_refl).
  refine (even_ext _ _ _ _ _ M). intros b _ Hb. cbn [app]. rewrite app_nil_r. now rewrite (proj1 (c52_reference b Hb)).
Qed.
Lemma murmur_inj4 k k' : bytes_ok k -> bytes_ok k' -> length k = 4%nat -> length k' = 4%nat -> murmur3_x86_32 k = murmur3_x86_32 k' -> k = k'.
Proof.
  intros B B' L L' E. destruct (list_eq_dec N.eq_dec k k') as [->|Ne]; [reflexivity|exfalso].
  destruct (c53_no_single_block_collision k k' 0 B B') as [C _]. apply C.
  - pose proof (one_block 4 [] [] k k' ltac:(lia) eq_refl L L' Ne) as D. cbn [app length] in D. rewrite !app_nil_r in D. exact D.
  - now rewrite (proj1 (c52_reference k B)), (proj1 (c52_reference k' B')).
Qed.
Definition clean4 : list string := ["perfecthash"; "gomap32"; "gomap64"; "murmur332"]%string.
Definition clean3 : list string := ["gomap32"; "gomap64"; "murmur332"]%string.
Lemma clean4_inj e name seed k k' : In name clean4 -> seed < 2 ^ 64 -> bytes_ok k -> bytes_ok k' -> length k = 4%nat -> length k' = 4%nat ->
  named e name seed k = named e name seed k' -> k = k'.
Proof.
  intros I S B B' L L' E. pose proof (long_enough k 3 L) as N1. pose proof (long_enough k' 3 L') as N2.
  destruct I as [<-|[<-|[<-|[<-|[]]]]].
  - rewrite !named_perfect in E by assumption. apply le_int_inj; auto; congruence.
  - rewrite !named_gomap32 in E by assumption. apply gomap32_inj in E; auto; lia.
  - rewrite !named_gomap64 in E by assumption. apply gomap64_inj in E; auto; lia.
  - rewrite !named_murmur in E. now apply murmur_inj4.
Qed.
Lemma clean3_inj e name seed k k' : In name clean3 -> seed < 2 ^ 64 -> bytes_ok k -> bytes_ok k' -> length k = 3%nat -> length k' = 3%nat ->
  named e name seed k = named e name seed k' -> k = k'.
Proof.
  intros I S B B' L L' E. pose proof (long_enough k 2 L) as N1. pose proof (long_enough k' 2 L') as N2.
  destruct I as [<-|[<-|[<-|[]]]].
  - rewrite !named_gomap32 in E by assumption. apply gomap32_inj in E; auto; lia.
  - rewrite !named_gomap64 in E by assumption. apply gomap64_inj in E; auto; lia.
  - rewrite !named_murmur in E. apply mm_small_inj in E; auto; lia.
Qed.

(** Integers 0 .. ni-1: no two of them have equal hashes, so Dups is 0, for any table and any
    seed.  All 3-byte keys: Dups and Dups2 are 0. *)
Theorem c109_integers e np cf name seed n c lines n' t : In name clean4 -> seed < 2 ^ 64 -> (cf_ni cf <= 2 ^ 32)%Z ->
  let t0 := new_table np (if cf_dru cf then - n else n)%Z (cf_extra cf) (cf_oa cf) (cf_prime cf) in
  1 <= size t0 -> fits 64 (size t0) ->
  run_test np cf (named e name seed) n c lines TI = (n', Ret t) ->
  inserts (st t) = N.of_nat (Z.to_nat (cf_ni cf)) /\ dups (st t) = 0.
Proof.
  intros I S Hn t0 H1 H2 R. unfold run_test in R. injection R as _ R. fold t0 in R.
  destruct (c73_integers (cf_ni cf)) as (L & _ & ND). split.
  - destruct (cf_oa cf) eqn:O.
    + rewrite (proj1 (c04_stats_oa _ _ _ _ _ _ _ H1 H2 R)), L. reflexivity.
    + rewrite (proj1 (c04_stats_chained _ _ _ _ _ _ _ H1 H2 R)), L. reflexivity.
  - rewrite (c05_dups _ _ _ _ _ _ _ _ H1 H2 R). apply pairs_zero; [now apply ND|].
    intros a b Ha Hb E. apply keysI_key in Ha. apply keysI_key in Hb. now apply (clean4_inj e name seed a b).
Qed.
Print Assumptions c109_integers.
Theorem c109_three_bytes e np cf name seed n c lines : In name clean3 -> seed < 2 ^ 64 -> next_ok np -> (0 <= cf_extra cf <= 30)%Z ->
  dups2 (named e name seed) (triples 256) = 0%nat /\
  exists t, run_test np cf (named e name seed) n c lines TL = (n, Ret t) /\ inserts (st t) = 2 ^ 24 /\ dups (st t) = 0.
Proof.
  intros I S Hnp He. destruct c73_three_bytes as (ND & Len & M).
  assert (J : forall a b, In a (triples 256) -> In b (triples 256) -> named e name seed a = named e name seed b -> a = b).
  { intros a b Ha Hb. apply M in Ha. apply M in Hb. intros E. apply (clean3_inj e name seed a b); tauto. }
  split; [apply c73_dups2_zero; intros a b La Ba Lb Bb; apply J; apply M; auto|].
  destruct (c75_generated np cf (named e name seed) n c lines Hnp He) as (_ & _ & _ & t & R & In_ & _).
  exists t. split; [exact R|]. split; [rewrite In_; exact Len|].
  unfold run_test in R. injection R as R.
  destruct (new_size' np (256 * 256 * 256) (cf_extra cf) (cf_oa cf) (cf_prime cf) Hnp ltac:(lia) He) as (A & _ & B).
  rewrite (c05_dups _ _ _ _ _ _ _ _ A B R). now apply pairs_zero.
Qed.
Print Assumptions c109_three_bytes.

(** ** The identity *)
Lemma perfect_int e seed i : (N.of_nat i < 2 ^ 32) -> named e "perfecthash" seed (int_key i) = N.of_nat i.
Proof.
  intros H. rewrite named_perfect by reflexivity. rewrite int_key_le4. unfold le4. cbn [le_int].
  pose proof (le4_sum (N.of_nat i)) as L. rewrite (N.mod_small (N.of_nat i) 4294967296) in L by exact H. unfold le_int. cbn [fold_right]. lia.
Qed.
Lemma home_mod prime m h : 1 <= m -> prime = true \/ (exists g, m = 2 ^ g) -> home prime m h = h mod m.
Proof.
  intros H [->|(g & ->)]; [reflexivity|]. unfold home. destruct prime; [reflexivity|].
  rewrite <- N.pred_sub, <- N.ones_equiv. apply N.land_ones.
Qed.
Lemma filter_map {A B} (f : A -> B) (P : B -> bool) l : filter P (map f l) = map f (filter (fun x => P (f x)) l).
Proof. induction l as [|x l IH]; [reflexivity|]. cbn [map filter]. rewrite IH. now destruct (P (f x)). Qed.
Lemma int_lt ni i : (ni <= 2 ^ 32)%Z -> In i (seq 0 (Z.to_nat ni)) -> N.of_nat i < 2 ^ 32.
Proof. intros H I. apply in_seq in I. change (2 ^ 32) with 4294967296. change (2 ^ 32)%Z with 4294967296%Z in H. lia. Qed.
Lemma residues_seq M s j : j < s -> N.of_nat (length (filter (fun i => N.of_nat i mod s =? j) (seq 0 M))) = (N.of_nat M + s - 1 - j) / s.
Proof.
  intros H. rewrite <- residues by exact H. unfold range. rewrite Nat2N.id, filter_map, map_length. reflexivity.
Qed.

(** perfecthash on the integers: with as many buckets as keys, every key has a bucket of its
    own, number i bucket i; nothing collides, in either mode. *)
Theorem c109_perfect e np cf seed n c lines :
  let t0 := new_table np (if cf_dru cf then - n else n)%Z (cf_extra cf) (cf_oa cf) (cf_prime cf) in
  let ni := cf_ni cf in
  (0 <= ni <= 2 ^ 32)%Z -> 1 <= size t0 -> fits 64 (size t0) -> cf_prime cf = true \/ (exists g, size t0 = 2 ^ g) -> Z.to_N ni <= size t0 ->
  exists t, snd (run_test np cf (named e "perfecthash" seed) n c lines TI) = Ret t /\ size t = size t0 /\
    st t = mkStats (Z.to_N ni) 0 (Z.to_N ni) (Z.to_N ni) 0 0 0 /\
    (forall i, (i < Z.to_nat ni)%nat -> nth_error (buckets t) i = Some [int_key i]) /\
    (forall j, (Z.to_nat ni <= j < N.to_nat (size t0))%nat -> nth_error (buckets t) j = Some []).
Proof.
  intros t0 ni Hn H1 H2 Hp Hm. cbn [run_test snd]. fold t0. fold ni.
  assert (Hk : forall i, (i < Z.to_nat ni)%nat -> home (cf_prime cf) (size t0) (named e "perfecthash" seed (int_key i)) = N.of_nat i).
  { intros i Hi. assert (Li : N.of_nat i < 2 ^ 32) by (apply (int_lt ni); [lia|apply in_seq; lia]).
    rewrite perfect_int by exact Li. rewrite home_mod by assumption. apply N.mod_small. lia. }
  assert (ND : NoDup (map (fun k => home (cf_prime cf) (size t0) (named e "perfecthash" seed k)) (keysI ni))).
  { unfold keysI. rewrite map_map. rewrite (map_ext_in _ N.of_nat); [|intros i Hi; apply in_seq in Hi; apply Hk; lia].
    apply HtProofs.NoDup_map_in; [|apply seq_NoDup]. intros x y _ _ E. lia. }
  destruct (alone_new _ np _ (cf_extra cf) (cf_oa cf) (cf_prime cf) (keysI ni) H1 H2 ND) as (t & E & A & Z & P). fold t0 in E, Z.
  assert (Lk : N.of_nat (length (keysI ni)) = Z.to_N ni) by (rewrite (proj1 (c73_integers ni)); lia).
  exists t. split; [exact E|]. split; [exact Z|]. split; [rewrite (a_st _ _ _ A), Lk; reflexivity|]. split.
  - intros i Hi. pose proof (a_key _ _ _ A (int_key i)) as K. rewrite P, Z, Hk in K by exact Hi. rewrite Nat2N.id in K. apply K.
    unfold keysI. apply in_map, in_seq. lia.
  - intros j Hj. pose proof (a_shape _ _ _ A) as (_ & _ & S3 & _). rewrite Z in S3.
    destruct (nth_error (buckets t) j) as [b|] eqn:Eb; [|apply nth_error_None in Eb; lia].
    destruct (a_rest _ _ _ A j b Eb) as [->|(k & Ik & Ej)]; [reflexivity|]. exfalso.
    unfold keysI in Ik. apply in_map_iff in Ik. destruct Ik as (i & <- & Hi). apply in_seq in Hi. rewrite P, Z, Hk in Ej by lia. lia.
Qed.
Print Assumptions c109_perfect.
(** With fewer buckets, chained: bucket j holds the integers congruent to j, in order, its exact
    share of them. *)
Theorem c109_crowded e np cf seed n c lines :
  let t0 := new_table np (if cf_dru cf then - n else n)%Z (cf_extra cf) (cf_oa cf) (cf_prime cf) in
  let ni := cf_ni cf in let m := size t0 in
  (0 <= ni <= 2 ^ 32)%Z -> 1 <= m -> fits 64 m -> cf_oa cf = false -> cf_prime cf = true \/ (exists g, m = 2 ^ g) ->
  exists t, snd (run_test np cf (named e "perfecthash" seed) n c lines TI) = Ret t /\
    forall j, j < m -> exists b, nth_error (buckets t) (N.to_nat j) = Some b /\
      b = map int_key (filter (fun i => N.of_nat i mod m =? j) (seq 0 (Z.to_nat ni))) /\
      N.of_nat (length b) = (Z.to_N ni + m - 1 - j) / m.
Proof.
  intros t0 ni m Hn H1 H2 Ho Hp. cbn [run_test snd]. fold t0. fold ni. unfold m, t0 in *. clear m t0. rewrite Ho in *.
  set (sz := (if cf_dru cf then - n else n)%Z) in *.
  destruct (c01_chained_contents np sz (cf_extra cf) (cf_prime cf) (named e "perfecthash" seed) (keysI ni) H1 H2) as (t & E & S & _ & C).
  set (m := size (new_table np sz (cf_extra cf) false (cf_prime cf))) in *.
  exists t. split; [exact E|]. intros j Hj. eexists. split; [exact (C j Hj)|].
  assert (F : filter (fun k => home (cf_prime cf) m (named e "perfecthash" seed k) =? j) (keysI ni) =
              map int_key (filter (fun i => N.of_nat i mod m =? j) (seq 0 (Z.to_nat ni)))).
  { unfold keysI. rewrite filter_map. f_equal. apply filter_ext_in. intros i Hi.
    rewrite perfect_int by (apply (int_lt ni); [lia|exact Hi]). now rewrite home_mod. }
  rewrite F. split; [reflexivity|]. rewrite map_length, residues_seq by exact Hj. f_equal. lia.
Qed.
Print Assumptions c109_crowded.

(** ** The mod test *)
Theorem c109_mod_perfect e seed ni n j : (0 <= ni <= 2 ^ 32)%Z -> (j < n)%nat ->
  N.of_nat (nth j (histogram (named e "perfecthash" seed) n (keysI ni)) 0%nat) = (Z.to_N ni + N.of_nat n - 1 - N.of_nat j) / N.of_nat n.
Proof.
  intros Hn Hj. destruct (c77_histogram (named e "perfecthash" seed) n (keysI ni)) as (_ & H & _); [lia|]. rewrite (H j Hj).
  unfold keysI. rewrite filter_map, map_length.
  rewrite (filter_ext_in _ (fun i => N.of_nat i mod N.of_nat n =? N.of_nat j)).
  - rewrite residues_seq by lia. f_equal. lia.
  - intros i Hi. now rewrite perfect_int by (apply (int_lt ni); [lia|exact Hi]).
Qed.
Print Assumptions c109_mod_perfect.

(** All 2^32 integers. *)
Definition whole : list string := ["perfecthash"; "gomap32"; "murmur332"]%string.
Lemma le_int4 b : bytes_ok b -> length b = 4%nat -> int_key (N.to_nat (le_int b)) = b /\ le_int b < 2 ^ 32.
Proof.
  intros B L. pose proof (le_int_fits b B) as F. rewrite L in F. change (8 * N.of_nat 4) with 32 in F. split; [|exact F].
  apply le_int_inj; [now rewrite L|apply int_key_ok|exact B|].
  rewrite <- (named_perfect (mkExt (fun _ _ => 0) (fun _ _ => 0) (fun _ => 0) (fun _ => []) (fun _ => []) (fun _ => []) (fun _ => [])) 0) by reflexivity.
  rewrite perfect_int by (rewrite N2Nat.id; exact F). apply N2Nat.id.
Qed.
Lemma in_keysI i ni : (Z.of_nat i < ni)%Z -> In (int_key i) (keysI ni).
Proof. intros H. unfold keysI. apply in_map, in_seq. lia. Qed.
Lemma all_integers : Permutation (keysI (2 ^ 32)) (all_keys 4).
Proof.
  apply NoDup_Permutation; [apply (proj2 (proj2 (c73_integers (2 ^ 32)))); apply Z.le_refl|apply nodup_all_keys|].
  intros k. rewrite in_all_keys. split.
  - intros H. apply keysI_key in H. tauto.
  - intros [L B]. destruct (le_int4 k B L) as [E F]. rewrite <- E. apply in_keysI.
    change (2 ^ 32) with 4294967296 in F. change (2 ^ 32)%Z with 4294967296%Z. lia.
Qed.
Lemma whole_even e name seed : In name whole -> seed < 2 ^ 64 -> even 4 32 (fun b => Some (named e name seed b)).
Proof.
  intros I S. destruct I as [<-|[<-|[<-|[]]]].
  - apply (even_inj 4).
    + intros b L B. exists (le_int b). rewrite named_perfect by exact L. split; [|reflexivity]. apply (le_int4 b B L).
    + intros b b' L L' B B' E. injection E as E. rewrite !named_perfect in E by assumption. apply le_int_inj; auto; congruence.
  - refine (even_ext _ _ _ _ _ (proj1 (c101_gomap seed S))). intros b L B. rewrite GomapProps.c41_hash32_value; [|exact B|exact (long_enough b 3 L)].
    cbn [got]. now rewrite named_gomap32 by exact (long_enough b 3 L).
  - exact murmur_even4.
Qed.
Lemma perm_filter {A} (P : A -> bool) l l' : Permutation l l' -> Permutation (filter P l) (filter P l').
Proof.
  intros H. induction H as [|x l l' H IH|x y l|l l' l'' H1 IH1 H2 IH2]; cbn [filter]; [constructor| | |].
  - destruct (P x); [now constructor|exact IH].
  - destruct (P x), (P y); try apply Permutation_refl. constructor.
  - now apply (Permutation_trans IH1).
Qed.
Lemma whole_share e name seed (n j : N) (Q : N -> bool) : In name whole -> seed < 2 ^ 64 -> j < n -> (forall x, x < 2 ^ 32 -> Q x = (x mod n =? j)) ->
  N.of_nat (length (filter (fun k => Q (named e name seed k)) (keysI (2 ^ 32)))) = (2 ^ 32 + n - 1 - j) / n.
Proof.
  intros I S Hj HQ. rewrite (Permutation_length (perm_filter (fun k => Q (named e name seed k)) _ _ all_integers)).
  pose proof (number_values 4 32 (fun b => Some (named e name seed b)) Q (whole_even e name seed I S)) as V.
  change (256 ^ N.of_nat 4) with (2 ^ 32) in V. apply N.mul_cancel_r in V; [|discriminate].
  change (number 4 (setb (fun b => Some (named e name seed b)) Q)) with (N.of_nat (length (filter (fun k => Q (named e name seed k)) (all_keys 4)))) in V.
  rewrite V. rewrite <- residues by exact Hj. f_equal. f_equal. apply filter_ext_in. intros x Hx. apply HQ. exact (proj1 (in_range _ x) Hx).
Qed.
(** The mod test over all 2^32 integers: every slot has its exact share. *)
Theorem c109_mod e name seed n j : In name whole -> seed < 2 ^ 64 -> (j < n)%nat ->
  N.of_nat (nth j (histogram (named e name seed) n (keysI (2 ^ 32))) 0%nat) = (2 ^ 32 + N.of_nat n - 1 - N.of_nat j) / N.of_nat n.
Proof.
  intros I S Hj. destruct (c77_histogram (named e name seed) n (keysI (2 ^ 32))) as (_ & H & _); [lia|]. rewrite (H j Hj).
  apply (whole_share e name seed (N.of_nat n) (N.of_nat j) (fun x => x mod N.of_nat n =? N.of_nat j)); auto. lia.
Qed.
Print Assumptions c109_mod.
(** The integers test over all 2^32 integers, chained: every bucket has its exact share. *)
Theorem c109_buckets e np cf name seed n c lines :
  let t0 := new_table np (if cf_dru cf then - n else n)%Z (cf_extra cf) (cf_oa cf) (cf_prime cf) in
  let m := size t0 in
  In name whole -> seed < 2 ^ 64 -> cf_ni cf = (2 ^ 32)%Z -> 1 <= m -> fits 64 m -> cf_oa cf = false -> cf_prime cf = true \/ (exists g, m = 2 ^ g) ->
  exists t, snd (run_test np cf (named e name seed) n c lines TI) = Ret t /\
    forall j, j < m -> exists b, nth_error (buckets t) (N.to_nat j) = Some b /\ N.of_nat (length b) = (2 ^ 32 + m - 1 - j) / m.
Proof.
  intros t0 m I Hs Hn H1 H2 Ho Hp. cbn [run_test snd]. rewrite Hn. unfold m, t0 in *. clear m t0. rewrite Ho in *.
  set (sz := (if cf_dru cf then - n else n)%Z) in *.
  destruct (c01_chained_contents np sz (cf_extra cf) (cf_prime cf) (named e name seed) (keysI (2 ^ 32)) H1 H2) as (t & E & S & _ & C).
  set (m := size (new_table np sz (cf_extra cf) false (cf_prime cf))) in *.
  exists t. split; [exact E|]. intros j Hj. eexists. split; [exact (C j Hj)|].
  apply (whole_share e name seed m j (fun x => home (cf_prime cf) m x =? j)); auto. intros x _. now rewrite home_mod.
Qed.
Print Assumptions c109_buckets.

(** ** Names with collisions *)
Lemma pairs_distinct hf ks : N.of_nat (length ks) <= equal_hash_pairs hf ks + N.of_nat (length (nodup N.eq_dec (map hf ks))).
Proof.
  induction ks as [|k ks IH]; [cbn; lia|]. cbn [length equal_hash_pairs map nodup].
  destruct (in_dec N.eq_dec (hf k) (map hf ks)) as [I|I].
  - apply in_map_iff in I. destruct I as (x & Ex & Hx).
    assert (F : In x (filter (fun k' => hf k' =? hf k) ks)) by (apply filter_In; split; [exact Hx|now apply N.eqb_eq]).
    destruct (filter (fun k' => hf k' =? hf k) ks); [destruct F|]. cbn [length]. lia.
  - cbn [length]. lia.
Qed.
(** MetroHash64-1 sees only the low 24 bits of an integer (C29): beyond 2^24 integers every
    further one adds at least one to Dups. *)
Lemma low24_0 x : (x mod 16777216) mod 256 = x mod 256.
Proof. zify. Z.to_euclidean_division_equations. lia. Qed.
Lemma low24_1 x : (x mod 16777216) / 256 mod 256 = x / 256 mod 256.
Proof. zify. Z.to_euclidean_division_equations. lia. Qed.
Lemma low24_2 x : (x mod 16777216) / 65536 mod 256 = x / 65536 mod 256.
Proof. zify. Z.to_euclidean_division_equations. lia. Qed.
Lemma metro_low24 e seed i : named e "MetroHash64-1" seed (int_key i) = named e "MetroHash64-1" seed (int_key (N.to_nat (N.of_nat i mod 2 ^ 24))).
Proof.
  change (MetroSpec.metro64_gen MetroSpec.p64_1 5 (int_key i) (low32 seed) = MetroSpec.metro64_gen MetroSpec.p64_1 5 (int_key (N.to_nat (N.of_nat i mod 2 ^ 24))) (low32 seed)).
  rewrite !int_key_le4, N2Nat.id. set (x := N.of_nat i). unfold le4.
  change (2 ^ 24) with 16777216. rewrite low24_0, low24_1, low24_2.
  pose proof (MetroProps.c29_last_byte_ignored [x mod 256; x / 256 mod 256; x / 65536 mod 256] (x / 16777216 mod 256) ((x mod 16777216) / 16777216 mod 256) (low32 seed) eq_refl) as L.
  cbn [app] in L. rewrite !MetroProofs.hash64_1_gen in L. exact (f_equal (fun r => match r with Ok v => v | _ => 0 end) L).
Qed.
Theorem c109_metro e np cf seed n c lines n' t :
  let t0 := new_table np (if cf_dru cf then - n else n)%Z (cf_extra cf) (cf_oa cf) (cf_prime cf) in
  1 <= size t0 -> fits 64 (size t0) ->
  run_test np cf (named e "MetroHash64-1" seed) n c lines TI = (n', Ret t) ->
  (cf_ni cf - 2 ^ 24 <= Z.of_N (dups (st t)))%Z.
Proof.
  intros t0 H1 H2 R. unfold run_test in R. injection R as _ R. fold t0 in R.
  rewrite (c05_dups _ _ _ _ _ _ _ _ H1 H2 R). set (hf := named e "MetroHash64-1" seed).
  pose proof (pairs_distinct hf (keysI (cf_ni cf))) as P. rewrite (proj1 (c73_integers (cf_ni cf))) in P.
  assert (D : N.of_nat (length (nodup N.eq_dec (map hf (keysI (cf_ni cf))))) <= 2 ^ 24).
  { set (vals := map (fun x => hf (int_key (N.to_nat x))) (range (2 ^ 24))).
    assert (Lv : N.of_nat (length vals) = 2 ^ 24) by (unfold vals; rewrite map_length; apply range_length).
    rewrite <- Lv. assert (X : (length (nodup N.eq_dec (map hf (keysI (cf_ni cf)))) <= length vals)%nat); [|lia].
    apply NoDup_incl_length; [apply NoDup_nodup|]. intros v Hv. apply nodup_In in Hv. apply in_map_iff in Hv. destruct Hv as (k & <- & Hk).
    unfold keysI in Hk. apply in_map_iff in Hk. destruct Hk as (i & <- & _). unfold hf. rewrite metro_low24. fold hf.
    unfold vals. apply (in_map (fun x => hf (int_key (N.to_nat x))) (range (2 ^ 24)) (N.of_nat i mod 2 ^ 24)). apply (proj2 (in_range (2 ^ 24) _)), N.mod_lt. discriminate. }
  change (2 ^ 24) with 16777216 in D. change (2 ^ 24)%Z with 16777216%Z. lia.
Qed.
Print Assumptions c109_metro.

(** ht.go:257 says that all 3-byte keys must have distinct hashes.  These names, with the default
    seed, have 3-byte keys with equal hashes: TestL reports them in Dups and Dups2.  The third and
    fourth column are integers with equal hashes: TestI has Dups > 0 beyond them. *)
Definition clashes : list (string * N * N * N * N) := [
  ("j332c", 45098, 94153, 109235, 134255); ("j332b", 18089, 24392, 29098, 56933); ("j232", 3785, 20724, 3784, 20723);
  ("j264l", 6177, 110372, 1471, 70483); ("j264h", 5119, 5123, 5118, 5122); ("j264xor", 48586, 72158, 89015, 111892);
  ("spooky32", 2476, 82193, 14226, 73360); ("sbox", 37360, 54633, 37360, 54633); ("CrapWow", 66714, 68098, 36822, 69475);
  ("FarmHash32", 41748, 90510, 23476, 40670)]%string.
Definition low3 (x : N) : key := [x mod 256; x / 256 mod 256; x / 65536 mod 256].
Lemma clash_at e name a b i j : In (name, a, b, i, j) clashes ->
  named e name 0 (low3 a) = named e name 0 (low3 b) /\ low3 a <> low3 b /\
  named e name 0 (int_key (N.to_nat i)) = named e name 0 (int_key (N.to_nat j)) /\ i < j < 2 ^ 32.
Proof.
  intros H. unfold clashes in H. cbn [In] in H.
  repeat (destruct H as [H|H]; [injection H as <- <- <- <- <-; rewrite !int_key_le4, !N2Nat.id; split; [vm_compute; reflexivity|split; [vm_compute; discriminate|split; [vm_compute; reflexivity|split; reflexivity]]]|]).
  destruct H.
Qed.
Theorem c109_three_bytes_refuted e np cf name a b i j n c lines : In (name, a, b, i, j) clashes -> next_ok np -> (0 <= cf_extra cf <= 30)%Z ->
  (0 < dups2 (named e name 0) (triples 256))%nat /\
  exists t, run_test np cf (named e name 0) n c lines TL = (n, Ret t) /\ 0 < dups (st t).
Proof.
  intros I Hnp He. destruct (clash_at e name a b i j I) as (E & Ne & _). destruct c73_three_bytes as (_ & _ & M).
  assert (L : forall x, In (low3 x) (triples 256)) by (intros x; apply M; split; [reflexivity|]; repeat constructor; apply N.mod_lt; discriminate).
  split.
  - destruct (dups2 (named e name 0) (triples 256)) as [|d] eqn:D; [|lia]. exfalso. apply Ne.
    apply (proj1 (c73_dups2_zero (named e name 0)) D); try exact E; try reflexivity; apply M; apply L.
  - destruct (c75_generated np cf (named e name 0) n c lines Hnp He) as (_ & _ & _ & t & R & _).
    exists t. split; [exact R|]. unfold run_test in R. injection R as R.
    destruct (new_size' np (256 * 256 * 256) (cf_extra cf) (cf_oa cf) (cf_prime cf) Hnp ltac:(lia) He) as (A & _ & B).
    rewrite (c05_dups _ _ _ _ _ _ _ _ A B R). apply N.lt_le_trans with 1; [reflexivity|]. now apply (pairs_pos _ _ (low3 a) (low3 b)).
Qed.
Print Assumptions c109_three_bytes_refuted.
Theorem c109_integers_clash e np cf name a b i j n c lines n' t : In (name, a, b, i, j) clashes ->
  let t0 := new_table np (if cf_dru cf then - n else n)%Z (cf_extra cf) (cf_oa cf) (cf_prime cf) in
  1 <= size t0 -> fits 64 (size t0) -> (Z.of_N j < cf_ni cf)%Z ->
  run_test np cf (named e name 0) n c lines TI = (n', Ret t) -> 0 < dups (st t).
Proof.
  intros I t0 H1 H2 Hj R. destruct (clash_at e name a b i j I) as (_ & _ & E & L1 & L2).
  unfold run_test in R. injection R as _ R. fold t0 in R. rewrite (c05_dups _ _ _ _ _ _ _ _ H1 H2 R).
  apply N.lt_le_trans with 1; [reflexivity|]. apply (pairs_pos _ _ (int_key (N.to_nat i)) (int_key (N.to_nat j))); [apply in_keysI; lia|apply in_keysI; lia| |exact E].
  intros K. rewrite !int_key_le4, !N2Nat.id in K. apply le4_inj in K. change 4294967296 with (2 ^ 32) in K. rewrite !N.mod_small in K by lia. lia.
Qed.
Print Assumptions c109_integers_clash.

(** ** Concrete cases *)
Definition flags (extra : Z) (oa : bool) (ni : Z) : config := mkConfig extra false oa ni false.
(** Five integers in eight buckets, in memory that is used again for each of them; names that
    need more bytes than the keys have. *)
Example c109_memory_nonvacuous : ext_ok toy /\ world_ok (init []) /\ counter "murmur332" = false /\
  (forall k, In k (own_keys (flags 0 true 5) TI) -> reference toy "murmur332" k 3 <> None) /\
  (exists w l, mem_test toy (fun _ n => n) ex_np (flags 0 true 5) "murmur332" 3 (init []) 8 TI = Ok (w, l) /\
     buckets (table_in (mem w) l) = [[[4; 0; 0; 0]]; [[3; 0; 0; 0]]; [[1; 0; 0; 0]]; []; []; []; [[0; 0; 0; 0]]; [[2; 0; 0; 0]]]) /\
  (exists k, In k (own_keys (flags 0 true 5) TL) /\ reference toy "perfecthash" k 3 = None) /\
  mem_test toy (fun _ n => n) ex_np (flags 0 true 5) "perfecthash" 3 (init []) 8 TL = Panics /\
  mem_test toy (fun _ n => n) ex_np (flags 0 true 5) "aeshash64I" 3 (init []) 8 TI = Panics.
Proof.
  assert (W : world_ok (init [])) by (apply init_ok; constructor).
  assert (X : exists k, In k (own_keys (flags 0 true 5) TL) /\ reference toy "perfecthash" k 3 = None).
  { exists [1; 2; 3]. split; [|reflexivity]. apply c73_three_bytes. split; [reflexivity|repeat constructor]. }
  split; [apply toy_ok|]. split; [exact W|]. split; [reflexivity|]. split; [intros k _; discriminate|].
  split; [eexists; eexists; split; vm_compute; reflexivity|]. split; [exact X|]. split; [|vm_compute; reflexivity].
  apply (c109_memory toy (fun _ n => n) ex_np (flags 0 true 5) "perfecthash" 3 (init []) 8 None 0 TL); auto; [apply toy_ok|reflexivity|right; right; left; reflexivity].
Qed.
Example c109_integers_nonvacuous : In "murmur332"%string clean4 /\ exists t, run_test ex_np (flags 0 true 5) (named toy "murmur332" 3) 8 None 0 TI = (8%Z, Ret t) /\
  size t = 8 /\ st t = mkStats 5 0 6 5 0 0 0.
Proof. split; [right; right; right; left; reflexivity|]. eexists. split; vm_compute; auto. Qed.
Example c109_three_bytes_nonvacuous : next_ok (fun x => x) /\ In "gomap32"%string clean3 /\ In ("sbox"%string, 37360, 54633, 37360, 54633) clashes /\
  named toy "sbox" 0 [240; 145; 0] = named toy "sbox" 0 [105; 213; 0] /\ named toy "gomap32" 0 [240; 145; 0] <> named toy "gomap32" 0 [105; 213; 0] /\
  named toy "j264h" 0 (int_key 5118) = named toy "j264h" 0 (int_key 5122).
Proof.
  split; [intros x Hx; split; [lia|]; apply N.lt_trans with (2 ^ 63); [exact Hx|reflexivity]|]. split; [left; reflexivity|].
  split; [unfold clashes; cbn [In]; tauto|]. split; [vm_compute; reflexivity|]. split; [vm_compute; discriminate|vm_compute; reflexivity].
Qed.
(** perfecthash: five integers in eight buckets, twenty in four; the counts of the mod test. *)
Example c109_perfect_nonvacuous :
  (exists t, snd (run_test ex_np (flags 0 true 5) (named toy "perfecthash" 9) 8 None 0 TI) = Ret t /\
     buckets t = [[[0; 0; 0; 0]]; [[1; 0; 0; 0]]; [[2; 0; 0; 0]]; [[3; 0; 0; 0]]; [[4; 0; 0; 0]]; []; []; []] /\ st t = mkStats 5 0 5 5 0 0 0) /\
  (exists t, snd (run_test ex_np (flags 0 false 18) (named toy "perfecthash" 9) 4 None 0 TI) = Ret t /\
     map (@length key) (buckets t) = [5; 5; 4; 4]%nat /\ map (fun j => (18 + 4 - 1 - j) / 4) [0; 1; 2; 3] = [5; 5; 4; 4]) /\
  histogram (named toy "perfecthash" 9) 7 (keysI 300) = [43; 43; 43; 43; 43; 43; 42]%nat.
Proof. split; [eexists; split; vm_compute; auto|]. split; [eexists; split; vm_compute; auto|]. vm_compute. reflexivity. Qed.
(** Over all 2^32 integers, with three slots: the shares; a chained table of three buckets. *)
Example c109_mod_nonvacuous : In "murmur332"%string whole /\
  map (fun j => N.of_nat (nth j (histogram (named toy "murmur332" 9) 3 (keysI (2 ^ 32))) 0%nat)) [0; 1; 2]%nat = [1431655766; 1431655765; 1431655765] /\
  size (new_table (fun x => 3) 2 0 false true) = 3.
Proof.
  assert (I : In "murmur332"%string whole) by (right; right; left; reflexivity). split; [exact I|]. split; [|reflexivity].
  cbn [map]. rewrite !(c109_mod toy "murmur332" 9 3) by (auto; reflexivity). reflexivity.
Qed.
Example c109_metro_nonvacuous : named toy "MetroHash64-1" 0 (int_key 5) = named toy "MetroHash64-1" 0 [5; 0; 0; 1] /\ [5; 0; 0; 1] = le4 (5 + 2 ^ 24) /\
  exists t, run_test ex_np (flags 0 false 5) (named toy "MetroHash64-1" 0) 8 None 0 TI = (8%Z, Ret t) /\ dups (st t) = 0.
Proof. split; [vm_compute; reflexivity|]. split; [vm_compute; reflexivity|]. eexists. split; vm_compute; auto. Qed.
