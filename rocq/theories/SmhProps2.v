(** Theorems about /repo/smhasher/smhasher.go: what the tests report (C79) and
    the avalanche grid (C80). *)
From Coq Require Import NArith ZArith List Arith String Bool Lia.
From Verif Require Import Words WordLemmas ListLemmas HashTableModel HtModel HtSpec HtProofs HtMore HtKeys SmhModel SmhSpec SmhProofs SmhBits SmhKeys SmhKeys2 SmhFlip SmhProps.
Import ListNotations.
Open Scope N_scope.
Open Scope list_scope.

Lemma pow27 : N.of_nat (2 ^ 27) = 134217728.
Proof. rewrite Nat2N.inj_pow. reflexivity. Qed.
Lemma le27 n : N.of_nat n <= 134217728 -> (n <= 2 ^ 27)%nat.
Proof. pose proof pow27. lia. Qed.
Lemma complaints_pos l : (0 < complaints l)%nat <-> exists b, In b l /\ b = true.
Proof.
  unfold complaints. induction l as [|[|] l IH]; cbn [filter List.length].
  - split; [lia|]. intros (b & [] & _).
  - split; [|lia]. intros _. exists true. split; [now left|reflexivity].
  - rewrite IH. split; intros (b & H & E); exists b; (split; [|exact E]); [now right|]. destruct H as [<-|H]; [discriminate|exact H].
Qed.
Lemma existsb_id l : existsb (fun b : bool => b) l = true <-> exists b, In b l /\ b = true.
Proof. apply existsb_exists. Qed.

(** ** C79: the verdict on a set of hashes *)
(** Up to 2^27 hashes, the check fails exactly when two of them are equal. *)
Theorem c79_check : forall hs, (List.length hs <= 2 ^ 27)%nat -> check (set_of hs) = true <-> ~ NoDup hs.
Proof. exact check_iff. Qed.
(** With more hashes a repeated value can pass. *)
Theorem c79_check_refuted : exists hs, ~ NoDup hs /\ check (set_of hs) = false.
Proof.
  assert (X : exists m, Z.of_nat m = (2 ^ 30)%Z) by (exists (N.to_nat (2 ^ 30)); rewrite N_nat_Z; reflexivity).
  destruct X as (m & Em). exists (0 :: map N.of_nat (seq 0 m)).
  assert (I : In 0 (map N.of_nat (seq 0 m))).
  { apply in_map_iff. exists 0%nat. split; [reflexivity|]. apply in_seq. lia. }
  assert (ND : NoDup (map N.of_nat (seq 0 m))).
  { apply NoDup_map_in; [|apply seq_NoDup]. intros x y _ _. apply Nat2N.inj. }
  split; [intros H; apply NoDup_cons_iff in H; tauto|].
  destruct (set_of_spec (0 :: map N.of_nat (seq 0 m))) as [E1 E2]. unfold check. rewrite E1, E2.
  assert (D : distinct (0 :: map N.of_nat (seq 0 m)) = m).
  { unfold distinct. cbn [nodup]. destruct (in_dec N.eq_dec 0 (map N.of_nat (seq 0 m))); [|contradiction].
    rewrite nodup_fixed_point by exact ND. now rewrite map_length, seq_length. }
  rewrite D. cbn [List.length]. rewrite map_length, seq_length.
  rewrite Nat2Z.inj_succ, Em. clear. vm_compute. reflexivity.
Qed.
Example c79_check_nonvacuous : check (set_of [5; 6; 5]) = true /\ check (set_of [5; 6; 7]) = false /\
  hs_n (set_of [5; 6; 5]) = 3%Z /\ hs_m (set_of [5; 6; 5]) = [5; 6].
Proof. repeat split. Qed.

(** Tests that return whether there is a collision. *)
Theorem c79_small : forall hf, TestSmhasherSmallKeys hf = true <->
  collide (fun k => hf k 0) (fun k => byte_string k /\ (1 <= List.length k <= 3)%nat).
Proof.
  intros hf. unfold TestSmhasherSmallKeys.
  assert (L : N.of_nat (List.length (small_keys 256 Short)) <= 134217728) by (rewrite small_length; discriminate).
  exact (verdict_iff hf _ _ (le27 _ L) small_enum).
Qed.
Theorem c79_two_nonzero : forall hf, TestSmhasherTwoNonzero hf = true <->
  collide (fun k => hf k 0) (fun k => (2 <= List.length k <= 16)%nat /\ byte_string k /\ (List.length (nonzero k) <= 2)%nat).
Proof. intros hf. exact (verdict_iff hf _ _ two_all_length two_all_enum). Qed.
Theorem c79_appended : forall hf, TestSmhasherAppendedZeros hf = true <->
  collide (fun k => hf k 0) (fun k => exists t, [104; 101; 108; 108; 111] ++ repeat 0 256 = k ++ t).
Proof.
  intros hf. unfold TestSmhasherAppendedZeros. change (str "hello") with [104; 101; 108; 108; 111].
  refine (verdict_iff hf _ _ _ (appended_enum _)). apply le27. unfold appended_keys. rewrite map_length, seq_length.
  rewrite app_length, repeat_length. cbn [List.length]. lia.
Qed.
Theorem c79_zeros : forall hf, TestSmhasherZeros hf = true <->
  collide (fun k => hf k 0) (fun k => exists m, (m <= N.to_nat 262144)%nat /\ k = repeat 0 m).
Proof.
  intros hf. unfold TestSmhasherZeros, Short. change (256 * 1024) with 262144. refine (verdict_iff hf _ _ _ (zeros_enum _)).
  apply le27. unfold zeros_keys. rewrite map_length, seq_length. lia.
Qed.
Theorem c79_seed : forall hf, TestSmhasherSeed hf = true <->
  collide (fun seed => hf [104; 101; 108; 108; 111] seed) (fun seed => seed < 100000).
Proof.
  intros hf. unfold TestSmhasherSeed. change (str "hello") with [104; 101; 108; 108; 111]. unfold StringHash.
  rewrite <- (map_map N.of_nat (fun s => hf [104; 101; 108; 108; 111] s)).
  rewrite check_iff by (rewrite !map_length, seq_length; apply le27; lia).
  apply NoDup_map_iff. split.
  - apply NoDup_map_in; [|apply seq_NoDup]. intros x y _ _. apply Nat2N.inj.
  - intros k. rewrite in_map_iff. split.
    + intros (i & <- & Hi). apply in_seq in Hi. lia.
    + intros H. exists (N.to_nat k). split; [apply N2Nat.id|]. apply in_seq. lia.
Qed.
Theorem c79_sparse : forall hf, fst (TestSmhasherSparse hf) = true <->
  exists n k, In (n, k) [(32, 6); (40, 6); (48, 5); (56, 5); (64, 5); (96, 4); (256, 3); (2048, 2)]%nat /\
    collide (fun y => hf y 0) (fun y => (8 * List.length y = n)%nat /\ byte_string y /\ (List.length (ones_from 0 y) <= k)%nat).
Proof.
  intros hf. unfold TestSmhasherSparse. cbn [fst]. rewrite existsb_id.
  assert (V : forall n k, In (n, k) sparse_pairs -> verdict hf (sparse_keys n k) = true <->
    collide (fun y => hf y 0) (fun y => (8 * List.length y = n)%nat /\ byte_string y /\ (List.length (ones_from 0 y) <= k)%nat)).
  { intros n k I. assert (E8 : (n = 8 * (n / 8))%nat).
    { unfold sparse_pairs in I. cbn [In] in I. repeat (destruct I as [I|I]; [injection I as <- <-; reflexivity|]). destruct I. }
    apply verdict_iff.
    - unfold sparse_keys. rewrite setbits_eq; [|apply zeros_bytes|].
      + cbn [fst]. apply le27. rewrite sparse_length, repeat_length, Nat.sub_0_r.
        pose proof sparse_counts as C. rewrite forallb_forall in C. specialize (C _ I). cbv beta iota in C. apply N.leb_le in C.
        change (2 ^ 27) with 134217728 in C. exact C.
      + intros j _. unfold bit. fold (zeros (n / 8)). rewrite nth_zeros. apply N.bits_0.
    - rewrite E8 at 1. destruct (c49_sparse_all (n / 8) k) as [A B]. split; [exact A|]. intros y. rewrite B. intuition lia. }
  split.
  - intros (b & I & E). apply in_map_iff in I. destruct I as ((n & k) & <- & I). exists n, k. split; [exact I|]. now apply V.
  - intros (n & k & I & C). exists (verdict hf (sparse_keys n k)). split; [|now apply V].
    apply in_map_iff. exists (n, k). auto.
Qed.
Theorem c79_cyclic : forall hf rb, (forall n i, List.length (rb n i) = (n - 4)%nat) ->
  fst (TestSmhasherCyclic hf rb) = true <->
  exists n, (4 <= n <= 12)%nat /\ exists i j, i < j < 1000000 /\
    let key c := cycled 8 ([c * 79 mod 97; c * 43 mod 137; c * 151 mod 197; c * 199 mod 251] ++ rb n (N.to_nat c)) in
    hf (key i) 0 = hf (key j) 0.
Proof.
  intros hf rb Hr. unfold TestSmhasherCyclic. cbn [fst]. rewrite existsb_id.
  assert (V : forall n, (4 <= n)%nat -> verdict hf (cyclic_keys n (rb n) (N.to_nat 1000000)) = true <->
    exists i j, i < j < 1000000 /\
    let key c := cycled 8 ([c * 79 mod 97; c * 43 mod 137; c * 151 mod 197; c * 199 mod 251] ++ rb n (N.to_nat c)) in
    hf (key i) 0 = hf (key j) 0).
  { intros n Hn.
    set (key := fun c => cycled 8 ([c * 79 mod 97; c * 43 mod 137; c * 151 mod 197; c * 199 mod 251] ++ rb n (N.to_nat c))).
    assert (M : cyclic_keys n (rb n) (N.to_nat 1000000) = map key (map N.of_nat (seq 0 (N.to_nat 1000000)))).
    { rewrite cyclic_eq by auto. rewrite map_map. apply map_ext. intros i. unfold key. rewrite Nat2N.id. reflexivity. }
    assert (ND : NoDup (cyclic_keys n (rb n) (N.to_nat 1000000))).
    { apply cyclic_nodup; auto. rewrite N2Nat.id. discriminate. }
    assert (Im : forall k, In k (cyclic_keys n (rb n) (N.to_nat 1000000)) <-> exists c, c < 1000000 /\ k = key c).
    { intros k. rewrite M, in_map_iff. split.
      - intros (c & <- & Hc). apply in_map_iff in Hc. destruct Hc as (i & <- & Hi). apply in_seq in Hi. exists (N.of_nat i). split; [lia|reflexivity].
      - intros (c & Hc & ->). exists c. split; [reflexivity|]. apply in_map_iff. exists (N.to_nat c). split; [apply N2Nat.id|]. apply in_seq. lia. }
    assert (Len : N.of_nat (List.length (cyclic_keys n (rb n) (N.to_nat 1000000))) <= 134217728) by (rewrite M, !map_length, seq_length; lia).
    rewrite (verdict_iff hf _ _ (le27 _ Len) (conj ND Im)).
    split.
    - intros (x & y & (i & Hi & ->) & (j & Hj & ->) & Nxy & E). destruct (N.lt_trichotomy i j) as [Q|[Q|Q]].
      + exists i, j. split; [lia|exact E].
      + subst j. contradiction.
      + exists j, i. split; [lia|]. symmetry. exact E.
    - intros (i & j & Hij & E). exists (key i), (key j). split; [exists i; split; [lia|reflexivity]|]. split; [exists j; split; [lia|reflexivity]|].
      split; [|exact E]. intros K.
      assert (Q : N.to_nat i = N.to_nat j).
      { apply head4_inj; [lia|lia|]. apply (f_equal (firstn 4)) in K. unfold key, cycled in K. cbn [repeat List.concat] in K.
        rewrite <- !app_assoc in K. rewrite !firstn_app_exact in K by reflexivity. unfold head4. rewrite !N2Nat.id. exact K. }
      lia. }
  split.
  - intros (b & I & E). apply in_map_iff in I. destruct I as (n & <- & I). apply in_seq in I. exists n. split; [lia|]. apply V; [lia|exact E].
  - intros (n & Hn & C). exists (verdict hf (cyclic_keys n (rb n) (N.to_nat 1000000))). split; [|apply V; [lia|exact C]].
    apply in_map_iff. exists n. split; [reflexivity|]. apply in_seq. lia.
Qed.

(** Tests that only print: the complaints say whether there is a collision, the
    returned value never does. *)
Theorem c79_permutation : forall hf, fst (TestSmhasherPermutation hf) = false /\
  ((0 < snd (TestSmhasherPermutation hf))%nat <->
   exists n s, In (n, s) [(8%nat, [0; 1; 2; 3; 4; 5; 6; 7]);
     (8%nat, [0; 536870912; 1073741824; 1610612736; 2147483648; 2684354560; 3221225472; 3758096384]);
     (20%nat, [0; 1]); (20%nat, [0; 2147483648]);
     (6%nat, [0; 1; 2; 3; 4; 5; 6; 7; 536870912; 1073741824; 1610612736; 2147483648; 2684354560; 3221225472; 3758096384])] /\
     collide (fun k => hf k 0) (fun k => exists vs, (List.length vs <= n)%nat /\ incl vs s /\ k = flat_map block vs)).
Proof.
  intros hf. split; [reflexivity|]. unfold TestSmhasherPermutation. cbn [snd]. rewrite complaints_pos.
  match goal with |- _ <-> exists n s, In (n, s) ?t /\ _ => change t with Permutations end.
  assert (T : forallb (fun '(n, s) => nodupb s && forallb (fun v => v <? 2 ^ 32) s && (perm_count n (N.of_nat (List.length s)) <=? 134217728)) Permutations = true)
    by (vm_compute; reflexivity).
  rewrite forallb_forall in T.
  assert (V : forall n s, In (n, s) Permutations -> verdict hf (permutation_keys s n) = true <->
    collide (fun k => hf k 0) (fun k => exists vs, (List.length vs <= n)%nat /\ incl vs s /\ k = flat_map block vs)).
  { intros n s I. specialize (T _ I). cbv beta iota in T. apply andb_true_iff in T. destruct T as [T T3]. apply andb_true_iff in T. destruct T as [T1 T2].
    apply verdict_iff.
    - apply le27. rewrite permutation_length. now apply N.leb_le.
    - apply permutation_enum; [now apply nodupb_ok|]. apply Forall_forall. intros v Hv. rewrite forallb_forall in T2. apply N.ltb_lt. now apply T2. }
  split.
  - intros (b & I & E). apply in_map_iff in I. destruct I as ((n & s) & <- & I). exists n, s. split; [exact I|]. now apply V.
  - intros (n & s & I & C). exists (verdict hf (permutation_keys s n)). split; [|now apply V]. apply in_map_iff. exists (n, s). auto.
Qed.
Theorem c79_text : forall hf, fst (TestSmhasherText hf) = false /\
  ((0 < snd (TestSmhasherText hf))%nat <->
   exists p q, In (p, q) [([70; 111; 111], [66; 97; 114]); ([70; 111; 111; 66; 97; 114], []); ([], [70; 111; 111; 66; 97; 114])] /\
     collide (fun k => hf k 0) (fun k => exists m, List.length m = 4%nat /\
       Forall (fun c => 65 <= c <= 84 \/ 97 <= c <= 116 \/ 48 <= c <= 57) m /\ k = p ++ m ++ q)).
Proof.
  intros hf. split; [reflexivity|]. unfold TestSmhasherText. cbn [snd]. rewrite complaints_pos.
  assert (V : forall p q, verdict hf (text_keys alphabet p q) = true <->
    collide (fun k => hf k 0) (fun k => exists m, List.length m = 4%nat /\
       Forall (fun c => 65 <= c <= 84 \/ 97 <= c <= 116 \/ 48 <= c <= 57) m /\ k = p ++ m ++ q)).
  { intros p q. apply verdict_iff; [apply le27; rewrite text_length; vm_compute; discriminate|].
    destruct (c78_text p q) as [A B]. split; [exact A|]. intros k. rewrite B. split; intros (m & L & I & E); exists m; (split; [exact L|]; split; [|exact E]).
    - apply Forall_forall. intros c Hc. apply c78_text_letters. now apply I.
    - intros c Hc. apply c78_text_letters. rewrite Forall_forall in I. now apply I. }
  change (str "Foo") with [70; 111; 111]. change (str "Bar") with [66; 97; 114]. change (str "FooBar") with [70; 111; 111; 66; 97; 114].
  split.
  - intros (b & I & E). destruct I as [<-|[<-|[<-|[]]]]; apply V in E; do 2 eexists; (split; [|exact E]); cbn [In]; auto.
  - intros (p & q & I & C). apply V in C. exists (verdict hf (text_keys alphabet p q)). split; [|exact C].
    cbn [In] in I. destruct I as [I|[I|[I|[]]]]; injection I as <- <-; [left|right; left|right; right; left]; reflexivity.
Qed.
Theorem c79_windowed : forall hf, fst (TestSmhasherWindowed hf) = false /\
  ((0 < snd (TestSmhasherWindowed hf))%nat <->
   exists n r, In n [32; 64; 1024]%nat /\ (r < n)%nat /\
     collide (fun k => hf k 0) (fun k => exists i, (i < 2 ^ 16)%nat /\ rotation n r i k)).
Proof.
  intros hf. split; [reflexivity|]. unfold TestSmhasherWindowed. cbn [snd]. rewrite complaints_pos.
  assert (E16 : N.to_nat 65536 = (2 ^ 16)%nat) by (apply Nat2N.inj; rewrite N2Nat.id, Nat2N.inj_pow; reflexivity).
  assert (V : forall k, key_ok k -> (16 <= bits k)%nat -> (exists b, In b (windowed hf k) /\ b = true) <->
    exists r, (r < bits k)%nat /\ collide (fun k => hf k 0) (fun y => exists i, (i < 2 ^ 16)%nat /\ rotation (bits k) r i y)).
  { intros k O Hb. unfold windowed. rewrite E16.
    assert (W : forall r, (r < bits k)%nat ->
      (match window_keys r (2 ^ 16) k with Some ks => check (set_of (map (key_hash hf) ks)) | None => false end) = true <->
      collide (fun k => hf k 0) (fun y => exists i, (i < 2 ^ 16)%nat /\ rotation (bits k) r i y)).
    { intros r Hr. destruct (window_keys_spec k r (2 ^ 16) O Hb Hr (le_n _)) as (ks & E & L & R & ND). rewrite E.
      rewrite (map_ext _ (fun k => hf (key_bytes k) 0) (key_hash_bytes hf)).
      rewrite <- (map_map key_bytes (fun y => hf y 0)).
      rewrite check_iff by (rewrite !map_length, L; apply Nat.pow_le_mono_r; lia).
      apply NoDup_map_iff. split; [exact ND|]. intros y. rewrite in_map_iff. split.
      - intros (z & <- & Iz). apply (In_nth _ _ (Int32Key 0)) in Iz. destruct Iz as (i & Hi & <-). rewrite L in Hi. exists i. auto.
      - intros (i & Hi & Rot). exists (nth i ks (Int32Key 0)). split; [|apply nth_In; now rewrite L].
        destruct (R i Hi) as (L1 & B1 & F1). destruct Rot as (L2 & B2 & F2). apply bits_ext; auto; [lia|].
        intros p Hp. rewrite F1, F2 by lia. reflexivity. }
    split.
    - intros (b & I & Eb). apply in_map_iff in I. destruct I as (r & <- & I). apply in_seq in I. exists r. split; [lia|]. apply W; [lia|exact Eb].
    - intros (r & Hr & C). eexists. split; [|apply (proj2 (W r Hr) C)]. apply in_map_iff. exists r. split; [reflexivity|]. apply in_seq. lia. }
  assert (O3 : key_ok (BytesKey (repeat 0 128))) by (apply (zeros_bytes 128)).
  pose proof (V (Int32Key 0) eq_refl ltac:(cbn; lia)) as V1. pose proof (V (Int64Key 0) eq_refl ltac:(cbn; lia)) as V2.
  pose proof (V (BytesKey (repeat 0 128)) O3) as V3. cbn [bits] in V1, V2, V3. rewrite repeat_length in V3. specialize (V3 ltac:(lia)).
  change (128 * 8)%nat with 1024%nat in V3. clear V.
  split.
  - intros (b & I & E). rewrite !in_app_iff in I. destruct I as [I|[I|I]].
    + destruct (proj1 V1 (ex_intro _ b (conj I E))) as (r & Hr & C). exists 32%nat, r. cbn [In]. auto.
    + destruct (proj1 V2 (ex_intro _ b (conj I E))) as (r & Hr & C). exists 64%nat, r. cbn [In]. auto.
    + destruct (proj1 V3 (ex_intro _ b (conj I E))) as (r & Hr & C). exists 1024%nat, r. cbn [In]. auto.
  - intros (n & r & I & Hr & C). destruct I as [<-|[<-|[<-|[]]]].
    + destruct (proj2 V1 (ex_intro _ r (conj Hr C))) as (b & I & E). exists b. rewrite !in_app_iff. auto.
    + destruct (proj2 V2 (ex_intro _ r (conj Hr C))) as (b & I & E). exists b. rewrite !in_app_iff. auto.
    + destruct (proj2 V3 (ex_intro _ r (conj Hr C))) as (b & I & E). exists b. rewrite !in_app_iff. auto.
Qed.
(** The sanity test passes for every function of the key bytes. *)
Theorem c79_sanity : forall hf rb rc, (forall k n i, List.length (rb k n i) = 176%nat /\ List.length (rc k n i) = 176%nat) ->
  TestSmhasherSanity hf rb rc = (false, 0%nat).
Proof.
  intros hf rb rc L. unfold TestSmhasherSanity.
  rewrite (filter_none (fun '(k, n, i) => sanity_round hf (rb k n i) (rc k n i) n i)); [reflexivity|].
  intros ((k & n) & i) H. unfold sanity_rounds in H. apply in_flat_map in H. destruct H as (k' & _ & H).
  apply in_flat_map in H. destruct H as (n' & Hn & H). apply in_map_iff in H. destruct H as (i' & E & Hi). injection E as <- <- <-.
  apply in_seq in Hn. apply in_seq in Hi. destruct (L k' n' i') as [L1 L2]. unfold sanity_round. cbv zeta.
  apply negb_false_iff, N.eqb_eq. f_equal.
  assert (F1 : List.length (firstn (16 + i') (rc k' n' i')) = (16 + i')%nat) by (rewrite firstn_length; lia).
  rewrite (skipn_app_exact (16 + i') (firstn (16 + i') (rc k' n' i'))) by exact F1.
  rewrite firstn_app_exact; [reflexivity|]. rewrite firstn_length, skipn_length. lia.
Qed.

(** The whole run prints one line per test.  The line named after the small keys
    is about strings with two bytes that are not zero; the line named after the
    zeros is about the small keys. *)
Theorem c79_labels : forall hf rs name, exists c1 c2,
  In (Some "TestSmhasherSmallKeys"%string, c1) (RunSMhasher hf rs name true) /\
  In (Some "TestSmhasherZeros"%string, c2) (RunSMhasher hf rs name true) /\
  ((0 < c1)%nat <-> collide (fun k => hf k 0) (fun k => (2 <= List.length k <= 16)%nat /\ byte_string k /\ (List.length (nonzero k) <= 2)%nat)) /\
  ((0 < c2)%nat <-> collide (fun k => hf k 0) (fun k => byte_string k /\ (1 <= List.length k <= 3)%nat)).
Proof.
  intros hf rs name. exists (snd (once (TestSmhasherTwoNonzero hf))), (snd (once (TestSmhasherSmallKeys hf))).
  assert (Q : forall b, (0 < snd (once b))%nat <-> b = true) by (intros []; cbn; split; auto; lia).
  split; [|split; [|split]].
  - apply in_map_iff. exists (STwoNonzero, "TestSmhasherSmallKeys"%string). split; [reflexivity|]. unfold STests. cbn [In]. tauto.
  - apply in_map_iff. exists (SSmallKeys, "TestSmhasherZeros"%string). split; [reflexivity|]. unfold STests. cbn [In]. tauto.
  - rewrite Q. apply c79_two_nonzero.
  - rewrite Q. apply c79_small.
Qed.
Lemma line_of (F : stest -> nat) l (d : string) c : In (Some d, c) (map (fun '(t, desc) => (Some desc, F t)) l) -> exists t, In (t, d) l /\ c = F t.
Proof.
  intros I. apply in_map_iff in I. destruct I as ((t & e) & E & I). exists t.
  assert (K : forall (a b : string) (x y : nat), (Some a, x) = (Some b, y) -> a = b /\ x = y) by (intros * Q; inversion Q; auto).
  apply K in E. destruct E as [-> ->]. auto.
Qed.
Lemma zeros_label t : In (t, "TestSmhasherZeros"%string) STests -> t = SSmallKeys.
Proof. unfold STests. cbn [In]. intros I. repeat (destruct I as [I|I]; [inversion I; auto|]). destruct I. Qed.
(** So a hash that takes zero strings of different lengths together passes the
    line that should report it. *)
Theorem c79_zeros_line_refuted : exists hf, TestSmhasherZeros hf = true /\ forall rs name c,
  In (Some "TestSmhasherZeros"%string, c) (RunSMhasher hf rs name true) -> c = 0%nat.
Proof.
  exists (fun k _ => if Nat.leb (List.length k) 3 then le_load (k ++ [1]) else 0). split.
  - apply c79_zeros. exists (repeat 0 10), (repeat 0 11). split; [exists 10%nat; split; [lia|reflexivity]|].
    split; [exists 11%nat; split; [lia|reflexivity]|]. split; [discriminate|reflexivity].
  - intros rs name c H.
    assert (S : forall hf, In (Some "TestSmhasherZeros"%string, c) (RunSMhasher hf rs name true) -> c = snd (once (TestSmhasherSmallKeys hf))).
    { intros hf I. destruct (line_of _ _ _ _ I) as (t & It & ->). apply zeros_label in It. subst t. cbn [run_stest]. reflexivity. }
    apply S in H. rewrite H. destruct (TestSmhasherSmallKeys _) eqn:E; [|reflexivity]. exfalso.
    apply c79_small in E. destruct E as (x & y & (Bx & Lx) & (By & Ly) & Nxy & E). cbv beta in E.
    rewrite (proj2 (Nat.leb_le _ _) (proj2 Lx)), (proj2 (Nat.leb_le _ _) (proj2 Ly)) in E.
    apply Nxy. clear - Bx By E.
    assert (B1 : forall k, byte_string k -> bytes_ok (k ++ [1])) by (intros k B; apply Forall_app; split; [exact B|repeat constructor]).
    assert (P : forall k, byte_string k -> le_load (k ++ [1]) = le_load k + 256 ^ N.of_nat (List.length k)).
    { induction k as [|c k IH]; intros B; [reflexivity|]. cbn [app]. rewrite le_load_cons by exact (B1 (c :: k) B).
      rewrite (le_load_cons c k) by exact B. apply Forall_cons_iff in B. rewrite IH by tauto. cbn [List.length]. rewrite Nat2N.inj_succ, N.pow_succ_r'. lia. }
    rewrite !P in E by assumption. pose proof (le_load_bound x Bx) as X. pose proof (le_load_bound y By) as Y.
    assert (L : List.length x = List.length y).
    { destruct (Nat.lt_trichotomy (List.length x) (List.length y)) as [Q|[Q|Q]]; [|exact Q|]; exfalso.
      - assert (256 ^ N.of_nat (S (List.length x)) <= 256 ^ N.of_nat (List.length y)) by (apply N.pow_le_mono_r; lia).
        rewrite Nat2N.inj_succ, N.pow_succ_r' in H. lia.
      - assert (256 ^ N.of_nat (S (List.length y)) <= 256 ^ N.of_nat (List.length x)) by (apply N.pow_le_mono_r; lia).
        rewrite Nat2N.inj_succ, N.pow_succ_r' in H. lia. }
    rewrite L in E. apply le_load_inj; auto. lia.
Qed.
Lemma constant_collides v (P : list N -> Prop) x y : P x -> P y -> x <> y -> collide (fun k => (fun _ _ : _ => v) k (0 : N)) P.
Proof. intros. exists x, y. auto. Qed.
(** The text, windowed and permutation tests never return failure, even for a
    hash that is constant. *)
Theorem c79_verdicts_lost_refuted : exists hf, (0 < snd (TestSmhasherText hf))%nat /\ (0 < snd (TestSmhasherPermutation hf))%nat /\
  (0 < snd (TestSmhasherWindowed hf))%nat /\
  fst (TestSmhasherText hf) = false /\ fst (TestSmhasherPermutation hf) = false /\ fst (TestSmhasherWindowed hf) = false.
Proof.
  exists (fun _ _ => 7). split; [|split; [|split; [|auto]]].
  - apply c79_text. exists [70; 111; 111], [66; 97; 114]. split; [now left|].
    exists ([70; 111; 111] ++ [65; 65; 65; 65] ++ [66; 97; 114]), ([70; 111; 111] ++ [65; 65; 65; 66] ++ [66; 97; 114]).
    split; [|split; [|split; [discriminate|reflexivity]]]; eexists; (split; [|split; [|reflexivity]]); auto;
      apply Forall_forall; intros c Hc; cbn in Hc; intuition lia.
  - apply c79_permutation. exists 20%nat, [0; 1]. split; [cbn [In]; auto|]. exists [], [0; 0; 0; 0].
    split; [exists []; split; [cbn; lia|split; [intros x []|reflexivity]]|].
    split; [exists [0]; split; [cbn; lia|split; [intros x [<-|[]]; now left|reflexivity]]|]. split; [discriminate|reflexivity].
  - apply c79_windowed. exists 32%nat, 0%nat. split; [now left|]. split; [lia|].
    assert (P16 : (2 <= 2 ^ 16)%nat) by (change 2%nat with (2 ^ 1)%nat at 1; apply Nat.pow_le_mono_r; lia).
    destruct (window_keys_spec (Int32Key 0) 0 2 eq_refl ltac:(cbn; lia) ltac:(cbn; lia) P16) as (ks & E & L & R & ND).
    cbn [bits] in R. destruct ks as [|k0 [|k1 [|]]]; try discriminate.
    exists (key_bytes k0), (key_bytes k1). split; [exists 0%nat; split; [lia|apply (R 0%nat); lia]|].
    split; [exists 1%nat; split; [lia|apply (R 1%nat); lia]|]. split; [|reflexivity].
    cbn [map] in ND. apply NoDup_cons_iff in ND. destruct ND as [ND _]. intros Q. apply ND. rewrite Q. now left.
Qed.
Example c79_labels_nonvacuous : map fst (RunSMhasher (fun _ _ => 0) (mkRandoms (fun _ _ _ => repeat 0 176) (fun _ _ _ => repeat 0 176) (fun n _ => repeat 0 (n - 4))) "j264" true) =
  map Some ["TestSmhasherSanity"; "TestSmhasherSeed"; "TestSmhasherText"; "TestSmhasherWindowed"; "TestSmhasherAvalanche";
    "TestSmhasherPermutation"; "TestSmhasherSparse"; "TestSmhasherCyclic"; "TestSmhasherSmallKeys"; "TestSmhasherZeros"; "TestSmhasherAppendedZeros"]%string.
Proof. reflexivity. Qed.
Example c79_verdict_nonvacuous : TestSmhasherSeed (fun k _ => nth 0 k 0) = true /\ TestSmhasherAppendedZeros (fun k _ => nth 5 k 0) = true /\
  TestSmhasherAppendedZeros (fun k _ => N.of_nat (List.length k)) = false.
Proof.
  split; [apply c79_seed; exists 0, 1; repeat split; discriminate|]. split.
  - apply c79_appended. exists [], [104%N]. repeat split; [exists ([104; 101; 108; 108; 111] ++ repeat 0 256); reflexivity|exists ([101; 108; 108; 111] ++ repeat 0 256); reflexivity|discriminate].
  - destruct (TestSmhasherAppendedZeros (fun k _ => N.of_nat (List.length k))) eqn:E; [|reflexivity]. exfalso.
    apply c79_appended in E. destruct E as (a & b & (u & A) & (v & B) & D & L). apply D. apply Nat2N.inj in L.
    rewrite A in B. clear A D. revert b L B. induction a as [|x a IH]; intros [|y b] L B; try discriminate; [reflexivity|].
    injection B as -> B. injection L as L. f_equal. now apply IH.
Qed.

(** A hash that takes byte strings apart, one that sees the length only and one that sees nothing. *)
Fixpoint written (k : list N) : N := match k with [] => 0 | b :: k => b + 1 + 257 * written k end.
Lemma written_inj : forall k k', byte_string k -> byte_string k' -> written k = written k' -> k = k'.
Proof.
  unfold byte_string. induction k as [|b k IH]; intros [|b' k'] H H' E; cbn [written] in E; [reflexivity|lia|lia|].
  inversion H; inversion H'; subst. assert (written k = written k' /\ b = b') as [E1 ->] by lia. f_equal. now apply IH.
Qed.
Definition takes_apart (k : list N) (_ : N) : N := written k.
Definition by_length (k : list N) (_ : N) : N := N.of_nat (List.length k).
Example c79_small_nonvacuous : TestSmhasherSmallKeys by_length = true /\ TestSmhasherSmallKeys takes_apart = false.
Proof.
  split.
  - apply c79_small. exists [1; 2], [3; 4]. repeat split; try discriminate; try (cbn; lia); repeat constructor.
  - apply not_true_is_false. rewrite c79_small. intros (a & b & (A & _) & (B & _) & D & E). apply D. now apply written_inj.
Qed.
Example c79_two_nonzero_nonvacuous : TestSmhasherTwoNonzero by_length = true /\ TestSmhasherTwoNonzero takes_apart = false.
Proof.
  split.
  - apply c79_two_nonzero. exists [1; 0; 2], [3; 4; 0]. repeat split; try discriminate; try (cbn; lia); repeat constructor.
  - apply not_true_is_false. rewrite c79_two_nonzero. intros (a & b & (_ & A & _) & (_ & B & _) & D & E). apply D. now apply written_inj.
Qed.
Example c79_zeros_nonvacuous : TestSmhasherZeros (fun k _ => N.of_nat (List.length k) / 2) = true /\ TestSmhasherZeros by_length = false.
Proof.
  split.
  - apply c79_zeros. exists [0; 0], [0; 0; 0]. split; [exists 2%nat; split; [lia|reflexivity]|]. split; [exists 3%nat; split; [lia|reflexivity]|]. split; [discriminate|reflexivity].
  - apply not_true_is_false. rewrite c79_zeros. intros (a & b & (m & _ & ->) & (n & _ & ->) & D & E). apply D. unfold by_length in E. rewrite !repeat_length in E. f_equal. lia.
Qed.
Example c79_sparse_nonvacuous : fst (TestSmhasherSparse by_length) = true /\ fst (TestSmhasherSparse takes_apart) = false.
Proof.
  split.
  - apply c79_sparse. exists 32%nat, 6%nat. split; [cbn; tauto|]. exists [1; 0; 0; 0], [0; 0; 0; 128]. repeat split; try discriminate; try (vm_compute; lia); repeat constructor.
  - apply not_true_is_false. rewrite c79_sparse. intros (n & k & _ & a & b & (_ & A & _) & (_ & B & _) & D & E). apply D. now apply written_inj.
Qed.
Example c79_cyclic_nonvacuous : let rb := (fun n (_ : nat) => repeat 0 (n - 4)) in (forall n i, List.length (rb n i) = (n - 4)%nat) /\ fst (TestSmhasherCyclic by_length rb) = true.
Proof.
  cbv zeta. split; [intros; apply repeat_length|]. apply c79_cyclic; [intros; apply repeat_length|].
  exists 6%nat. split; [lia|]. exists 1, 2. split; [lia|]. reflexivity.
Qed.
Example c79_permutation_nonvacuous : (0 < snd (TestSmhasherPermutation by_length))%nat.
Proof.
  apply c79_permutation. exists 20%nat, [0; 1]. split; [cbn; tauto|]. exists (flat_map block [0; 1]), (flat_map block [1; 0]).
  split; [exists [0; 1]; repeat split; [cbn; lia|intros x; cbn; tauto]|]. split; [exists [1; 0]; repeat split; [cbn; lia|intros x; cbn; tauto]|].
  split; [vm_compute; discriminate|reflexivity].
Qed.
Example c79_text_nonvacuous : (0 < snd (TestSmhasherText by_length))%nat /\ snd (TestSmhasherText takes_apart) = 0%nat.
Proof.
  split.
  - apply c79_text. exists [70; 111; 111], [66; 97; 114]. split; [cbn; tauto|]. exists ([70; 111; 111] ++ [65; 97; 48; 84] ++ [66; 97; 114]), ([70; 111; 111] ++ [65; 97; 48; 57] ++ [66; 97; 114]).
    split; [eexists; split; [|split; [|reflexivity]]; [reflexivity|repeat (apply Forall_cons; [lia|]); apply Forall_nil]|].
    split; [eexists; split; [|split; [|reflexivity]]; [reflexivity|repeat (apply Forall_cons; [lia|]); apply Forall_nil]|]. split; [discriminate|reflexivity].
  - destruct (Nat.eq_0_gt_0_cases (snd (TestSmhasherText takes_apart))) as [E|E]; [exact E|exfalso]. apply c79_text in E.
    destruct E as (p & q & I & a & b & (m & _ & F & ->) & (m' & _ & F' & ->) & D & E). apply D. apply written_inj; [| |exact E].
    all: assert (byte_string p /\ byte_string q) as [P Q] by (cbn in I; repeat (destruct I as [I|I]; [injection I as <- <-; split; repeat constructor|]); contradiction).
    all: unfold byte_string in *; apply Forall_app; (split; [exact P|]); apply Forall_app; (split; [|exact Q]).
    all: eapply Forall_impl; [|first [exact F|exact F']]; cbv beta; intros; lia.
Qed.
Example c79_windowed_nonvacuous : (0 < snd (TestSmhasherWindowed by_length))%nat.
Proof.
  apply c79_windowed. exists 32%nat, 0%nat. split; [cbn; tauto|]. split; [lia|]. exists [1; 0; 0; 0], [2; 0; 0; 0].
  assert (R : forall i k, In (i, k) [(1%nat, [1; 0; 0; 0]); (2%nat, [2; 0; 0; 0])] -> rotation 32 0 i k).
  { intros i k I. assert (F : forallb (fun p => Bool.eqb (bit k p) (N.testbit (N.of_nat i) (N.of_nat ((p + (32 - 0)) mod 32)))) (seq 0 32) = true)
      by (destruct I as [I|[I|[]]]; injection I as <- <-; vm_compute; reflexivity).
    split; [destruct I as [I|[I|[]]]; injection I as <- <-; reflexivity|].
    split; [destruct I as [I|[I|[]]]; injection I as <- <-; repeat constructor|].
    intros p Hp. rewrite forallb_forall in F. apply Bool.eqb_prop. apply F. apply in_seq. lia. }
  split; [exists 1%nat; split; [apply Nat.lt_le_trans with (2 ^ 1)%nat; [cbn; lia|apply Nat.pow_le_mono_r; lia]|apply R; cbn; tauto]|].
  split; [exists 2%nat; split; [apply Nat.lt_le_trans with (2 ^ 2)%nat; [cbn; lia|apply Nat.pow_le_mono_r; lia]|apply R; cbn; tauto]|].
  split; [discriminate|reflexivity].
Qed.
Example c79_sanity_nonvacuous : let rb := (fun k n i : nat => repeat (N.of_nat (k + n + i) mod 256) 176) in
  (forall k n i, List.length (rb k n i) = 176%nat) /\ TestSmhasherSanity takes_apart rb rb = (false, 0%nat).
Proof. cbv zeta. split; [intros; apply repeat_length|]. apply c79_sanity. intros. split; apply repeat_length. Qed.

(** ** C80: the avalanche grid *)
(** Entry (i, j) counts the keys for which changing bit [i] changes bit [j] of
    the hash. *)
Theorem c80_grid : forall hf n ks, Forall (fun k => key_ok k /\ bits k = n) ks ->
  exists grid, avalanche_grid hf n ks = Some grid /\ List.length grid = n /\
    forall i j, (i < n)%nat -> (j < 64)%nat ->
      nth j (nth i grid []) 0%nat = List.length (filter (affects (fun k => hf k 0) i j) (map key_bytes ks)).
Proof.
  intros hf n ks F. unfold avalanche_grid.
  destruct (avalanche_spec hf n ks F (repeat (repeat 0%nat 64) n)) as (g & E & L & H); [apply repeat_length|].
  exists g. split; [exact E|]. split; [exact L|]. intros i j Hi Hj. rewrite H by assumption.
  replace (nth j (nth i (repeat (repeat 0%nat 64) n) []) 0%nat) with 0%nat; [reflexivity|].
  rewrite (nth_indep _ [] (repeat 0%nat 64)) by now rewrite repeat_length. rewrite !nth_repeat. reflexivity.
Qed.
(** [flip_key] changes exactly one bit. *)
Theorem c80_flip_key : forall i k, byte_string k -> (i < 8 * List.length k)%nat -> flipped i k (flip_key i k).
Proof. exact flip_key_flipped. Qed.
(** A hash that ignores an input bit has a row of zeros; the test says nothing. *)
Theorem c80_biased_refuted : exists hf, forall n ks, Forall (fun k => key_ok k /\ bits k = n) ks ->
  (exists grid, avalanche_grid hf n ks = Some grid /\ forall i j, (i < n)%nat -> (j < 64)%nat -> nth j (nth i grid []) 0%nat = 0%nat) /\
  TestSmhasherAvalanche hf = (false, 0%nat).
Proof.
  exists (fun _ _ => 7). intros n ks F. split; [|reflexivity].
  destruct (c80_grid (fun _ _ => 7) n ks F) as (g & E & _ & H). exists g. split; [exact E|]. intros i j Hi Hj. rewrite H by assumption.
  rewrite filter_none; [reflexivity|]. intros k _. unfold affects. now destruct (N.testbit 7 (N.of_nat j)).
Qed.
Example c80_nonvacuous : Forall (fun k => key_ok k /\ bits k = 8%nat) [BytesKey [1]; BytesKey [3]] /\
  option_map (fun g => map (fun r => firstn 3 r) (firstn 2 g)) (avalanche_grid (fun k _ => N.land (nth 0 k 0) (shr (nth 0 k 0) 1)) 8 [BytesKey [1]; BytesKey [3]])
  = Some [[1; 0; 0]; [2; 0; 0]]%nat.
Proof. split; [repeat constructor|vm_compute; reflexivity]. Qed.

Print Assumptions c79_check.
Print Assumptions c79_check_refuted.
Print Assumptions c79_small.
Print Assumptions c79_two_nonzero.
Print Assumptions c79_appended.
Print Assumptions c79_zeros.
Print Assumptions c79_seed.
Print Assumptions c79_sparse.
Print Assumptions c79_cyclic.
Print Assumptions c79_permutation.
Print Assumptions c79_text.
Print Assumptions c79_windowed.
Print Assumptions c79_sanity.
Print Assumptions c79_labels.
Print Assumptions c79_zeros_line_refuted.
Print Assumptions c79_verdicts_lost_refuted.
Print Assumptions c80_grid.
Print Assumptions c80_flip_key.
Print Assumptions c80_biased_refuted.
