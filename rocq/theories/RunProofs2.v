(** Proofs about RunModel: the calls of the SMHasher tests. *)
From Coq Require Import NArith ZArith List Arith String Bool Lia.
From Verif Require Import Words WordLemmas ListLemmas Mem KeccakModel HashfModel HashfSpec HashfProofs HashfProps HtModel SmhModel SmhSpec SmhProofs
  SmhBits SmhKeys SmhKeys2 SmhFlip SmhProps SmhProps2 RunModel RunProofs.
Import ListNotations.
Open Scope N_scope.
Open Scope list_scope.

Lemma enum_small m ks (P : list N -> Prop) : enumerates ks P -> (forall k, P k -> byte_string k /\ (m <= length k)%nat /\ N.of_nat (length k) < 2 ^ 64) ->
  Forall (small_key m) ks.
Proof.
  intros (_ & E) H. apply Forall_forall. intros k Hk. apply E in Hk. destruct (H k Hk) as (B & L). split; [now apply byte_string_ok|exact L].
Qed.
Lemma n64 n b : (n <= b)%nat -> N.of_nat b < 2 ^ 64 -> N.of_nat n < 2 ^ 64.
Proof. lia. Qed.
Lemma block_bytes v : byte_string (block v).
Proof. unfold block. repeat constructor; apply N.mod_lt; discriminate. Qed.
Lemma blocks_bytes vs : byte_string (flat_map block vs) /\ length (flat_map block vs) = (4 * length vs)%nat.
Proof.
  induction vs as [|v vs (B & L)]; [split; [constructor|reflexivity]|]. cbn [flat_map]. split.
  - apply Forall_app. split; [apply block_bytes|exact B].
  - rewrite app_length, L. cbn [block length]. lia.
Qed.
Lemma cycled_bytes n p : byte_string p -> byte_string (cycled n p).
Proof.
  intros B. unfold cycled. induction n as [|n IH]; cbn [repeat List.concat]; [constructor|]. apply Forall_app. auto.
Qed.
Lemma head4_bytes i : byte_string (head4 i).
Proof. unfold head4. repeat constructor; (eapply N.lt_trans; [apply N.mod_lt; discriminate|reflexivity]). Qed.
Lemma valid_flips is : forall k, key_ok k -> (bits k <= 1600)%nat -> (forall i, In i is -> (i < bits k)%nat) -> valid 0 (askFlips is k).
Proof.
  induction is as [|i is IH]; intros k O L H; cbn [askFlips]; [exact I|].
  destruct (flipBit_spec k i O (H i (or_introl eq_refl))) as (k1 & E & O1 & S1 & _). rewrite E.
  pose proof (same_kind_bits _ _ S1) as B1. apply valid_bind.
  - apply valid_ask; [|reflexivity]. apply key_small; [exact O1|lia].
  - intros _. rewrite (flipBit_twice k i k1 O (H i (or_introl eq_refl)) E). apply IH; auto. intros j Hj. apply H. now right.
Qed.
(** The lists of keys: few enough short strings of bytes. *)
Definition family (ks : list (list N)) : Prop := Forall (small_key 0) ks /\ N.of_nat (length ks) < 2 ^ 64.
Lemma count27 n : (n <= 2 ^ 27)%nat -> N.of_nat n < 2 ^ 64.
Proof. intros H. pose proof pow27 as P. change (2 ^ 64) with 18446744073709551616. lia. Qed.
Lemma families_window k r count : key_ok k -> (16 <= bits k <= 1600)%nat -> (r < bits k)%nat -> (count <= 2 ^ 16)%nat -> N.of_nat count < 2 ^ 64 ->
  exists ks, window_keys r count k = Some ks /\ family (map key_sent ks).
Proof.
  intros O L Hr Hc Hd. destruct (window_loop_spec r (seq 0 count) k O) as (ks & E & F); [lia|lia|intros i Hi; apply in_seq in Hi; eapply Nat.lt_le_trans; [apply Hi|exact Hc]|].
  exists ks. split; [exact E|]. split.
  - apply Forall_forall. intros b Hb. apply in_map_iff in Hb. destruct Hb as (k' & <- & Hk').
    clear E. revert F. generalize (seq 0 count). intros is F. induction F as [|i x is ks (O1 & S1 & _) F IH]; [destruct Hk'|].
    destruct Hk' as [->|Hk']; [|now apply IH]. apply key_small; [exact O1|]. rewrite <- (same_kind_bits _ _ S1). lia.
  - assert (Ln : length ks = count).
    { assert (G : forall {A B} (P : A -> B -> Prop) l m, Forall2 P l m -> length l = length m) by (intros A B P l m Q; induction Q; cbn; congruence).
      apply G in F. now rewrite seq_length in F. }
    now rewrite map_length, Ln.
Qed.
Lemma count16 : (N.to_nat 65536 <= 2 ^ 16)%nat /\ N.of_nat (N.to_nat 65536) < 2 ^ 64.
Proof.
  split; [|rewrite N2Nat.id; reflexivity].
  assert (E : N.to_nat 65536 = (2 ^ 16)%nat) by (apply Nat2N.inj; rewrite N2Nat.id, Nat2N.inj_pow; reflexivity). rewrite E. apply le_n.
Qed.
Lemma str_bytes s : byte_string (str s).
Proof.
  unfold str. apply Forall_forall. intros c H. apply in_map_iff in H. destruct H as (a & <- & _). apply Ascii.N_ascii_bounded.
Qed.
Lemma alphabet_nodup : NoDup alphabet.
Proof. apply nodupb_ok. vm_compute. reflexivity. Qed.
Lemma family_text p q : byte_string p -> byte_string q -> (length p + length q <= 100)%nat -> family (text_keys alphabet p q).
Proof.
  intros Bp Bq L. split; [|rewrite text_length; reflexivity].
  refine (enum_small _ _ _ (text_enum alphabet p q alphabet_nodup) _). intros k (m & Lm & Im & ->). split; [|split; [lia|]].
  - apply Forall_app. split; [exact Bp|]. apply Forall_app. split; [|exact Bq]. apply Forall_forall. intros c Hc. apply Im in Hc.
    pose proof (str_bytes "ABCDEFGHIJKLMNOPQRSTabcdefghijklmnopqrst0123456789") as A. unfold byte_string in A. rewrite Forall_forall in A. now apply A.
  - rewrite !app_length. change (2 ^ 64) with 18446744073709551616. lia.
Qed.
Lemma family_sparse n k : In (n, k) sparse_pairs -> family (sparse_keys n k).
Proof.
  intros I. assert (E8 : (n = 8 * (n / 8))%nat /\ (n / 8 <= 256)%nat).
  { unfold sparse_pairs in I. cbn [In] in I. repeat (destruct I as [I|I]; [injection I as <- <-; split; [reflexivity|apply Nat.leb_le; reflexivity]|]). destruct I. }
  destruct E8 as (E8 & Ls). split.
  - rewrite E8. refine (enum_small _ _ _ (c49_sparse_all (n / 8) k) _). intros y (Ly & By & _). split; [exact By|]. split; [lia|].
    change (2 ^ 64) with 18446744073709551616. lia.
  - unfold sparse_keys. rewrite setbits_eq; [|apply zeros_bytes|].
    + cbn [fst]. rewrite sparse_length, repeat_length, Nat.sub_0_r.
      pose proof sparse_counts as C. rewrite forallb_forall in C. specialize (C _ I). cbv beta iota in C. apply N.leb_le in C.
      eapply N.le_lt_trans; [exact C|reflexivity].
    + intros j _. unfold bit. fold (HtKeys.zeros (n / 8)). rewrite HtKeys.nth_zeros. apply N.bits_0.
Qed.
Lemma family_permutation n s : In (n, s) Permutations -> family (permutation_keys s n).
Proof.
  intros I. assert (H : NoDup s /\ Forall (fun v => v < 2 ^ 32) s /\ perm_count n (N.of_nat (length s)) < 2 ^ 64 /\ (n <= 20)%nat).
  { unfold Permutations in I. cbn [In] in I.
    repeat (destruct I as [I|I]; [injection I as <- <-; split; [apply nodupb_ok; vm_compute; reflexivity|];
      split; [repeat constructor|split; [vm_compute; reflexivity|apply Nat.leb_le; reflexivity]]|]). destruct I. }
  destruct H as (N & F & C & Ln). split; [|rewrite permutation_length; exact C].
  refine (enum_small _ _ _ (permutation_enum s n N F) _). intros k (vs & Lv & _ & ->). destruct (blocks_bytes vs) as (B & Lb).
  split; [exact B|]. split; [lia|]. rewrite Lb. change (2 ^ 64) with 18446744073709551616. lia.
Qed.
Lemma family_cyclic n rb : (4 <= n <= 12)%nat -> (forall i, bytes_ok (rb i) /\ length (rb i) = (n - 4)%nat) ->
  family (cyclic_keys n rb (N.to_nat 1000000)).
Proof.
  intros Hn Hr. rewrite cyclic_eq; [|lia|intros; apply Hr]. split; [|rewrite map_length, seq_length, N2Nat.id; reflexivity].
  apply Forall_forall. intros k Hk. apply in_map_iff in Hk. destruct Hk as (i & <- & _). destruct (Hr i) as (B & L). split; [|split; [lia|]].
  - apply byte_string_ok, cycled_bytes, Forall_app. split; [apply head4_bytes|now apply byte_string_ok].
  - rewrite cycled_length, app_length, L. cbn [length head4]. change (2 ^ 64) with 18446744073709551616. lia.
Qed.
Lemma family_two : family (flat_map (fun n => fst (twoNonZero n)) (seq 2 15)).
Proof.
  split; [|apply count27, two_all_length]. refine (enum_small _ _ _ two_all_enum _). intros k (L & B & _). split; [exact B|]. split; [lia|].
  change (2 ^ 64) with 18446744073709551616. lia.
Qed.
Lemma family_small : family (small_keys 256 Short).
Proof.
  split; [|rewrite small_length; reflexivity]. refine (enum_small _ _ _ small_enum _). intros k (B & L). split; [exact B|]. split; [lia|].
  change (2 ^ 64) with 18446744073709551616. lia.
Qed.
Lemma family_appended : family (appended_keys (str "hello" ++ repeat 0 256)).
Proof.
  split.
  - refine (enum_small _ _ _ (appended_enum _) _). intros k (t & E).
    assert (B : byte_string (str "hello" ++ repeat 0 256)) by (apply Forall_app; split; [apply str_bytes|apply (zeros_bytes 256)]).
    assert (L : (length (k ++ t) = 261)%nat) by (rewrite <- E, app_length, repeat_length; reflexivity).
    rewrite E in B. apply Forall_app in B. split; [apply B|]. split; [lia|]. rewrite app_length in L. change (2 ^ 64) with 18446744073709551616. lia.
  - unfold appended_keys. rewrite map_length, seq_length, app_length, repeat_length. reflexivity.
Qed.
Lemma family_zeros n : N.of_nat n < 2 ^ 63 -> family (zeros_keys n).
Proof.
  intros H. change (2 ^ 63) with 9223372036854775808 in H. split.
  - refine (enum_small _ _ _ (zeros_enum n) _). intros k (m & Lm & ->). rewrite repeat_length. split; [apply zeros_bytes|]. split; [lia|].
    change (2 ^ 64) with 18446744073709551616. lia.
  - unfold zeros_keys. rewrite map_length, seq_length. change (2 ^ 64) with 18446744073709551616. lia.
Qed.

Lemma valid_family ks : family ks -> valid 0 (askVerdict ks).
Proof. intros (F & _). now apply valid_verdict. Qed.
Lemma valid_windows k : key_ok k -> (16 <= bits k <= 1600)%nat ->
  valid 0 (each_of (fun r => match window_keys r (N.to_nat 65536) k with
                    | Some ks => askVerdict (map key_sent ks) | None => Done false end) (seq 0 (bits k))).
Proof.
  intros O L. apply valid_each. intros r Hr. apply in_seq in Hr. destruct (families_window k r _ O L ltac:(lia) (proj1 count16) (proj2 count16)) as (ks & -> & F). now apply valid_family.
Qed.
Lemma valid_stest rr t : randoms_ok rr -> valid 0 (ask_stest rr t).
Proof.
  intros (Rs & Rc & Rk). destruct t; cbv beta iota zeta delta [ask_stest].
  - apply valid_bind; [|intros; exact I]. apply valid_each. intros ((k & n) & i) H.
    assert (Hn : (n < 128 /\ i < 16)%nat).
    { unfold sanity_rounds in H. apply in_flat_map in H. destruct H as (k' & _ & H). apply in_flat_map in H. destruct H as (n' & Hn & H).
      apply in_map_iff in H. destruct H as (i' & [= <- <- <-] & Hi). apply in_seq in Hn, Hi. lia. }
    destruct (Rs k n i) as (Bb & Lb & Bc & Lc). cbv zeta. cbn [valid].
    assert (L64 : N.of_nat n < 2 ^ 64) by (change (2 ^ 64) with 18446744073709551616; lia).
    split; [exact Bb|]. split; [lia|]. split; [exact L64|]. split; [lia|]. split; [reflexivity|]. intros _.
    split; [|split; [rewrite !app_length, !firstn_length, !skipn_length; lia|split; [exact L64|split; [lia|split; [reflexivity|intros; exact I]]]]].
    apply Forall_app. split; [now apply bytes_ok_firstn|]. apply Forall_app. split; [now apply bytes_ok_firstn, bytes_ok_skipn|now apply bytes_ok_skipn].
  - apply valid_bind; [|intros; exact I]. apply valid_bind; [|intros; exact I]. apply valid_each. intros i Hi. apply in_seq in Hi. apply valid_ask.
    + split; [apply byte_string_ok, str_bytes|]. split; [lia|reflexivity].
    + change (2 ^ 64) with 18446744073709551616. lia.
  - unfold askText. repeat (apply valid_bind; [apply valid_family, family_text; [apply str_bytes || constructor|apply str_bytes || constructor|cbn; lia]|intros]). exact I.
  - unfold askWindowed. cbv zeta.
    apply valid_bind; [apply valid_windows; [reflexivity|cbn [bits]; lia]|intros]. apply valid_bind; [apply valid_windows; [reflexivity|cbn [bits]; lia]|intros].
    apply valid_bind; [apply valid_windows; [apply zeros_bytes|cbn [bits]; rewrite repeat_length; lia]|intros]. exact I.
  - apply valid_bind; [|intros; exact I]. apply valid_each. intros ks Hks. apply valid_each. intros k Hk.
    rewrite Forall_forall in Rk. specialize (Rk ks Hks). rewrite Forall_forall in Rk. destruct (Rk k Hk) as (O & L).
    apply valid_bind; [apply valid_ask; [now apply key_small|reflexivity]|]. intros _. apply valid_flips; auto. intros i Hi. apply in_seq in Hi. lia.
  - apply valid_bind; [|intros; exact I]. apply valid_each. intros (n & s) H. now apply valid_family, family_permutation.
  - apply valid_bind; [|intros; exact I]. apply valid_each. intros (n & k) H. now apply valid_family, family_sparse.
  - unfold askCyclic. apply valid_bind; [|intros; apply valid_done]. apply valid_each. intros n H. apply in_seq in H. apply valid_family, family_cyclic; [lia|apply Rc].
  - apply valid_bind; [apply valid_family, family_two|intros; exact I].
  - apply valid_bind; [apply valid_family, family_small|intros; exact I].
  - apply valid_bind; [apply valid_family, family_zeros; rewrite N2Nat.id; reflexivity|intros; exact I].
  - apply valid_bind; [apply valid_family, family_appended|intros; exact I].
Qed.
Lemma valid_SMhasher rr v : randoms_ok rr -> valid 0 (askSMhasher rr v).
Proof.
  intros R. apply valid_each. intros (t & d) _. apply valid_bind; [now apply valid_stest|intros; exact I].
Qed.
(** The first call: the empty slice [b[16:16]] of the sanity test. *)
Lemma first_call rr v : exists f, askSMhasher rr v = Ask (r_b (rr_of rr) 0%nat 0%nat 0%nat) 16 0 0 f.
Proof.
  assert (E : exists l, sanity_rounds = (0, 0, 0)%nat :: l) by (eexists; reflexivity).
  destruct E as (l & E). unfold askSMhasher, STests. cbn [each_of ask_stest]. unfold askSanity. rewrite E. cbn [each_of bind]. eexists. reflexivity.
Qed.
