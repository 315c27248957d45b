From Coq Require Import NArith ZArith List Arith String Bool Lia Permutation.
From Verif Require Import Words WordLemmas Mem ListLemmas HashTableModel HtModel HtSpec HtProofs HtMore.
Import ListNotations.
Open Scope N_scope.
Open Scope list_scope.

(** ** Integer keys *)
Definition le4 (x : N) : list N := [x mod 256; x / 256 mod 256; x / 65536 mod 256; x / 16777216 mod 256].
Lemma int_key_le4 i : int_key i = le4 (N.of_nat i).
Proof.
  unfold int_key, le4. cbn [map]. unfold shr. rewrite !wrap_mod, !N.shiftr_div_pow2.
  change (2 ^ 8) with 256. change (2 ^ 0) with 1. change (2 ^ 16) with 65536. change (2 ^ 24) with 16777216.
  now rewrite N.div_1_r.
Qed.
Lemma le4_sum x : x mod 256 + 256 * (x / 256 mod 256) + 65536 * (x / 65536 mod 256) + 16777216 * (x / 16777216 mod 256)
  = x mod 4294967296.
Proof. zify. Z.to_euclidean_division_equations. lia. Qed.
Lemma le4_inj x y : le4 x = le4 y -> x mod 4294967296 = y mod 4294967296.
Proof.
  unfold le4. intros E. rewrite <- (le4_sum x), <- (le4_sum y).
  revert E. generalize (x mod 256) (y mod 256) (x / 256 mod 256) (y / 256 mod 256) (x / 65536 mod 256)
    (y / 65536 mod 256) (x / 16777216 mod 256) (y / 16777216 mod 256). intros. congruence.
Qed.
Lemma keysI_nodup ni : NoDup (keysI ni) <-> (ni <= 2 ^ 32)%Z.
Proof.
  change (2 ^ 32)%Z with 4294967296%Z. unfold keysI. split.
  - intros H. destruct (Z.le_gt_cases ni 4294967296) as [L|L]; [exact L|exfalso].
    assert (E : int_key 0 = int_key (N.to_nat 4294967296)).
    { rewrite !int_key_le4, N2Nat.id. reflexivity. }
    assert (Hn : exists m, Z.to_nat ni = (S (N.to_nat 4294967295 + S m))%nat).
    { exists (Z.to_nat (ni - 4294967297)). lia. }
    destruct Hn as (m & Em). rewrite Em in H. cbn [seq map] in H.
    apply NoDup_cons_iff in H. destruct H as [H _]. apply H. rewrite E. apply in_map, in_seq. lia.
  - intros L. apply NoDup_map_in; [|apply seq_NoDup]. intros x y Hx Hy E.
    apply in_seq in Hx. apply in_seq in Hy. rewrite !int_key_le4 in E. apply le4_inj in E.
    rewrite !N.mod_small in E by lia. lia.
Qed.

(** ** Marching ones *)
Definition zeros (n : nat) : list N := repeat 0 n.
Lemma set_nth_zeros n k x : (k < n)%nat -> set_nth k 0 (set_nth k x (zeros n)) = zeros n.
Proof.
  unfold zeros. revert k. induction n as [|n IH]; intros [|k] H; cbn [repeat set_nth]; try lia; [reflexivity|].
  rewrite IH by lia. reflexivity.
Qed.
Lemma march_bits_eq n k bits : (k < n)%nat ->
  march_bits (zeros n) k bits = (map (fun i => set_nth k (shlw 8 1 (N.of_nat i)) (zeros n)) bits, zeros n).
Proof.
  intros H. induction bits as [|i r IH]; [reflexivity|]. cbn [march_bits map].
  rewrite set_nth_zeros by exact H. rewrite IH. reflexivity.
Qed.
Lemma march_eq n : march n = flat_map (fun k => map (fun i => set_nth k (shlw 8 1 (N.of_nat i)) (zeros n)) (seq 0 8)) (seq 0 n).
Proof.
  unfold march. fold (zeros n).
  assert (G : forall l, Forall (fun k => k < n)%nat l -> march_bytes (zeros n) l =
    flat_map (fun k => map (fun i => set_nth k (shlw 8 1 (N.of_nat i)) (zeros n)) (seq 0 8)) l).
  { induction l as [|k l IH]; intros F; [reflexivity|]. apply Forall_cons_iff in F.
    cbn [march_bytes flat_map]. rewrite march_bits_eq by tauto. rewrite IH by tauto. reflexivity. }
  apply G. apply Forall_forall. intros k Hk. apply in_seq in Hk. lia.
Qed.
Lemma nth_set_nth {A} (l : list A) i j x d : (i < List.length l)%nat ->
  nth j (set_nth i x l) d = if Nat.eqb j i then x else nth j l d.
Proof.
  revert i j. induction l as [|y l IH]; intros [|i] [|j] H; cbn [List.length] in H; try lia; cbn [set_nth nth Nat.eqb]; try reflexivity.
  apply IH. lia.
Qed.
Lemma nth_zeros n j : nth j (zeros n) 0 = 0.
Proof. unfold zeros. revert j. induction n as [|n IH]; intros [|j]; cbn [repeat nth]; auto. Qed.
Lemma flat_map_nth {A} (f : nat -> list A) c d : (0 < c)%nat -> (forall k, List.length (f k) = c) ->
  forall n s b, (b < c * n)%nat ->
  nth b (flat_map f (seq s n)) d = nth (b mod c) (f (s + b / c)%nat) d.
Proof.
  intros Hc Hl. induction n as [|n IH]; intros s b Hb; [lia|]. cbn [seq flat_map].
  destruct (Nat.lt_ge_cases b c) as [L|L].
  - rewrite app_nth1 by (rewrite Hl; exact L). rewrite Nat.mod_small, Nat.div_small by exact L. now rewrite Nat.add_0_r.
  - rewrite app_nth2 by (rewrite Hl; exact L). rewrite Hl, IH by nia.
    assert (E : b = (b - c + 1 * c)%nat) by lia.
    rewrite E at 3 4. rewrite Nat.mod_add, Nat.div_add by lia. do 2 f_equal. lia.
Qed.
Lemma flat_map_len {A} (f : nat -> list A) c n s : (forall k, List.length (f k) = c) ->
  List.length (flat_map f (seq s n)) = (c * n)%nat.
Proof.
  intros Hl. revert s. induction n as [|n IH]; intros s; [cbn; lia|]. cbn [seq flat_map]. rewrite app_length, Hl, IH. lia.
Qed.
Lemma march_length n : List.length (march n) = (8 * n)%nat.
Proof. rewrite march_eq. apply flat_map_len. intros k. now rewrite map_length, seq_length. Qed.
Lemma bit_of i j : (i < 8)%nat -> N.testbit (shlw 8 1 (N.of_nat i)) j = (j =? N.of_nat i).
Proof.
  intros H. unfold shlw. rewrite wrap_mod. rewrite N.shiftl_1_l.
  rewrite N.mod_small.
  - rewrite N.pow2_bits_eqb. apply N.eqb_sym.
  - apply N.pow_lt_mono_r; lia.
Qed.
Lemma march_one_bit n b : (b < 8 * n)%nat -> one_bit n b (nth b (march n) []).
Proof.
  intros H. rewrite march_eq. rewrite (flat_map_nth _ 8) by (try lia; intros; now rewrite map_length, seq_length).
  rewrite Nat.add_0_l.
  assert (Hm : (b mod 8 < 8)%nat) by (apply Nat.mod_upper_bound; lia).
  assert (Hd : (b / 8 < n)%nat) by (apply Nat.div_lt_upper_bound; lia).
  assert (Hb : (b = 8 * (b / 8) + b mod 8)%nat) by (apply Nat.div_mod; lia).
  rewrite nth_indep with (d' := (fun i => set_nth (b / 8) (shlw 8 1 (N.of_nat i)) (zeros n)) 0%nat)
    by (rewrite map_length, seq_length; exact Hm).
  rewrite (map_nth (fun i => set_nth (b / 8) (shlw 8 1 (N.of_nat i)) (zeros n)) (seq 0 8) 0%nat (b mod 8)).
  rewrite seq_nth by exact Hm. rewrite Nat.add_0_l. split.
  - rewrite set_nth_length. apply repeat_length.
  - intros j i Hj. rewrite nth_set_nth by (unfold zeros; rewrite repeat_length; exact Hd).
    destruct (Nat.eqb_spec j (b / 8)) as [E|E].
    + rewrite bit_of by exact Hm. subst j.
      destruct (N.eqb_spec i (N.of_nat (b mod 8))) as [Q|Q].
      * symmetry. apply andb_true_intro. split; [apply N.eqb_eq|apply N.ltb_lt]; lia.
      * symmetry. apply andb_false_iff. left. apply N.eqb_neq. lia.
    + rewrite nth_zeros, N.bits_0. symmetry. apply andb_false_iff.
      destruct (N.ltb_spec i 8) as [L|L]; [left|right; reflexivity]. apply N.eqb_neq. lia.
Qed.
Lemma one_bit_inj n b c k : (b < 8 * n)%nat -> one_bit n b k -> one_bit n c k -> b = c.
Proof.
  intros Hb [_ H1] [_ H2].
  assert (Hm : (b mod 8 < 8)%nat) by (apply Nat.mod_upper_bound; lia).
  assert (Hd : (b / 8 < n)%nat) by (apply Nat.div_lt_upper_bound; lia).
  assert (Hq : (b = 8 * (b / 8) + b mod 8)%nat) by (apply Nat.div_mod; lia).
  specialize (H1 (b / 8)%nat (N.of_nat (b mod 8)) Hd). specialize (H2 (b / 8)%nat (N.of_nat (b mod 8)) Hd).
  rewrite H1 in H2. replace (N.of_nat (8 * (b / 8)) + N.of_nat (b mod 8)) with (N.of_nat b) in H2 by lia.
  rewrite N.eqb_refl in H2. replace (N.of_nat (b mod 8) <? 8) with true in H2 by (symmetry; apply N.ltb_lt; lia).
  cbn [andb] in H2. symmetry in H2. apply andb_prop in H2. destruct H2 as [H2 _]. apply N.eqb_eq in H2. lia.
Qed.
Lemma one_bit_key n b k1 k2 : one_bit n b k1 -> one_bit n b k2 -> k1 = k2.
Proof.
  intros [L1 H1] [L2 H2]. apply nth_ext with (d := 0) (d' := 0); [congruence|]. intros j Hj. rewrite L1 in Hj.
  apply N.bits_inj. intros i. rewrite H1, H2 by exact Hj. reflexivity.
Qed.
Lemma march_nodup n : NoDup (march n).
Proof.
  apply (NoDup_nth (march n) []). intros i j Hi Hj E. rewrite march_length in Hi, Hj.
  pose proof (march_one_bit n i Hi) as A. pose proof (march_one_bit n j Hj) as B. rewrite <- E in B.
  exact (one_bit_inj n i j _ Hi A B).
Qed.
Lemma march_members n k : In k (march n) <-> exists b, (b < 8 * n)%nat /\ one_bit n b k.
Proof.
  split.
  - intros H. apply (In_nth _ _ []) in H. destruct H as (b & Hb & <-). rewrite march_length in Hb.
    exists b. split; [exact Hb|]. apply march_one_bit. exact Hb.
  - intros (b & Hb & H). rewrite (one_bit_key n b k _ H (march_one_bit n b Hb)). apply nth_In. now rewrite march_length.
Qed.

(** ** Three-byte keys *)
Lemma triples_members n k : In k (triples n) <-> exists a b c, k = [a; b; c] /\ a < N.of_nat n /\ b < N.of_nat n /\ c < N.of_nat n.
Proof.
  unfold triples. rewrite in_flat_map. split.
  - intros (i & Hi & H). apply in_flat_map in H. destruct H as (j & Hj & H). apply in_map_iff in H.
    destruct H as (l & <- & Hl). apply in_seq in Hi. apply in_seq in Hj. apply in_seq in Hl.
    exists (N.of_nat i), (N.of_nat j), (N.of_nat l). repeat split; lia.
  - intros (a & b & c & -> & Ha & Hb & Hc). exists (N.to_nat a). split; [apply in_seq; lia|].
    apply in_flat_map. exists (N.to_nat b). split; [apply in_seq; lia|].
    apply in_map_iff. exists (N.to_nat c). split; [now rewrite !N2Nat.id|apply in_seq; lia].
Qed.
Lemma triples_length n : List.length (triples n) = (n * n * n)%nat.
Proof.
  unfold triples. rewrite flat_map_len with (c := (n * n)%nat); [lia|]. intros i.
  rewrite flat_map_len with (c := n); [lia|]. intros j. now rewrite map_length, seq_length.
Qed.
Lemma NoDup_flat_map {A B} (f : A -> list B) l : NoDup l -> (forall x, In x l -> NoDup (f x)) ->
  (forall x y z, In x l -> In y l -> In z (f x) -> In z (f y) -> x = y) -> NoDup (flat_map f l).
Proof.
  intros N. induction N as [|x l Hx N IH]; intros H1 H2; [constructor|]. cbn [flat_map].
  assert (IH' : NoDup (flat_map f l)).
  { apply IH; [intros; apply H1; right; assumption|]. intros a b z Ha Hb. apply H2; right; assumption. }
  assert (D : forall z, In z (f x) -> ~ In z (flat_map f l)).
  { intros z Hz Hz'. apply in_flat_map in Hz'. destruct Hz' as (y & Hy & Hz').
    apply Hx. rewrite (H2 x y z); auto; [left; reflexivity|right; exact Hy]. }
  assert (Nx : NoDup (f x)) by (apply H1; left; reflexivity).
  clear - IH' D Nx. induction Nx as [|a r Ha Nr IHr]; [exact IH'|]. cbn [app]. constructor.
  - rewrite in_app_iff. intros [Q|Q]; [exact (Ha Q)|]. exact (D a (or_introl eq_refl) Q).
  - apply IHr. intros z Hz. apply D. right. exact Hz.
Qed.
Lemma triples_nodup n : NoDup (triples n).
Proof.
  unfold triples. apply NoDup_flat_map; [apply seq_NoDup| |].
  - intros i _. apply NoDup_flat_map; [apply seq_NoDup| |].
    + intros j _. apply NoDup_map_in; [|apply seq_NoDup]. intros x y _ _ E.
      apply Nat2N.inj. congruence.
    + intros x y z _ _ Hx Hy. apply in_map_iff in Hx. apply in_map_iff in Hy.
      destruct Hx as (a & <- & _). destruct Hy as (b & E & _). apply Nat2N.inj. congruence.
  - intros x y z _ _ Hx Hy. apply in_flat_map in Hx. apply in_flat_map in Hy.
    destruct Hx as (a & _ & Hx). destruct Hy as (b & _ & Hy).
    apply in_map_iff in Hx. apply in_map_iff in Hy.
    destruct Hx as (a' & <- & _). destruct Hy as (b' & E & _). apply Nat2N.inj. congruence.
Qed.

(** ** Dups2 and the histogram *)
Lemma mem_add_in h m x : In x (mem_add h m) <-> x = h \/ In x m.
Proof.
  induction m as [|y m IH]; cbn [mem_add].
  - cbn. intuition.
  - destruct (N.eqb_spec y h) as [E|E]; cbn [In].
    + subst y. intuition.
    + rewrite IH. intuition.
Qed.
Lemma mem_add_nodup h m : NoDup m -> NoDup (mem_add h m).
Proof.
  induction 1 as [|y m Hy N IH]; cbn [mem_add].
  - constructor; [intros []|constructor].
  - destruct (N.eqb_spec y h) as [E|E]; constructor; auto.
    rewrite mem_add_in. intros [Q|Q]; [congruence|exact (Hy Q)].
Qed.
Lemma dups2_lemma hf ks : (dups2 hf ks + distinct (map hf ks) = List.length ks)%nat.
Proof.
  unfold dups2.
  assert (G : forall ks m, NoDup m -> NoDup (fold_left (fun m k => mem_add (hf k) m) ks m) /\
    forall x, In x (fold_left (fun m k => mem_add (hf k) m) ks m) <-> In x m \/ In x (map hf ks)).
  { clear. induction ks as [|k ks IH]; intros m N; cbn [fold_left map].
    - split; [exact N|]. cbn. intuition.
    - destruct (IH (mem_add (hf k) m) (mem_add_nodup _ _ N)) as [A B]. split; [exact A|].
      intros x. rewrite B, mem_add_in. cbn [In]. intuition. }
  destruct (G ks [] (NoDup_nil _)) as [A B]. unfold distinct.
  assert (E : List.length (fold_left (fun m k => mem_add (hf k) m) ks []) = List.length (nodup N.eq_dec (map hf ks))).
  { apply Nat.le_antisymm; apply NoDup_incl_length; try assumption; try apply NoDup_nodup; intros x Hx.
    - apply nodup_In. apply B in Hx. destruct Hx as [[]|Hx]; exact Hx.
    - apply B. right. apply nodup_In in Hx. exact Hx. }
  rewrite E.
  assert (L : (List.length (nodup N.eq_dec (map hf ks)) <= List.length ks)%nat).
  { rewrite <- (map_length hf ks). apply NoDup_incl_length; [apply NoDup_nodup|].
    intros x Hx. apply nodup_In in Hx. exact Hx. }
  lia.
Qed.
Lemma dups2_zero hf ks : NoDup ks -> dups2 hf ks = 0%nat <-> forall a b, In a ks -> In b ks -> hf a = hf b -> a = b.
Proof.
  intros N. pose proof (dups2_lemma hf ks) as D. unfold distinct in D. split.
  - intros Z a b Ia Ib E. rewrite Z in D.
    assert (ND : NoDup (map hf ks)).
    { apply NoDup_incl_NoDup with (l := nodup N.eq_dec (map hf ks)).
      - apply NoDup_nodup.
      - rewrite map_length. lia.
      - intros x Hx. apply nodup_In in Hx. exact Hx. }
    clear - ND Ia Ib E. revert ND Ia Ib E. induction ks as [|x l IH]; intros ND Ia Ib E; [destruct Ia|].
    cbn [map] in ND. apply NoDup_cons_iff in ND. destruct ND as [Hx ND].
    destruct Ia as [->|Ia], Ib as [->|Ib]; auto.
    + exfalso. apply Hx. rewrite E. apply in_map. exact Ib.
    + exfalso. apply Hx. rewrite <- E. apply in_map. exact Ia.
  - intros H. assert (ND : NoDup (map hf ks)).
    { apply NoDup_map_in; [|exact N]. intros a b Ha Hb E. apply H; assumption. }
    rewrite nodup_fixed_point in D by exact ND. rewrite map_length in D. lia.
Qed.
Lemma histogram_lemma hf n ks : (0 < n)%nat ->
  List.length (histogram hf n ks) = n /\
  forall j, (j < n)%nat -> nth j (histogram hf n ks) 0%nat =
     List.length (filter (fun k => hf k mod N.of_nat n =? N.of_nat j) ks).
Proof.
  intros Hn. unfold histogram.
  assert (G : forall ks h, List.length h = n ->
    List.length (fold_left (fun hist k => let j := N.to_nat (hf k mod N.of_nat n) in set_nth j (S (nth j hist 0%nat)) hist) ks h) = n /\
    forall j, (j < n)%nat -> nth j (fold_left (fun hist k => let j := N.to_nat (hf k mod N.of_nat n) in set_nth j (S (nth j hist 0%nat)) hist) ks h) 0%nat
      = Nat.add (nth j h 0%nat) (List.length (filter (fun k => hf k mod N.of_nat n =? N.of_nat j) ks))).
  { clear ks. induction ks as [|k ks IH]; intros h Hh; cbn [fold_left filter].
    - split; [exact Hh|]. intros j _. cbn [List.length]. lia.
    - cbv zeta. pose proof (N.mod_upper_bound (hf k) (N.of_nat n) ltac:(lia)) as U.
      destruct (IH (set_nth (N.to_nat (hf k mod N.of_nat n)) (S (nth (N.to_nat (hf k mod N.of_nat n)) h 0%nat)) h)) as [A B];
        [now rewrite set_nth_length|]. split; [exact A|]. intros j Hj. rewrite B by exact Hj.
      rewrite nth_set_nth by lia.
      destruct (Nat.eqb_spec j (N.to_nat (hf k mod N.of_nat n))) as [E|E].
      + replace (hf k mod N.of_nat n =? N.of_nat j) with true by (symmetry; apply N.eqb_eq; lia).
        subst j. cbn [List.length]. lia.
      + replace (hf k mod N.of_nat n =? N.of_nat j) with false by (symmetry; apply N.eqb_neq; lia). reflexivity. }
  destruct (G ks (repeat 0%nat n) (repeat_length _ _)) as [A B]. split; [exact A|].
  intros j Hj. rewrite B by exact Hj. rewrite nth_repeat. reflexivity.
Qed.
