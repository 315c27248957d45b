From Coq Require Import NArith ZArith List Arith String Bool Lia.
From Verif Require Import Words WordLemmas ListLemmas HashTableModel HtModel HtSpec HtProofs HtKeys SmhModel SmhSpec SmhProofs.
Import ListNotations.
Open Scope N_scope.
Open Scope list_scope.

(** ** Setting, clearing and flipping one bit *)
Definition mask (j : nat) : N := shlw 8 1 (N.land (N.of_nat j) 7).
Lemma mask_bit j t : t < 8 -> N.testbit (mask j) t = (t =? N.of_nat (j mod 8)).
Proof.
  intros H. unfold mask. rewrite land7, shl1_testbit. replace (t <? 8) with true by (symmetry; now apply N.ltb_lt).
  apply andb_true_r.
Qed.
Lemma mask_byte j : mask j < 256.
Proof. apply shlw_fits. Qed.
Definition setb (k : list N) (j : nat) : list N := set_nth (j / 8) (N.lor (nth (j / 8) k 0) (mask j)) k.
Definition clrb (k : list N) (j : nat) : list N := set_nth (j / 8) (N.land (nth (j / 8) k 0) (notw 8 (mask j))) k.
Definition flipb (k : list N) (j : nat) : list N := set_nth (j / 8) (N.lxor (nth (j / 8) k 0) (mask j)) k.
Lemma setb_spec k j : byte_string k -> (j < 8 * List.length k)%nat ->
  List.length (setb k j) = List.length k /\ byte_string (setb k j) /\
  forall i, bit (setb k j) i = if Nat.eqb i j then true else bit k i.
Proof.
  intros B L. unfold setb. apply (bit_update k j (fun _ => true)); auto.
  - apply (lor_fits 8); [now apply nth_byte|apply mask_byte].
  - intros t Ht. rewrite N.lor_spec, mask_bit by exact Ht. destruct (t =? N.of_nat (j mod 8)); [apply orb_true_r|apply orb_false_r].
Qed.
Lemma clrb_spec k j : byte_string k -> (j < 8 * List.length k)%nat ->
  List.length (clrb k j) = List.length k /\ byte_string (clrb k j) /\
  forall i, bit (clrb k j) i = if Nat.eqb i j then false else bit k i.
Proof.
  intros B L. unfold clrb. apply (bit_update k j (fun _ => false)); auto.
  - apply (land_fits_l 8). now apply nth_byte.
  - intros t Ht. unfold notw. rewrite N.land_spec, N.lxor_spec, mask_bit by exact Ht.
    rewrite N.ones_spec_low by exact Ht. destruct (t =? N.of_nat (j mod 8)); cbn [xorb]; [apply andb_false_r|apply andb_true_r].
Qed.
Lemma flipb_spec k j : byte_string k -> (j < 8 * List.length k)%nat -> flipped j k (flipb k j).
Proof.
  intros B L. unfold flipped, flipb. 
  destruct (bit_update k j negb B L (N.lxor (nth (j / 8) k 0) (mask j))) as (A1 & A2 & A3).
  - apply (xor_fits 8); [now apply nth_byte|apply mask_byte].
  - intros t Ht. rewrite N.lxor_spec, mask_bit by exact Ht.
    destruct (t =? N.of_nat (j mod 8)); [apply xorb_true_r|apply xorb_false_r].
  - split; [exact A1|]. split; [exact A2|]. intros i. rewrite A3. destruct (Nat.eqb_spec i j) as [->|]; reflexivity.
Qed.
Lemma flipped_fun j k a b : flipped j k a -> flipped j k b -> a = b.
Proof.
  intros (L1 & B1 & H1) (L2 & B2 & H2). apply bits_ext; auto; [congruence|]. intros i _. now rewrite H1, H2.
Qed.
Lemma flipped_sym j k a : byte_string k -> flipped j k a -> flipped j a k.
Proof.
  intros B (L1 & B1 & H1). split; [congruence|]. split; [exact B|]. intros i. rewrite !H1.
  destruct (Nat.eqb_spec i j) as [->|]; [|reflexivity]. now rewrite negb_involutive.
Qed.

(** ** Sparse keys *)
Fixpoint sparse_list (k : nat) (b : list N) (i : nat) : list (list N) :=
  b :: match k with
       | O => []
       | S k' => flat_map (fun j => sparse_list k' (setb b j) (S j)) (seq i (8 * List.length b - i))
       end.
Lemma setbits_eq k b i : byte_string b -> zero_from i b -> setbits k b i = (sparse_list k b i, b).
Proof.
  revert b i. induction k as [|k IH]; intros b i B Z; [reflexivity|]. cbn [setbits sparse_list].
  rewrite (Nat.mul_comm (List.length b) 8).
  rewrite each_same with (g := fun j => sparse_list k (setb b j) (S j)); [reflexivity|].
  intros j Hj. apply in_seq in Hj. fold (mask j). fold (setb b j).
  destruct (setb_spec b j B ltac:(lia)) as (L1 & B1 & H1).
  rewrite Nat.add_1_r. rewrite IH; [|exact B1|].
  - fold (clrb (setb b j) j). f_equal.
    destruct (clrb_spec (setb b j) j B1 ltac:(lia)) as (L2 & B2 & H2).
    apply bits_ext; auto; [congruence|]. intros t _. rewrite H2, H1. destruct (Nat.eqb_spec t j) as [->|]; [|reflexivity].
    symmetry. apply Z. lia.
  - intros t Ht. rewrite H1. destruct (Nat.eqb_spec t j); [lia|]. apply Z. lia.
Qed.
Lemma filter_first f i m : filter f (seq i m) = [] /\ (forall t, (i <= t < i + m)%nat -> f t = false) \/
  exists j, (i <= j < i + m)%nat /\ f j = true /\ (forall t, (i <= t < j)%nat -> f t = false) /\
    filter f (seq i m) = j :: filter f (seq (S j) (i + m - S j)).
Proof.
  revert i. induction m as [|m IH]; intros i.
  - left. split; [reflexivity|]. intros; lia.
  - cbn [seq filter]. destruct (f i) eqn:E.
    + right. exists i. split; [lia|]. split; [exact E|]. split; [intros; lia|]. now replace (i + S m - S i)%nat with m by lia.
    + destruct (IH (S i)) as [[A B]|(j & A & B & C & D)].
      * left. split; [exact A|]. intros t Ht. destruct (Nat.eq_dec t i) as [->|]; [exact E|]. apply B. lia.
      * right. exists j. split; [lia|]. split; [exact B|]. split.
        -- intros t Ht. destruct (Nat.eq_dec t i) as [->|]; [exact E|]. apply C. lia.
        -- rewrite D. now replace (S i + m - S j)%nat with (i + S m - S j)%nat by lia.
Qed.
Lemma filter_none {A} (f : A -> bool) l : (forall x, In x l -> f x = false) -> filter f l = [].
Proof.
  induction l as [|x l IH]; intros H; [reflexivity|]. cbn [filter]. rewrite (H x (or_introl eq_refl)).
  apply IH. intros y Hy. apply H. now right.
Qed.
(** The members: bits below [i] as in [b], at most [k] more from [i] on. *)
Lemma ones_from_0 k : (List.length (ones_from 0 k) = List.length (filter (bit k) (seq 0 (8 * List.length k))))%nat.
Proof. unfold ones_from. now rewrite Nat.sub_0_r. Qed.
Lemma sparse_in k b i y : byte_string b -> zero_from i b -> (i <= 8 * List.length b)%nat ->
  In y (sparse_list k b i) <->
  List.length y = List.length b /\ byte_string y /\ same_below i b y /\ (List.length (ones_from i y) <= k)%nat.
Proof.
  revert b i y. induction k as [|k IH]; intros b i y B Z Li.
  - cbn [sparse_list In]. split.
    + intros [<-|[]]. split; [reflexivity|]. split; [exact B|]. split; [intros j _; reflexivity|].
      unfold ones_from. rewrite filter_none; [cbn; lia|]. intros t Ht. apply in_seq in Ht. apply Z. lia.
    + intros (L & By & SB & O). left. apply bits_ext; auto. intros j Hj.
      destruct (Nat.lt_ge_cases j i) as [C|C]; [symmetry; now apply SB|]. rewrite Z by exact C.
      unfold ones_from in O. destruct (bit y j) eqn:E; [|reflexivity]. exfalso.
      assert (I : In j (filter (bit y) (seq i (8 * List.length y - i)))) by (apply filter_In; split; [apply in_seq; lia|exact E]).
      destruct (filter (bit y) (seq i (8 * List.length y - i))); [destruct I|cbn in O; lia].
  - cbn [sparse_list In]. rewrite in_flat_map. split.
    + intros [<-|(j & Hj & Iy)].
      * split; [reflexivity|]. split; [exact B|]. split; [intros j _; reflexivity|].
        unfold ones_from. rewrite filter_none; [cbn; lia|]. intros t Ht. apply in_seq in Ht. apply Z. lia.
      * apply in_seq in Hj. destruct (setb_spec b j B ltac:(lia)) as (L1 & B1 & H1).
        apply IH in Iy; [|exact B1| |lia].
        2:{ intros t Ht. rewrite H1. destruct (Nat.eqb_spec t j); [lia|]. apply Z. lia. }
        destruct Iy as (L & By & SB & O). split; [congruence|]. split; [exact By|]. split.
        -- intros t Ht. rewrite SB by lia. rewrite H1. destruct (Nat.eqb_spec t j); [lia|reflexivity].
        -- unfold ones_from in *. destruct (filter_first (bit y) i (8 * List.length y - i)) as [[E _]|(j' & A & Bj & C & D)].
           ++ rewrite E. cbn. lia.
           ++ rewrite D. cbn [List.length].
              assert (Ej : j' = j).
              { destruct (Nat.lt_trichotomy j' j) as [Q|[Q|Q]]; [|exact Q|].
                - rewrite SB in Bj by lia. rewrite H1 in Bj. destruct (Nat.eqb_spec j' j); [lia|]. rewrite Z in Bj by lia. discriminate.
                - assert (bit y j = false) as F by (apply C; lia). rewrite SB in F by lia. rewrite H1, Nat.eqb_refl in F. discriminate. }
              subst j'. replace (i + (8 * List.length y - i) - S j)%nat with (8 * List.length y - S j)%nat by lia. lia.
    + intros (L & By & SB & O). unfold ones_from in O.
      destruct (filter_first (bit y) i (8 * List.length y - i)) as [[E F]|(j & A & Bj & C & D)].
      * left. apply bits_ext; auto. intros j Hj.
        destruct (Nat.lt_ge_cases j i) as [Q|Q]; [symmetry; now apply SB|]. rewrite Z by exact Q. symmetry. apply F. lia.
      * right. exists j. split; [apply in_seq; lia|].
        destruct (setb_spec b j B ltac:(lia)) as (L1 & B1 & H1). apply IH; [exact B1| |lia|].
        -- intros t Ht. rewrite H1. destruct (Nat.eqb_spec t j); [lia|]. apply Z. lia.
        -- split; [congruence|]. split; [exact By|]. split.
           ++ intros t Ht. rewrite H1. destruct (Nat.eqb_spec t j) as [->|]; [exact Bj|].
              destruct (Nat.lt_ge_cases t i) as [Q|Q]; [now apply SB|]. rewrite Z by exact Q. apply C. lia.
           ++ unfold ones_from. rewrite D in O. cbn [List.length] in O.
              replace (i + (8 * List.length y - i) - S j)%nat with (8 * List.length y - S j)%nat in O by lia. lia.
Qed.
Lemma sparse_nodup k b i : byte_string b -> zero_from i b -> (i <= 8 * List.length b)%nat -> NoDup (sparse_list k b i).
Proof.
  revert b i. induction k as [|k IH]; intros b i B Z Li; cbn [sparse_list].
  - constructor; [intros []|constructor].
  - assert (M : forall j y, In j (seq i (8 * List.length b - i)) -> In y (sparse_list k (setb b j) (S j)) ->
      bit y j = true /\ forall t, (i <= t < j)%nat -> bit y t = false).
    { intros j y Hj Iy. apply in_seq in Hj. destruct (setb_spec b j B ltac:(lia)) as (L1 & B1 & H1).
      apply sparse_in in Iy; [|exact B1| |lia].
      2:{ intros t Ht. rewrite H1. destruct (Nat.eqb_spec t j); [lia|]. apply Z. lia. }
      destruct Iy as (_ & _ & SB & _). split.
      - rewrite SB by lia. now rewrite H1, Nat.eqb_refl.
      - intros t Ht. rewrite SB by lia. rewrite H1. destruct (Nat.eqb_spec t j); [lia|]. apply Z. lia. }
    constructor.
    + intros I. apply in_flat_map in I. destruct I as (j & Hj & Ib). destruct (M j b Hj Ib) as [T _].
      apply in_seq in Hj. rewrite Z in T by lia. discriminate.
    + apply NoDup_flat_map; [apply seq_NoDup| |].
      * intros j Hj. apply in_seq in Hj. destruct (setb_spec b j B ltac:(lia)) as (L1 & B1 & H1). apply IH; [exact B1| |lia].
        intros t Ht. rewrite H1. destruct (Nat.eqb_spec t j); [lia|]. apply Z. lia.
      * intros x y z Hx Hy Ix Iy. destruct (M x z Hx Ix) as [T1 F1]. destruct (M y z Hy Iy) as [T2 F2].
        apply in_seq in Hx. apply in_seq in Hy.
        destruct (Nat.lt_trichotomy x y) as [Q|[Q|Q]]; [|exact Q|].
        -- rewrite F2 in T1 by lia. discriminate.
        -- rewrite F1 in T2 by lia. discriminate.
Qed.
(** The number of keys: one more than the prefix sums, [k] times over. *)
Fixpoint sparse_count (k m : nat) : N :=
  match k with
  | O => 1
  | S k' => 1 + fold_right N.add 0 (map (fun j => sparse_count k' j) (seq 0 m))
  end.
Lemma flat_map_length' {A B} (f : A -> list B) l : N.of_nat (List.length (flat_map f l)) = fold_right N.add 0 (map (fun x => N.of_nat (List.length (f x))) l).
Proof. induction l as [|x l IH]; [reflexivity|]. cbn [flat_map map fold_right]. rewrite app_length, Nat2N.inj_add. now rewrite IH. Qed.
Lemma sum_rev (g : nat -> N) m : fold_right N.add 0 (map (fun t => g (m - S t)%nat) (seq 0 m)) = fold_right N.add 0 (map g (seq 0 m)).
Proof.
  assert (S : forall l, fold_right N.add 0 (rev l) = fold_right N.add 0 l).
  { induction l as [|x l IH]; [reflexivity|]. cbn [rev fold_right]. rewrite fold_right_app. cbn [fold_right].
    rewrite <- IH. generalize (rev l). clear. induction l as [|y l IH]; cbn [fold_right]; [lia|]. rewrite IH. lia. }
  rewrite <- (S (map g (seq 0 m))). f_equal. rewrite <- map_rev.
  rewrite <- (map_map (fun t => (m - Datatypes.S t)%nat) g). f_equal.
  apply nth_ext with (d := 0%nat) (d' := 0%nat).
  - now rewrite map_length, rev_length, !seq_length.
  - intros n Hn. rewrite map_length, seq_length in Hn.
    rewrite rev_nth by now rewrite seq_length. rewrite seq_length, seq_nth by lia.
    rewrite (nth_indep _ 0%nat (m - Datatypes.S 0)%nat) by now rewrite map_length, seq_length.
    rewrite (map_nth (fun t => (m - Datatypes.S t)%nat)), seq_nth by lia. lia.
Qed.
Lemma sparse_length k b i : N.of_nat (List.length (sparse_list k b i)) = sparse_count k (8 * List.length b - i).
Proof.
  revert b i. induction k as [|k IH]; intros b i; cbn [sparse_list sparse_count]; [reflexivity|].
  cbn [List.length]. rewrite Nat2N.inj_succ, flat_map_length'. rewrite <- N.add_1_l. f_equal.
  rewrite <- (sum_rev (sparse_count k)). f_equal.
  assert (Q : forall m s, seq s m = map (fun t => (s + t)%nat) (seq 0 m)).
  { induction m as [|m IHm]; intros s; [reflexivity|]. cbn [seq map]. rewrite Nat.add_0_r. f_equal.
    rewrite (IHm (S s)), (IHm 1%nat), map_map. apply map_ext. intros; lia. }
  rewrite (Q _ i), map_map. apply map_ext. intros t. rewrite IH. unfold setb. rewrite HtProofs.set_nth_length. f_equal. lia.
Qed.
Lemma sparse_counts : forallb (fun '(n, k) => sparse_count k (8 * (n / 8)) <=? 2 ^ 27) sparse_pairs = true.
Proof. vm_compute. reflexivity. Qed.
