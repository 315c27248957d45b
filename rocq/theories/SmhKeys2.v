From Coq Require Import NArith ZArith List Arith String Bool Lia.
From Verif Require Import Words WordLemmas ListLemmas HashTableModel HtModel HtSpec HtProofs HtKeys SmhModel SmhSpec SmhProofs SmhBits SmhKeys.
Import ListNotations.
Open Scope N_scope.
Open Scope list_scope.

(** ** At most two bytes that are not zero *)
Lemma set_nth_restore (b : list N) j x : (j < List.length b)%nat -> set_nth j (nth j b 0) (set_nth j x b) = b.
Proof.
  revert j. induction b as [|c b IH]; intros [|j] H; cbn [List.length] in H; try lia; cbn [set_nth nth]; [reflexivity|].
  rewrite IH by lia. reflexivity.
Qed.
Definition ones_keys (n : nat) : list (list N) :=
  flat_map (fun i => flat_map (fun x => [set_nth i (N.of_nat x) (zeros n)]) (seq 1 255)) (seq 0 n).
Definition twos_keys (n : nat) : list (list N) :=
  flat_map (fun i => flat_map (fun x => flat_map (fun j => flat_map (fun y =>
    [set_nth j (N.of_nat y) (set_nth i (N.of_nat x) (zeros n))]) (seq 1 255)) (seq (i + 1) (n - (i + 1)))) (seq 1 255)) (seq 0 n).
Lemma wrap_byte x : In x (seq 1 255) -> wrap 8 (N.of_nat x) = N.of_nat x.
Proof. intros H. apply in_seq in H. apply wrap_small. red. change (2 ^ 8) with 256. lia. Qed.
Lemma twoNonZero_eq n : twoNonZero n = (zeros n :: ones_keys n ++ twos_keys n, zeros n).
Proof.
  unfold twoNonZero. fold (zeros n). cbv zeta.
  assert (L : List.length (zeros n) = n) by apply repeat_length.
  assert (E1 : one_pass n (zeros n) = (ones_keys n, zeros n)).
  { unfold one_pass, ones_keys. apply each_same. intros i Hi. apply in_seq in Hi.
    apply each_same. intros x Hx. rewrite wrap_byte by exact Hx. rewrite set_nth_zeros by lia. reflexivity. }
  rewrite E1.
  assert (E2 : two_pass n (zeros n) = (twos_keys n, zeros n)).
  { unfold two_pass, twos_keys. apply each_same. intros i Hi. apply in_seq in Hi.
    apply each_same. intros x Hx. rewrite wrap_byte by exact Hx.
    rewrite each_same with (g := fun j => flat_map (fun y => [set_nth j (N.of_nat y) (set_nth i (N.of_nat x) (zeros n))]) (seq 1 255)).
    - rewrite set_nth_zeros by lia. reflexivity.
    - intros j Hj. apply in_seq in Hj. apply each_same. intros y Hy. rewrite wrap_byte by exact Hy.
      f_equal. replace 0 with (nth j (set_nth i (N.of_nat x) (zeros n)) 0) at 1.
      + apply set_nth_restore. rewrite HtProofs.set_nth_length. lia.
      + rewrite nth_set_nth by lia. destruct (Nat.eqb_spec j i); [lia|]. apply nth_zeros. }
  now rewrite E2.
Qed.
Lemma nonzero_zeros n : nonzero (zeros n) = [].
Proof. unfold zeros. induction n; [reflexivity|]. cbn [repeat nonzero filter]. exact IHn. Qed.
Lemma nonzero_app a b : nonzero (a ++ b) = nonzero a ++ nonzero b.
Proof. apply filter_app. Qed.
Lemma zeros_split n i : (i < n)%nat -> zeros n = zeros i ++ 0 :: zeros (n - i - 1).
Proof.
  intros H. unfold zeros. replace n with (i + S (n - i - 1))%nat at 1 by lia. now rewrite repeat_app.
Qed.
Lemma one_key n i x : (i < n)%nat -> set_nth i x (zeros n) = zeros i ++ x :: zeros (n - i - 1).
Proof. intros H. rewrite (zeros_split n i H). apply set_nth_at. unfold zeros. now rewrite repeat_length. Qed.
Lemma two_key n i j x y : (i < j < n)%nat -> set_nth j y (set_nth i x (zeros n)) =
  zeros i ++ x :: zeros (j - i - 1) ++ y :: zeros (n - j - 1).
Proof.
  intros H. rewrite one_key by lia. rewrite (zeros_split (n - i - 1) (j - i - 1)) by lia.
  replace (n - i - 1 - (j - i - 1) - 1)%nat with (n - j - 1)%nat by lia.
  replace (zeros i ++ x :: zeros (j - i - 1) ++ 0 :: zeros (n - j - 1)) with ((zeros i ++ x :: zeros (j - i - 1)) ++ 0 :: zeros (n - j - 1))
    by (rewrite <- app_assoc; reflexivity).
  rewrite set_nth_at; [rewrite <- app_assoc; reflexivity|].
  rewrite app_length. unfold zeros. cbn [List.length]. rewrite !repeat_length. lia.
Qed.
Lemma nonzero_cons x k : x <> 0 -> nonzero (x :: k) = x :: nonzero k.
Proof. intros H. unfold nonzero. cbn [filter]. destruct (N.eqb_spec x 0); [contradiction|reflexivity]. Qed.
Lemma nonzero_nil k : nonzero k = [] -> k = zeros (List.length k).
Proof.
  induction k as [|c k IH]; intros H; [reflexivity|]. unfold nonzero in H. cbn [filter] in H.
  destruct (N.eqb_spec c 0) as [->|]; [|discriminate]. cbn [negb] in H. unfold zeros. cbn [List.length repeat]. f_equal. now apply IH.
Qed.
Lemma nonzero_first k x l : nonzero k = x :: l -> x <> 0 /\ exists i r, k = zeros i ++ x :: r /\ nonzero r = l.
Proof.
  induction k as [|c k IH]; intros H; [discriminate|]. unfold nonzero in H. cbn [filter] in H.
  destruct (N.eqb_spec c 0) as [->|C]; cbn [negb] in H.
  - destruct (IH H) as (Hx & i & r & -> & E). split; [exact Hx|]. exists (S i), r. auto.
  - injection H as <- <-. split; [exact C|]. exists 0%nat, k. auto.
Qed.
Lemma ones_in n k : In k (ones_keys n) <-> exists i x, (i < n)%nat /\ 1 <= x < 256 /\ k = set_nth i x (zeros n).
Proof.
  unfold ones_keys. rewrite in_flat_map. split.
  - intros (i & Hi & H). apply in_flat_map in H. destruct H as (x & Hx & [<-|[]]). apply in_seq in Hi. apply in_seq in Hx.
    exists i, (N.of_nat x). repeat split; lia.
  - intros (i & x & Hi & Hx & ->). exists i. split; [apply in_seq; lia|]. apply in_flat_map. exists (N.to_nat x).
    split; [apply in_seq; lia|]. left. now rewrite N2Nat.id.
Qed.
Lemma twos_in n k : In k (twos_keys n) <-> exists i j x y, (i < j < n)%nat /\ 1 <= x < 256 /\ 1 <= y < 256 /\
  k = set_nth j y (set_nth i x (zeros n)).
Proof.
  unfold twos_keys. rewrite in_flat_map. split.
  - intros (i & Hi & H). apply in_flat_map in H. destruct H as (x & Hx & H). apply in_flat_map in H. destruct H as (j & Hj & H).
    apply in_flat_map in H. destruct H as (y & Hy & [<-|[]]). apply in_seq in Hi. apply in_seq in Hx. apply in_seq in Hj. apply in_seq in Hy.
    exists i, j, (N.of_nat x), (N.of_nat y). repeat split; lia.
  - intros (i & j & x & y & Hi & Hx & Hy & ->). exists i. split; [apply in_seq; lia|]. apply in_flat_map. exists (N.to_nat x).
    split; [apply in_seq; lia|]. apply in_flat_map. exists j. split; [apply in_seq; lia|]. apply in_flat_map. exists (N.to_nat y).
    split; [apply in_seq; lia|]. left. now rewrite !N2Nat.id.
Qed.
Lemma nth_one n i x t : (i < n)%nat -> nth t (set_nth i x (zeros n)) 0 = if Nat.eqb t i then x else 0.
Proof. intros H. rewrite nth_set_nth by (unfold zeros; now rewrite repeat_length). now rewrite nth_zeros. Qed.
Lemma nth_two n i j x y t : (i < j < n)%nat -> nth t (set_nth j y (set_nth i x (zeros n))) 0 =
  if Nat.eqb t j then y else if Nat.eqb t i then x else 0.
Proof.
  intros H. rewrite nth_set_nth by (rewrite HtProofs.set_nth_length; unfold zeros; rewrite repeat_length; lia). now rewrite nth_one by lia.
Qed.
Lemma zeros_bytes n : byte_string (zeros n).
Proof. unfold zeros. induction n; constructor; auto. reflexivity. Qed.
Lemma twoNonZero_enum n : enumerates (fst (twoNonZero n))
  (fun k => List.length k = n /\ byte_string k /\ (List.length (nonzero k) <= 2)%nat).
Proof.
  rewrite twoNonZero_eq. cbn [fst]. 
  assert (Z1 : forall k, In k (ones_keys n) -> List.length (nonzero k) = 1%nat).
  { intros k H. apply ones_in in H. destruct H as (i & x & Hi & Hx & ->). rewrite one_key by exact Hi.
    rewrite nonzero_app, nonzero_cons by lia. now rewrite !nonzero_zeros. }
  assert (Z2 : forall k, In k (twos_keys n) -> List.length (nonzero k) = 2%nat).
  { intros k H. apply twos_in in H. destruct H as (i & j & x & y & Hi & Hx & Hy & ->). rewrite two_key by exact Hi.
    rewrite nonzero_app, nonzero_cons by lia. rewrite nonzero_app, nonzero_cons by lia. now rewrite !nonzero_zeros. }
  split.
  - constructor.
    + rewrite in_app_iff. intros [I|I]; [apply Z1 in I|apply Z2 in I]; rewrite nonzero_zeros in I; discriminate.
    + apply NoDup_app'.
      * unfold ones_keys. apply NoDup_flat_map; [apply seq_NoDup| |].
        -- intros i Hi. apply in_seq in Hi. apply NoDup_flat_map; [apply seq_NoDup|intros; constructor; [intros []|constructor]|].
           intros x y z _ _ [<-|[]] [E|[]]. apply (f_equal (fun l => nth i l 0)) in E.
           rewrite !nth_one, Nat.eqb_refl in E by lia. now apply Nat2N.inj in E.
        -- intros i i' z Hi Hi' H H'. apply in_flat_map in H. apply in_flat_map in H'.
           destruct H as (x & Hx & [<-|[]]). destruct H' as (x' & Hx' & [E|[]]).
           apply in_seq in Hi. apply in_seq in Hi'. apply in_seq in Hx. apply in_seq in Hx'.
           apply (f_equal (fun l => nth i l 0)) in E. rewrite !nth_one, Nat.eqb_refl in E by lia.
           destruct (Nat.eqb_spec i i'); [assumption|lia].
      * unfold twos_keys. apply NoDup_flat_map; [apply seq_NoDup| |].
        -- intros i Hi. apply in_seq in Hi. apply NoDup_flat_map; [apply seq_NoDup| |].
           ++ intros x Hx. apply NoDup_flat_map; [apply seq_NoDup| |].
              ** intros j Hj. apply in_seq in Hj. apply NoDup_flat_map; [apply seq_NoDup|intros; constructor; [intros []|constructor]|].
                 intros y y' z _ _ [<-|[]] [E|[]]. apply (f_equal (fun l => nth j l 0)) in E.
                 rewrite !nth_two, Nat.eqb_refl in E by lia. now apply Nat2N.inj in E.
              ** intros j j' z Hj Hj' H H'. apply in_flat_map in H. apply in_flat_map in H'.
                 destruct H as (y & Hy & [<-|[]]). destruct H' as (y' & Hy' & [E|[]]).
                 apply in_seq in Hj. apply in_seq in Hj'. apply in_seq in Hy. apply in_seq in Hy'.
                 apply (f_equal (fun l => nth j l 0)) in E. rewrite !nth_two, Nat.eqb_refl in E by lia.
                 destruct (Nat.eqb_spec j j'); [assumption|]. destruct (Nat.eqb_spec j i); lia.
           ++ intros x x' z Hx Hx' H H'. apply in_flat_map in H. apply in_flat_map in H'.
              destruct H as (j & Hj & H). destruct H' as (j' & Hj' & H').
              apply in_flat_map in H. apply in_flat_map in H'.
              destruct H as (y & Hy & [<-|[]]). destruct H' as (y' & Hy' & [E|[]]).
              apply in_seq in Hj. apply in_seq in Hj'.
              apply (f_equal (fun l => nth i l 0)) in E. rewrite !nth_two, Nat.eqb_refl in E by lia.
              destruct (Nat.eqb_spec i j), (Nat.eqb_spec i j'); try lia. 
        -- intros i i' z Hi Hi' H H'. apply in_flat_map in H. apply in_flat_map in H'.
           destruct H as (x & Hx & H). destruct H' as (x' & Hx' & H'). apply in_flat_map in H. apply in_flat_map in H'.
           destruct H as (j & Hj & H). destruct H' as (j' & Hj' & H'). apply in_flat_map in H. apply in_flat_map in H'.
           destruct H as (y & Hy & [<-|[]]). destruct H' as (y' & Hy' & [E|[]]).
           apply in_seq in Hi. apply in_seq in Hi'. apply in_seq in Hj. apply in_seq in Hj'. apply in_seq in Hx. apply in_seq in Hx'.
           pose proof (f_equal (fun l => nth i l 0) E) as E1. pose proof (f_equal (fun l => nth i' l 0) E) as E2. cbv beta in E1, E2.
           rewrite !nth_two, Nat.eqb_refl in E1 by lia. rewrite !nth_two, Nat.eqb_refl in E2 by lia.
           destruct (Nat.eqb_spec i i') as [|Q]; [assumption|]. exfalso.
           destruct (Nat.eqb_spec i j), (Nat.eqb_spec i j'), (Nat.eqb_spec i' j), (Nat.eqb_spec i' j'), (Nat.eqb_spec i' i); lia.
      * intros z H1 H2. apply Z1 in H1. apply Z2 in H2. congruence.
  - intros k. cbn [In]. rewrite in_app_iff. split.
    + intros [<-|[H|H]].
      * split; [apply repeat_length|]. split; [apply zeros_bytes|]. rewrite nonzero_zeros. cbn. lia.
      * pose proof (Z1 k H). apply ones_in in H. destruct H as (i & x & Hi & Hx & ->).
        split; [rewrite HtProofs.set_nth_length; apply repeat_length|]. split; [apply set_nth_bytes; [apply zeros_bytes|lia]|lia].
      * pose proof (Z2 k H). apply twos_in in H. destruct H as (i & j & x & y & Hi & Hx & Hy & ->).
        split; [rewrite !HtProofs.set_nth_length; apply repeat_length|].
        split; [repeat apply set_nth_bytes; [apply zeros_bytes|lia|lia]|lia].
    + intros (L & B & C). destruct (nonzero k) as [|x [|y [|]]] eqn:E; cbn [List.length] in C; try lia.
      * left. apply nonzero_nil in E. rewrite L in E. now symmetry.
      * right. left. apply nonzero_first in E. destruct E as (Hx & i & r & -> & E). apply nonzero_nil in E.
        apply Forall_app in B. destruct B as [_ B]. apply Forall_cons_iff in B. destruct B as [Bx _].
        rewrite app_length in L. unfold zeros in L. cbn [List.length] in L. rewrite repeat_length in L.
        apply ones_in. exists i, x. split; [lia|]. split; [lia|]. rewrite one_key by lia. rewrite E. do 3 f_equal. lia.
      * right. right. apply nonzero_first in E. destruct E as (Hx & i & r & -> & E).
        apply nonzero_first in E. destruct E as (Hy & j & r' & -> & E). apply nonzero_nil in E.
        apply Forall_app in B. destruct B as [_ B]. apply Forall_cons_iff in B. destruct B as [Bx B].
        apply Forall_app in B. destruct B as [_ B]. apply Forall_cons_iff in B. destruct B as [By _].
        rewrite app_length in L. unfold zeros in L. cbn [List.length] in L. rewrite app_length in L. cbn [List.length] in L. rewrite !repeat_length in L.
        apply twos_in. exists i, (i + 1 + j)%nat, x, y. split; [lia|]. split; [lia|]. split; [lia|].
        rewrite two_key by lia. rewrite E. replace (i + 1 + j - i - 1)%nat with j by lia.
        do 5 f_equal. lia.
Qed.
Lemma twoNonZero_length n : (n <= 16)%nat -> N.of_nat (List.length (fst (twoNonZero n))) <= 1 + 16 * 255 + 120 * 65025.
Proof.
  intros H. rewrite twoNonZero_eq. cbn [fst List.length]. rewrite Nat2N.inj_succ, app_length, Nat2N.inj_add.
  assert (E1 : N.of_nat (List.length (ones_keys n)) = N.of_nat n * 255).
  { unfold ones_keys. rewrite flat_map_len_N with (c := 255); [now rewrite seq_length|].
    intros i _. rewrite flat_map_len_N with (c := 1); [now rewrite seq_length|reflexivity]. }
  assert (E2 : N.of_nat (List.length (twos_keys n)) <= 120 * 65025).
  { unfold twos_keys. rewrite flat_map_length'.
    assert (M : map (fun i => N.of_nat (List.length (flat_map (fun x => flat_map (fun j => flat_map (fun y =>
      [set_nth j (N.of_nat y) (set_nth i (N.of_nat x) (zeros n))]) (seq 1 255)) (seq (i + 1) (n - (i + 1)))) (seq 1 255)))) (seq 0 n)
      = map (fun i => 255 * (N.of_nat (n - (i + 1)) * 255)) (seq 0 n)).
    { apply map_ext. intros i. rewrite flat_map_len_N with (c := N.of_nat (n - (i + 1)) * 255); [now rewrite seq_length|].
      intros x _. rewrite flat_map_len_N with (c := 255); [now rewrite seq_length|].
      intros j _. rewrite flat_map_len_N with (c := 1); [now rewrite seq_length|reflexivity]. }
    rewrite M. clear M E1. do 17 (destruct n as [|n]; [vm_compute; discriminate|]). lia. }
  rewrite E1. lia.
Qed.
Lemma two_all_length : (List.length (flat_map (fun n => fst (twoNonZero n)) (seq 2 15)) <= 2 ^ 27)%nat.
Proof.
  assert (G : forall l, Forall (fun n => n <= 16)%nat l ->
    N.of_nat (List.length (flat_map (fun n => fst (twoNonZero n)) l)) <= N.of_nat (List.length l) * (1 + 16 * 255 + 120 * 65025)).
  { induction l as [|n l IH]; intros F; [cbn; lia|]. apply Forall_cons_iff in F. destruct F as [Fn F].
    cbn [flat_map List.length]. rewrite app_length. pose proof (twoNonZero_length n Fn). specialize (IH F). lia. }
  assert (F : Forall (fun n => n <= 16)%nat (seq 2 15)) by (apply Forall_forall; intros n Hn; apply in_seq in Hn; lia).
  specialize (G _ F). rewrite seq_length in G. assert (Q : N.of_nat (2 ^ 27) = 134217728) by (rewrite Nat2N.inj_pow; reflexivity). lia.
Qed.
Lemma two_all_enum : enumerates (flat_map (fun n => fst (twoNonZero n)) (seq 2 15))
  (fun k => (2 <= List.length k <= 16)%nat /\ byte_string k /\ (List.length (nonzero k) <= 2)%nat).
Proof.
  split.
  - apply NoDup_flat_map; [apply seq_NoDup|intros n _; apply twoNonZero_enum|].
    intros n m z _ _ H1 H2. apply twoNonZero_enum in H1. apply twoNonZero_enum in H2. destruct H1 as [<- _]. tauto.
  - intros k. rewrite in_flat_map. split.
    + intros (n & Hn & H). apply in_seq in Hn. apply twoNonZero_enum in H. split; [lia|tauto].
    + intros (L & R). exists (List.length k). split; [apply in_seq; lia|]. apply twoNonZero_enum. tauto.
Qed.

(** ** Block sequences *)
Lemma block_store v : [wrap 8 v; wrap 8 (shr v 8); wrap 8 (shr v 16); wrap 8 (shr v 24)] = block v.
Proof.
  unfold block, shr. rewrite !wrap_mod, !N.shiftr_div_pow2. reflexivity.
Qed.
Fixpoint perm_list (f : nat) (p s : list N) : list (list N) :=
  p :: match f with O => [] | S f => flat_map (fun v => perm_list f (p ++ block v) s) s end.
Lemma genPerm_eq f : forall b s n, List.length b = (n + 4 * f)%nat ->
  exists b', genPerm f b s n = Some (perm_list f (firstn n b) s, b') /\ List.length b' = List.length b /\ firstn n b' = firstn n b.
Proof.
  induction f as [|f IH]; intros b s n L; cbn [genPerm perm_list].
  - replace (Nat.eqb n (List.length b)) with true by (symmetry; apply Nat.eqb_eq; lia). eauto.
  - replace (Nat.eqb n (List.length b)) with false by (symmetry; apply Nat.eqb_neq; lia).
    set (p := firstn n b).
    match goal with |- context [each_opt ?g s b] => set (body := g) end.
    assert (G : forall l b, List.length b = (n + 4 * S f)%nat -> firstn n b = p ->
      exists b', each_opt body l b = Some (flat_map (fun v => perm_list f (p ++ block v) s) l, b') /\
        List.length b' = (n + 4 * S f)%nat /\ firstn n b' = p).
    { clearbody p. clear b L. induction l as [|v l IHl]; intros b L E.
      - exists b. auto.
      - cbn [each_opt flat_map]. unfold body at 1. replace (Nat.leb (n + 4) (List.length b)) with true by (symmetry; apply Nat.leb_le; lia).
        assert (Hb : exists a0 a1 a2 a3 r, b = p ++ a0 :: a1 :: a2 :: a3 :: r /\ List.length p = n).
        { assert (Ln : List.length p = n) by (rewrite <- E, firstn_length; lia).
          pose proof (firstn_skipn n b) as Q. rewrite E in Q.
          assert (Ls : (4 <= List.length (skipn n b))%nat) by (rewrite skipn_length; lia).
          destruct (skipn n b) as [|a0 [|a1 [|a2 [|a3 r]]]]; cbn [List.length] in Ls; try lia. exists a0, a1, a2, a3, r. auto. }
        destruct Hb as (a0 & a1 & a2 & a3 & r & -> & Lp).
        set (b4 := set_nth (n + 3) _ _).
        assert (E4 : b4 = (p ++ block v) ++ r).
        { unfold b4. rewrite (set_nth_at p) by auto.
          replace (p ++ wrap 8 v :: a1 :: a2 :: a3 :: r) with ((p ++ [wrap 8 v]) ++ a1 :: a2 :: a3 :: r) by (rewrite <- app_assoc; reflexivity).
          rewrite set_nth_at by (rewrite app_length; cbn; lia).
          replace ((p ++ [wrap 8 v]) ++ wrap 8 (shr v 8) :: a2 :: a3 :: r) with ((p ++ [wrap 8 v; wrap 8 (shr v 8)]) ++ a2 :: a3 :: r) by (rewrite <- !app_assoc; reflexivity).
          rewrite set_nth_at by (rewrite app_length; cbn; lia).
          replace ((p ++ [wrap 8 v; wrap 8 (shr v 8)]) ++ wrap 8 (shr v 16) :: a3 :: r) with ((p ++ [wrap 8 v; wrap 8 (shr v 8); wrap 8 (shr v 16)]) ++ a3 :: r) by (rewrite <- !app_assoc; reflexivity).
          rewrite set_nth_at by (rewrite app_length; cbn; lia).
          rewrite <- block_store, <- !app_assoc. reflexivity. }
        assert (L4 : List.length b4 = (n + 4 + 4 * f)%nat).
        { rewrite E4. rewrite !app_length in *. cbn [List.length block] in *. lia. }
        destruct (IH b4 s (n + 4)%nat L4) as (b' & Q1 & Q2 & Q3). rewrite Q1.
        assert (F4 : firstn (n + 4) b4 = p ++ block v).
        { rewrite E4. apply firstn_app_exact. rewrite app_length. cbn. lia. }
        rewrite F4 in Q1, Q3 |- *.
        destruct (IHl b') as (b'' & R1 & R2 & R3); [lia| |].
        + replace n with (Nat.min n (n + 4)) by lia. rewrite <- firstn_firstn, Q3. now rewrite firstn_app_exact.
        + exists b''. rewrite R1. auto. }
    destruct (G s b L eq_refl) as (b' & E1 & E2 & E3). exists b'. rewrite E1. cbn [option_map]. rewrite E2. auto.
Qed.
Lemma perm_in f : forall p s k, In k (perm_list f p s) <->
  exists vs, (List.length vs <= f)%nat /\ incl vs s /\ k = p ++ flat_map block vs.
Proof.
  induction f as [|f IH]; intros p s k; cbn [perm_list In].
  - split.
    + intros [<-|[]]. exists []. split; [cbn; lia|]. split; [intros x []|]. cbn. now rewrite app_nil_r.
    + intros ([|v vs] & L & I & ->); [|cbn in L; lia]. left. cbn. now rewrite app_nil_r.
  - rewrite in_flat_map. split.
    + intros [<-|(v & Hv & H)].
      * exists []. split; [cbn; lia|]. split; [intros x []|]. cbn. now rewrite app_nil_r.
      * apply IH in H. destruct H as (vs & L & I & ->). exists (v :: vs). split; [cbn [List.length]; lia|].
        split; [intros x [<-|Hx]; auto|]. cbn [flat_map]. now rewrite <- app_assoc.
    + intros ([|v vs] & L & I & ->); [left; cbn; now rewrite app_nil_r|right].
      exists v. split; [apply I; now left|]. apply IH. exists vs. cbn [List.length] in L. split; [lia|].
      split; [intros x Hx; apply I; now right|]. cbn [flat_map]. now rewrite <- app_assoc.
Qed.
Lemma block_inj x y : x < 2 ^ 32 -> y < 2 ^ 32 -> block x = block y -> x = y.
Proof.
  change (2 ^ 32) with 4294967296. intros Hx Hy E. change (le4 x = le4 y) in E. apply le4_inj in E. now rewrite !N.mod_small in E by assumption.
Qed.
Lemma perm_nodup s : NoDup s -> Forall (fun v => v < 2 ^ 32) s -> forall f p, NoDup (perm_list f p s).
Proof.
  intros Ns F. induction f as [|f IH]; intros p; cbn [perm_list]; constructor; try constructor.
  - intros [].
  - intros H. apply in_flat_map in H. destruct H as (v & _ & H). apply perm_in in H. destruct H as (vs & _ & _ & E).
    apply (f_equal (@List.length N)) in E. rewrite !app_length in E. cbn [List.length block] in E. lia.
  - apply NoDup_flat_map; [exact Ns|intros; apply IH|]. rewrite Forall_forall in F.
    intros x y z Hx Hy H1 H2. apply perm_in in H1. apply perm_in in H2.
    destruct H1 as (vs & _ & _ & ->). destruct H2 as (ws & _ & _ & E). rewrite <- !app_assoc in E. apply app_inv_head in E.
    apply (f_equal (firstn 4)) in E. rewrite !firstn_app_exact in E by reflexivity. apply block_inj; auto.
Qed.
Lemma permutation_enum s n : NoDup s -> Forall (fun v => v < 2 ^ 32) s ->
  enumerates (permutation_keys s n) (fun k => exists vs, (List.length vs <= n)%nat /\ incl vs s /\ k = flat_map block vs).
Proof.
  intros N F. unfold permutation_keys. destruct (genPerm_eq n (repeat 0 (n * 4)) s 0) as (b' & E & _); [rewrite repeat_length; lia|].
  rewrite E. split; [now apply perm_nodup|]. intros k. apply perm_in.
Qed.
Fixpoint perm_count (f : nat) (m : N) : N := match f with O => 1 | S f => 1 + m * perm_count f m end.
Lemma permutation_length s n : N.of_nat (List.length (permutation_keys s n)) = perm_count n (N.of_nat (List.length s)).
Proof.
  unfold permutation_keys. destruct (genPerm_eq n (repeat 0 (n * 4)) s 0) as (b' & E & _); [rewrite repeat_length; lia|].
  rewrite E. clear. generalize (firstn 0 (repeat 0 (n * 4))). induction n as [|n IH]; intros p; [reflexivity|].
  cbn [perm_list perm_count List.length]. rewrite Nat2N.inj_succ, flat_map_len_N with (c := perm_count n (N.of_nat (List.length s))); [lia|].
  intros v _. apply IH.
Qed.

(** ** Cyclic keys *)
Lemma copy_loop n m : (0 < n)%nat -> forall b : list N, (n + m <= List.length b)%nat ->
  let r := fold_left (fun b j => set_nth j (nth (j - n) b 0) b) (seq n m) b in
  List.length r = List.length b /\ (forall j, (j < n + m)%nat -> nth j r 0 = nth (j mod n) b 0) /\
  (forall j, (n + m <= j)%nat -> nth j r 0 = nth j b 0).
Proof.
  intros Hn. induction m as [|m IH]; intros b L r.
  - unfold r. cbn [seq fold_left]. split; [reflexivity|]. split; [|auto]. intros j Hj. now rewrite Nat.mod_small by lia.
  - destruct (IH b ltac:(lia)) as (A1 & A2 & A3). unfold r. rewrite seq_S, fold_left_app. cbn [fold_left].
    set (q := fold_left _ (seq n m) b) in *. split; [now rewrite HtProofs.set_nth_length|].
    assert (Lq : (n + m < List.length q)%nat) by lia. split.
    + intros j Hj. rewrite nth_set_nth by exact Lq. destruct (Nat.eqb_spec j (n + m)) as [->|Q]; [|apply A2; lia].
      rewrite A2 by lia. f_equal. replace (n + m)%nat with (n + m - n + 1 * n)%nat at 2 by lia. now rewrite Nat.mod_add by lia.
    + intros j Hj. rewrite nth_set_nth by exact Lq. destruct (Nat.eqb_spec j (n + m)); [lia|]. apply A3. lia.
Qed.
Lemma cycled_nth p : forall n j, (j < n * List.length p)%nat -> nth j (cycled n p) 0 = nth (j mod List.length p) p 0.
Proof.
  induction n as [|n IH]; intros j H; [lia|]. unfold cycled. cbn [repeat List.concat]. fold (cycled n p).
  destruct (Nat.lt_ge_cases j (List.length p)) as [Q|Q].
  - rewrite app_nth1 by exact Q. now rewrite Nat.mod_small.
  - rewrite app_nth2 by exact Q. rewrite IH by lia. f_equal.
    replace j with (j - List.length p + 1 * List.length p)%nat at 2 by lia. now rewrite Nat.mod_add by lia.
Qed.
Lemma cycled_length n p : List.length (cycled n p) = (n * List.length p)%nat.
Proof. unfold cycled. induction n; [reflexivity|]. cbn [repeat List.concat]. rewrite app_length, IHn. lia. Qed.
Definition head4 (i : nat) : list N :=
  [N.of_nat i * 79 mod 97; N.of_nat i * 43 mod 137; N.of_nat i * 151 mod 197; N.of_nat i * 199 mod 251].
Lemma cyclic_step_eq n rb i b : (4 <= n)%nat -> List.length rb = (n - 4)%nat -> List.length b = (8 * n)%nat ->
  cyclic_step n rb i b = cycled 8 (head4 i ++ rb).
Proof.
  intros Hn Hr Hb. unfold cyclic_step. cbv zeta.
  destruct b as [|b0 [|b1 [|b2 [|b3 b]]]]; cbn [List.length] in Hb; try lia. cbn [set_nth].
  assert (Eh : wrap 8 (N.of_nat i * 79 mod 97) :: wrap 8 (N.of_nat i * 43 mod 137) :: wrap 8 (N.of_nat i * 151 mod 197) :: wrap 8 (N.of_nat i * 199 mod 251) :: b = head4 i ++ b).
  { unfold head4. cbn [app]. 
    rewrite !wrap_small; [reflexivity| | | |]; red; change (2 ^ 8) with 256; (eapply N.lt_trans; [apply N.mod_lt; discriminate|reflexivity]). }
  rewrite Eh. rewrite firstn_app_exact by reflexivity. rewrite (firstn_all2 rb) by lia.
  set (c := head4 i ++ rb ++ skipn n (head4 i ++ b)).
  assert (Lc : List.length c = (8 * n)%nat).
  { unfold c. rewrite !app_length, skipn_length, app_length. cbn [List.length head4]. lia. }
  destruct (copy_loop n (n * 8 - n) ltac:(lia) c ltac:(lia)) as (A1 & A2 & _).
  assert (Lp : List.length (head4 i ++ rb) = n) by (rewrite app_length; cbn [List.length head4]; lia).
  apply nth_ext with (d := 0) (d' := 0).
  - rewrite A1, cycled_length, Lp. lia.
  - intros j Hj. rewrite A1, Lc in Hj. rewrite A2 by lia. rewrite cycled_nth by lia. rewrite Lp.
    unfold c. rewrite app_assoc. rewrite app_nth1; [reflexivity|]. rewrite Lp. apply Nat.mod_upper_bound. lia.
Qed.
Lemma cyclic_eq n rb count : (4 <= n)%nat -> (forall i, List.length (rb i) = (n - 4)%nat) ->
  cyclic_keys n rb count = map (fun i => cycled 8 (head4 i ++ rb i)) (seq 0 count).
Proof.
  intros Hn Hr. unfold cyclic_keys.
  rewrite (each_fst _ (fun i => [cycled 8 (head4 i ++ rb i)]) (fun b => List.length b = (8 * n)%nat)).
  - generalize (seq 0 count). induction l as [|x l IH]; [reflexivity|]. cbn [flat_map map app]. now rewrite IH.
  - intros i b _ Hb. rewrite cyclic_step_eq by auto. cbn [fst snd]. split; [reflexivity|]. rewrite cycled_length, app_length, Hr. cbn [List.length head4]. lia.
  - apply repeat_length.
Qed.
Lemma divide_minus m a x y : x <= y -> N.gcd m a = 1 -> m <> 0 -> x * a mod m = y * a mod m -> N.divide m (y - x).
Proof.
  intros L G Hm E. apply (N.gauss _ a); [|exact G].
  apply N.mod_divide; [exact Hm|]. rewrite N.mul_sub_distr_l.
  pose proof (N.div_mod (x * a) m Hm) as E1. pose proof (N.div_mod (y * a) m Hm) as E2. rewrite E in E1.
  rewrite (N.mul_comm a y), (N.mul_comm a x).
  assert (Q : x * a / m <= y * a / m) by (apply N.div_le_mono; [exact Hm|nia]).
  assert (F : y * a - x * a = (y * a / m - x * a / m) * m).
  { remember (y * a mod m) as r. remember (x * a / m) as u. remember (y * a / m) as v. rewrite E1, E2.
    rewrite N.mul_sub_distr_r, (N.mul_comm v), (N.mul_comm u). clear. lia. }
  rewrite F. now apply N.mod_mul.
Qed.
Lemma head4_inj i j : (i <= j)%nat -> N.of_nat j < N.of_nat i + 657101183 -> head4 i = head4 j -> i = j.
Proof.
  intros L H E. unfold head4 in E. set (x := N.of_nat i) in *. set (y := N.of_nat j) in *.
  assert (Lxy : x <= y) by (unfold x, y; lia).
  apply cons_inj in E. destruct E as [E1 E]. apply cons_inj in E. destruct E as [E2 E]. apply cons_inj in E. destruct E as [E3 E]. apply cons_inj in E. destruct E as [E4 _].
  apply divide_minus in E1; [|exact Lxy|reflexivity|discriminate]. apply divide_minus in E2; [|exact Lxy|reflexivity|discriminate].
  apply divide_minus in E3; [|exact Lxy|reflexivity|discriminate]. apply divide_minus in E4; [|exact Lxy|reflexivity|discriminate].
  assert (D : N.divide (97 * (137 * (197 * 251))) (y - x)).
  { assert (M : forall a b d, N.gcd a b = 1 -> N.divide a d -> N.divide b d -> N.divide (a * b) d).
    { intros a b d G (u & ->) Hb. rewrite N.mul_comm in Hb. rewrite N.gcd_comm in G. apply N.gauss in Hb; [|exact G].
      destruct Hb as (v & ->). exists v. lia. }
    apply M; [reflexivity|exact E1|]. apply M; [reflexivity|exact E2|]. apply M; [reflexivity|exact E3|exact E4]. }
  destruct D as (u & Eu). change (97 * (137 * (197 * 251))) with 657101183 in Eu.
  assert (u = 0) by nia. subst u. assert (x = y) by lia. unfold x, y in *. lia.
Qed.
Lemma cyclic_nodup n rb count : (4 <= n)%nat -> (forall i, List.length (rb i) = (n - 4)%nat) -> N.of_nat count <= 657101183 ->
  NoDup (cyclic_keys n rb count).
Proof.
  intros Hn Hr Hc. rewrite cyclic_eq by assumption. apply NoDup_map_in; [|apply seq_NoDup].
  intros i j Hi Hj E. apply in_seq in Hi. apply in_seq in Hj.
  apply (f_equal (firstn 4)) in E. unfold cycled in E. cbn [repeat List.concat] in E. rewrite <- !app_assoc in E.
  rewrite !firstn_app_exact in E by reflexivity.
  destruct (Nat.le_ge_cases i j) as [Q|Q]; [|symmetry]; apply head4_inj; auto; lia.
Qed.
