(** Theorems about /repo/jenkins/example: the tester (C91) and the benchmarks (C92). *)
From Coq Require Import NArith ZArith List Arith Bool Lia Permutation.
From Verif Require Import Words WordLemmas ListLemmas Mem HashTableModel JenkinsModel JenkinsSpec JenkinsProofs JenkinsProps HtModel HtSpec HtMore HtProps
  JexModel JexSpec JexProofs JexProofs2.
Import ListNotations.
Open Scope N_scope.
Open Scope list_scope.

(** ** C91: the tester *)
(** Each pair of keys tried differs in the bit under test and no other. *)
Lemma bit_apart s q : N.testbit (2 * s + 1) q = xorb (q =? 0) (N.testbit (2 * s) q).
Proof.
  destruct (N.eqb_spec q 0) as [->|D].
  - rewrite N.testbit_odd_0, N.testbit_even_0. reflexivity.
  - replace q with (N.succ (N.pred q)) by lia. rewrite N.testbit_odd_succ, N.testbit_even_succ by lia. now destruct (N.testbit s _).
Qed.
Lemma turned_bit j k p : p < 8 -> j < 8 -> N.testbit (turned j k) p = xorb (if j <=? p then N.testbit k (p - j) else false) (N.testbit k (p + (8 - j))).
Proof.
  intros Hp Hj. unfold turned. change 256 with (2 ^ 8). rewrite N.mod_pow2_bits_low by exact Hp. rewrite N.lxor_spec, N.div_pow2_bits. f_equal.
  destruct (N.leb_spec j p); [now apply N.mul_pow2_bits_high|now apply N.mul_pow2_bits_low].
Qed.
Theorem c91_pairs : forall i j s, (i < 70)%nat -> j < 8 -> one_bit_apart i j (probe i j (2 * s)) (probe i j (2 * s + 1)).
Proof.
  intros i j s Hi Hj. split; [now rewrite !probe_length|]. split; [now rewrite probe_length|]. intros l p Hp.
  destruct (Nat.lt_ge_cases l 70) as [L|L].
  - rewrite !probe_nth by exact L. destruct (Nat.eqb_spec l i) as [->|D]; [|now rewrite N.bits_0]. cbn [andb].
    rewrite !turned_bit by assumption. rewrite !bit_apart. replace (p + (8 - j) =? 0) with false by (symmetry; apply N.eqb_neq; lia).
    destruct (N.leb_spec j p).
    + replace (p - j =? 0) with (p =? j); [|destruct (N.eqb_spec p j), (N.eqb_spec (p - j) 0); auto; lia].
      destruct (N.testbit (2 * s) (p - j)), (N.testbit (2 * s) (p + (8 - j))), (p =? j); reflexivity.
    + replace (p =? j) with false by (symmetry; apply N.eqb_neq; lia). destruct (N.testbit (2 * s) (p + (8 - j))); reflexivity.
  - rewrite !nth_overflow by (rewrite probe_length; lia). rewrite N.bits_0. cbn [xorb].
    destruct (Nat.eqb_spec l i); [lia|reflexivity].
Qed.
Print Assumptions c91_pairs.
Example c91_pairs_nonvacuous : (probe 2 3 6, probe 2 3 7) = ([0; 0; 48] ++ repeat 0 67, [0; 0; 56] ++ repeat 0 67).
Proof. reflexivity. Qed.

(** What the six masks printed with a failure say about [t] pairs. *)
Definition tells (hlen i : nat) (j m : N) (t : nat) (ms : masks) : Prop :=
  let h s := probe_hash hlen i j m (2 * N.of_nat s) in
  let h' s := probe_hash hlen i j m (2 * N.of_nat s + 1) in
  let always (mask : N) (f : nat -> N -> bool) := forall p, N.testbit mask p = true <-> p < 32 /\ forall s, (s < t)%nat -> f s p = true in
  let '(e, f, g, hm, x, y) := ms in
  always e (fun s p => xorb (N.testbit (h s) p) (N.testbit (h' s) p)) /\
  always f (fun s p => negb (xorb (N.testbit (h s) p) (N.testbit (h' s) p))) /\
  always g (fun s p => N.testbit (h s) p) /\ always hm (fun s p => negb (N.testbit (h s) p)) /\
  always x (fun s p => N.testbit (h' s) p) /\ always y (fun s p => negb (N.testbit (h' s) p)).
Lemma after_tells hlen i j m t : tells hlen i j m t (after hlen i j m t).
Proof.
  unfold tells, after. cbv zeta. repeat match goal with |- _ /\ _ => split end; intros p; rewrite common_bit;
    (split; intros (P & H); (split; [exact P|]); intros s Hs; specialize (H s Hs); rewrite ?not32_bit, ?N.lxor_spec in * by exact P; exact H).
Qed.
(** The report for each length: either "Mix success", exactly when every input bit
    and initial value is mixed in one trial more than the number printed and for
    some of them no earlier; or the first that is not mixed in 3011 trials. *)
Theorem c91_driver : exists outs, driver2 = Ok outs /\ length outs = 70%nat /\ forall hlen, (hlen < 70)%nat ->
  (exists n, nth hlen outs [] = [Mixed hlen (if Nat.eqb hlen 0 then 0 else 8) n] /\ n < 3011 /\
     (forall i j m, tested hlen i j m -> mixed hlen i j m (S (N.to_nat n))) /\
     (if Nat.eqb hlen 0 then n = 0 else exists i j m, tested hlen i j m /\ ~ mixed hlen i j m (N.to_nat n))) \/
  (exists i j m ms, nth hlen outs [] = [Stuck ms i j m hlen] /\ tested hlen i j m /\ ~ mixed hlen i j m (N.to_nat 3011) /\
     tells hlen i j m (N.to_nat 3011) ms /\
     forall i' j' m', tested hlen i' j' m' -> (i' < i)%nat \/ i' = i /\ (j' < j \/ j' = j /\ m' < m) -> mixed hlen i' j' m' (N.to_nat 3011)).
Proof.
  destruct (rounds_ok 70 0 (repeat 0 70) (repeat 0 70)) as (outs & E & L & F); [lia|apply zeros_shaped|apply zeros_shaped|].
  exists outs. split; [exact E|]. split; [exact L|]. intros hlen Hl. specialize (F hlen Hl). cbn [Nat.add] in F.
  destruct F as [(n & Q & A & B & C & Z0)|(l1 & i & j & m & l2 & Ec & Q & Nm & A)].
  - left. exists n. split; [exact Q|]. split; [exact C|]. split; [exact A|]. destruct (Nat.eqb_spec hlen 0); [auto|apply B; lia].
  - right. exists i, j, m, (after hlen i j m (N.to_nat 3011)). split; [exact Q|].
    split; [apply in_cases; rewrite Ec; apply in_or_app; right; now left|]. split; [exact Nm|]. split; [apply after_tells|].
    intros i' j' m' T Lt. apply A. clear A Nm Q.
    (* the cases come in order *)
    assert (Ord : forall l1 l2 : list (nat * N * N), cases hlen = l1 ++ (i, j, m) :: l2 -> In (i', j', m') (cases hlen) -> ~ In (i', j', m') ((i, j, m) :: l2) -> In (i', j', m') l1).
    { intros x y E' I Nn. rewrite E' in I. apply in_app_or in I. destruct I; [assumption|contradiction]. }
    apply (Ord l1 l2 Ec); [now apply in_cases|]. clear Ord.
    set (less := fun a b : nat * N * N => let '(x, y, z) := a in let '(x', y', z') := b in (x < x')%nat \/ x = x' /\ (y < y' \/ y = y' /\ z < z')).
    assert (Sorted_ : forall c l l', cases hlen = l ++ c :: l' -> forall d, In d l' -> less c d).
    { assert (G : forall (X : Type) (R : X -> X -> Prop) l, (fix srt l := match l with [] => True | a :: l => Forall (R a) l /\ srt l end) l ->
        forall c l1 l', l = l1 ++ c :: l' -> forall d, In d l' -> R c d).
      { intros X R l. induction l as [|a l IH]; intros S0 c x y E' d I; [destruct x; discriminate|]. destruct S0 as [S1 S2].
        destruct x as [|b x]; injection E' as <- E'; [subst y; rewrite Forall_forall in S1; now apply S1|]. now apply (IH S2 c x y E'). }
      apply (G _ less). unfold cases. generalize 0%nat as n0. intros n0. clear - less. revert n0. induction hlen as [|r IH]; intros n0; [exact I|].
      cbn [seq]. change (flat_map ?f (n0 :: ?l)) with (f n0 ++ flat_map f l).
      assert (App : forall (X : Type) (R : X -> X -> Prop) a b, (fix srt l := match l with [] => True | a :: l => Forall (R a) l /\ srt l end) a ->
        (fix srt l := match l with [] => True | a :: l => Forall (R a) l /\ srt l end) b -> (forall x y, In x a -> In y b -> R x y) ->
        (fix srt l := match l with [] => True | a :: l => Forall (R a) l /\ srt l end) (a ++ b)).
      { intros X R a b. induction a as [|x a IHa]; intros Sa Sb H; [exact Sb|]. destruct Sa as [S1 S2]. cbn [app]. split.
        - apply Forall_app. split; [exact S1|]. apply Forall_forall. intros y Iy. apply H; [now left|exact Iy].
        - apply IHa; auto. intros u v Iu Iv. apply H; [now right|exact Iv]. }
      apply App; [|apply IH|].
      - cbn [flat_map map app]. unfold less. repeat (split; [repeat (apply Forall_cons; [lia|]); apply Forall_nil|]). exact I.
      - intros ((x1 & x2) & x3) ((y1 & y2) & y3) Ix Iy. apply in_flat_map in Ix. destruct Ix as (jj & _ & Ix). apply in_map_iff in Ix. destruct Ix as (mm & Ex & _).
        apply in_flat_map in Iy. destruct Iy as (nn & In0 & Iy). apply in_seq in In0. apply in_flat_map in Iy. destruct Iy as (jj' & _ & Iy). apply in_map_iff in Iy.
        destruct Iy as (mm' & Ey & _). injection Ex as <- <- <-. injection Ey as <- <- <-. left. lia. }
    intros [Eq|I].
    + injection Eq as <- <- <-. lia.
    + pose proof (Sorted_ _ _ _ Ec _ I) as Ls. unfold less in Ls. lia.
Qed.
Print Assumptions c91_driver.
Example c91_driver_nonvacuous : tested 1 0 3 5 /\ mixed 1 0 3 5 16 /\ rounds [0; 1; 5]%nat (repeat 0 70) (repeat 0 70) = Ok [[Mixed 0 0 0]; [Mixed 1 8 15]; [Mixed 5 8 15]].
Proof. split; [unfold tested; lia|]. split; [apply finished_after|]; vm_compute; reflexivity. Qed.
(** The number of trials printed as required is one too small. *)
Lemma start : exists a b, forall l, rounds (0%nat :: 1%nat :: l) (repeat 0 MAXLEN) (repeat 0 MAXLEN) =
  (r <~ rounds l a b ;; Ok ([Mixed 0 0 0] :: [Mixed 1 8 15] :: r)).
Proof.
  assert (E0 : round 0 (repeat 0 MAXLEN) (repeat 0 MAXLEN) = Ok ([Mixed 0 0 0], (repeat 0 MAXLEN, repeat 0 MAXLEN))) by (vm_compute; reflexivity).
  assert (E1 : exists ab, round 1 (repeat 0 MAXLEN) (repeat 0 MAXLEN) = Ok ([Mixed 1 8 15], ab)) by (eexists; vm_compute; reflexivity).
  destruct E1 as ((a & b) & E1). exists a, b. intros l. cbn [rounds]. rewrite E0. cbn [rbind]. rewrite E1. cbn [rbind].
  destruct (rounds l a b); reflexivity.
Qed.
Lemma driver2_eq : driver2 = rounds (0%nat :: 1%nat :: seq 2 68) (repeat 0 MAXLEN) (repeat 0 MAXLEN).
Proof. unfold driver2. assert (Q : seq 0 MAXLEN = 0%nat :: 1%nat :: seq 2 68) by reflexivity. rewrite Q. reflexivity. Qed.
Theorem c91_required_refuted : exists outs i j m, driver2 = Ok outs /\ nth 1 outs [] = [Mixed 1 8 15] /\ tested 1 i j m /\ ~ mixed 1 i j m 15.
Proof.
  destruct c91_driver as (outs & E & _ & D). exists outs.
  assert (Q : nth 1 outs [] = [Mixed 1 8 15]).
  { destruct start as (a & b & S0). rewrite driver2_eq, S0 in E.
    destruct (rounds (seq 2 68) a b) as [r| | |]; cbn [rbind] in E; try discriminate E. injection E as <-. reflexivity. }
  destruct (D 1%nat ltac:(lia)) as [(n & Q' & _ & _ & i & j & m & T & X)|(i & j & m & ms & Q' & _)]; rewrite Q in Q'.
  - injection Q' as <-. change (N.to_nat 15) with 15%nat in X. exists i, j, m. split; [exact E|]. split; [exact Q|]. split; [exact T|exact X].
  - apply (f_equal (fun o : list line => match o with [Mixed _ _ _] => true | _ => false end)) in Q'. discriminate Q'.
Qed.
Print Assumptions c91_required_refuted.
(** 256 trials find as much as any number: later pairs repeat earlier ones. *)
Definition same_pair (j s : N) : N :=
  let k := 2 * s in
  let x := N.lxor (k mod 256) ((k / 256) mod 2 ^ (8 - j)) in
  N.lxor (x / 2) (if N.odd x then 128 else 0).
Lemma turned_lt j k : turned j k < 256. Proof. apply N.mod_lt. discriminate. Qed.
Lemma byte_bits a b : a < 256 -> b < 256 -> (forall p, p < 8 -> N.testbit a p = N.testbit b p) -> a = b.
Proof.
  intros Ha Hb H. apply N.bits_inj. intros p. destruct (N.lt_ge_cases p 8); [now apply H|].
  replace a with (a mod 2 ^ 8) by now apply N.mod_small. replace b with (b mod 2 ^ 8) by now apply N.mod_small.
  now rewrite !N.mod_pow2_bits_high.
Qed.
Lemma same_pair_lt j s : j < 8 -> same_pair j s < 256.
Proof.
  intros Hj. unfold same_pair. cbv zeta. apply (xor_fits 8).
  - unfold fits. apply N.div_lt_upper_bound; [discriminate|]. apply N.lt_trans with (2 ^ 8); [|reflexivity].
    apply (xor_fits 8); unfold fits; [apply N.mod_lt; discriminate|].
    eapply N.lt_le_trans; [apply N.mod_lt, N.pow_nonzero; discriminate|]. apply N.pow_le_mono_r; [discriminate|lia].
  - destruct (N.odd _); reflexivity.
Qed.
Lemma same_pair_ok j s : j < 8 -> turned j (2 * s) = turned j (2 * same_pair j s) /\ turned j (2 * s + 1) = turned j (2 * same_pair j s + 1).
Proof.
  intros Hj.
  set (k := 2 * s). set (x := N.lxor (k mod 256) ((k / 256) mod 2 ^ (8 - j))).
  assert (X : forall q, q < 8 -> N.testbit x q = xorb (N.testbit k q) (if q <? 8 - j then N.testbit k (q + 8) else false)).
  { intros q Hq. unfold x. rewrite N.lxor_spec. change 256 with (2 ^ 8). rewrite N.mod_pow2_bits_low by exact Hq. f_equal.
    destruct (N.ltb_spec q (8 - j)); [rewrite N.mod_pow2_bits_low by assumption; now rewrite N.div_pow2_bits|now rewrite N.mod_pow2_bits_high]. }
  assert (X8 : forall q, 8 <= q -> N.testbit x q = false).
  { intros q Hq. unfold x. rewrite N.lxor_spec. change 256 with (2 ^ 8). rewrite !N.mod_pow2_bits_high by lia. reflexivity. }
  assert (Z0 : N.testbit k 0 = false) by apply N.testbit_even_0.
  assert (K : forall q, N.testbit (2 * same_pair j s) (N.succ q) = xorb (N.testbit x (N.succ q)) (N.testbit x 0 && (q =? 7))).
  { intros q. rewrite N.testbit_even_succ by lia. unfold same_pair. cbv zeta. fold k. fold x. rewrite N.lxor_spec. change 2 with (2 ^ 1) at 1. rewrite N.div_pow2_bits.
    rewrite N.add_1_r. f_equal. rewrite <- N.bit0_odd. destruct (N.testbit x 0); cbn [andb].
    - change 128 with (2 ^ 7). rewrite N.pow2_bits_eqb. apply N.eqb_sym.
    - apply N.bits_0. }
  assert (P : forall p, p < 8 -> N.testbit (turned j k) p = N.testbit (turned j (2 * same_pair j s)) p).
  { intros p Hp. rewrite !turned_bit by assumption. destruct (N.leb_spec j p) as [L|L].
    - replace (p + (8 - j)) with (N.succ (p - j + 7)) by lia. rewrite K. destruct (N.eqb_spec (p - j) 0) as [E|E].
      + rewrite E, N.testbit_even_0, Z0. change (N.succ (0 + 7)) with 8. rewrite X8 by lia. change (0 + 7 =? 7) with true. rewrite X by lia.
        replace (0 <? 8 - j) with true by (symmetry; apply N.ltb_lt; lia). rewrite Z0. change (0 + 8) with 8. destruct (N.testbit k 8); reflexivity.
      + replace (p - j) with (N.succ (N.pred (p - j))) at 3 by lia. rewrite K. rewrite N.succ_pred by exact E.
        rewrite (X8 (N.succ (p - j + 7))) by lia. replace (p - j + 7 =? 7) with false by (symmetry; apply N.eqb_neq; lia).
        replace (N.pred (p - j) =? 7) with false by (symmetry; apply N.eqb_neq; lia). rewrite X by lia.
        replace (p - j <? 8 - j) with true by (symmetry; apply N.ltb_lt; lia). replace (p - j + 8) with (N.succ (p - j + 7)) by lia.
        rewrite !andb_false_r. cbn [xorb]. now rewrite !xorb_false_r.
    - replace (p + (8 - j)) with (N.succ (N.pred (p + (8 - j)))) by lia. rewrite K. rewrite N.succ_pred by lia.
      replace (N.pred (p + (8 - j)) =? 7) with false by (symmetry; apply N.eqb_neq; lia). rewrite X by lia.
      replace (p + (8 - j) <? 8 - j) with false by (symmetry; apply N.ltb_ge; lia). rewrite andb_false_r, !xorb_false_r. reflexivity. }
  split; (apply byte_bits; [apply turned_lt|apply turned_lt|]); [exact P|].
  intros p Hp. specialize (P p Hp). rewrite !turned_bit in * by assumption. fold k. unfold k at 1 2. rewrite !bit_apart. fold k.
  replace (p + (8 - j) =? 0) with false by (symmetry; apply N.eqb_neq; lia). rewrite !xorb_false_l. destruct (j <=? p); [|exact P].
  rewrite !xorb_assoc. now rewrite P.
Qed.
Theorem c91_repeats : forall hlen i j m t, j < 8 -> mixed hlen i j m t -> mixed hlen i j m 256.
Proof.
  intros hlen i j m t Hj M p v Hp.
  assert (P : forall s, exists s', (s' < 256)%nat /\
    probe_hash hlen i j m (2 * N.of_nat s) = probe_hash hlen i j m (2 * N.of_nat s') /\
    probe_hash hlen i j m (2 * N.of_nat s + 1) = probe_hash hlen i j m (2 * N.of_nat s' + 1)).
  { intros s. destruct (same_pair_ok j (N.of_nat s) Hj) as (E1 & E2). pose proof (same_pair_lt j (N.of_nat s) Hj).
    exists (N.to_nat (same_pair j (N.of_nat s))). split; [lia|]. rewrite N2Nat.id. unfold probe_hash, probe. now rewrite E1, E2. }
  destruct (M p v Hp) as ((a & Ha & A) & (b & Hb & B) & (c & Hc & C)). split; [|split].
  - destruct (P a) as (s & Hs & E1 & _). exists s. split; [exact Hs|]. now rewrite <- E1.
  - destruct (P b) as (s & Hs & _ & E2). exists s. split; [exact Hs|]. now rewrite <- E2.
  - destruct (P c) as (s & Hs & E1 & E2). exists s. split; [exact Hs|]. now rewrite <- E1, <- E2.
Qed.
(** So no length is ever said to need more than 255 trials. *)
Theorem c91_at_most_255 : forall outs hlen i m n, driver2 = Ok outs -> (hlen < 70)%nat -> nth hlen outs [] = [Mixed i m n] -> n <= 255.
Proof.
  intros outs hlen i m n E Hl Q. destruct c91_driver as (outs' & E' & _ & D). rewrite E in E'. injection E' as <-.
  destruct (D hlen Hl) as [(n' & Q' & _ & A & B)|(i' & j & m' & ms & Q' & _)]; rewrite Q in Q'.
  - injection Q' as -> -> ->. destruct (Nat.eqb_spec hlen 0) as [Ez|Nz]; [rewrite B; apply N.leb_le; reflexivity|]. destruct B as (i' & j & m' & T & B).
    destruct (N.le_gt_cases n' 255) as [L|L]; [exact L|].
    exfalso. apply B. apply mixed_more with 256%nat; [lia|]. apply (c91_repeats hlen i' j m' _) with (2 := A _ _ _ T). unfold tested in T. lia.
  - apply (f_equal (fun o : list line => match o with [Mixed _ _ _] => true | _ => false end)) in Q'. discriminate Q'.
Qed.
Print Assumptions c91_at_most_255.
Print Assumptions c91_repeats.
Example c91_repeats_nonvacuous : mixed 1 0 3 5 (N.to_nat 3011) /\ probe 0 3 (2 * 300) = probe 0 3 (2 * same_pair 3 300) /\ same_pair 3 300 = 45.
Proof. split; [|split; reflexivity]. apply mixed_more with 16%nat; [lia|]. apply (proj1 (proj2 c91_driver_nonvacuous)). Qed.

(** ** C92: the benchmarks and the text *)
Lemma hash_all_ok hf g l : (forall i, In i l -> hf i = Ok (g i)) -> hash_all hf l = Ok (map g l).
Proof.
  induction l as [|i l IH]; intros H; [reflexivity|]. cbn [hash_all map]. rewrite (H i) by now left. cbn [rbind].
  rewrite IH by (intros; apply H; now right). reflexivity.
Qed.
Lemma key32_eq i : key32 i = [i mod 256; 0; 0; 0].
Proof.
  unfold key32, shr. rewrite wrap_mod. change (2 ^ 8) with 256. rewrite !N.shiftr_div_pow2.
  assert (B : i mod 256 < 256) by (apply N.mod_lt; discriminate).
  rewrite !(N.div_small (i mod 256)) by (eapply N.lt_le_trans; [exact B|]; apply N.leb_le; reflexivity). cbn [N.land].
  change 255 with (N.ones 8). rewrite N.land_ones. change (2 ^ 8) with 256. rewrite N.mod_mod by discriminate. reflexivity.
Qed.
(** benchmark32 is meant to hash the keys 0, 1, 2, ...; it hashes 256 keys over and over. *)
Theorem c92_bench32 : forall n, exists hs, benchmark32 n = Ok hs /\
  hs = map (fun i => lookup2_gen false false [i mod 256; 0; 0; 0] 0) (counted (Z.to_nat n)) /\ (distinct hs <= 256)%nat.
Proof.
  intros n. exists (map (fun i => lookup2_gen false false [i mod 256; 0; 0; 0] 0) (counted (Z.to_nat n))). split; [|split; [reflexivity|]].
  - unfold benchmark32. apply hash_all_ok. intros i _. rewrite key32_eq.
    assert (B : bytes_ok [i mod 256; 0; 0; 0]) by (constructor; [apply N.mod_lt; discriminate|repeat constructor]).
    apply (proj1 (c57_lookup2_variant _ 0 B)); [apply N.ltb_lt; reflexivity|apply N.ltb_lt; reflexivity].
  - unfold distinct. set (vals := map (fun b => lookup2_gen false false [b; 0; 0; 0] 0) (map N.of_nat (seq 0 256))).
    assert (I : incl (nodup N.eq_dec (map (fun i => lookup2_gen false false [i mod 256; 0; 0; 0] 0) (counted (Z.to_nat n)))) vals).
    { intros x Hx. apply nodup_In in Hx. apply in_map_iff in Hx. destruct Hx as (i & <- & _). unfold vals. apply in_map_iff. exists (i mod 256).
      split; [reflexivity|]. apply in_map_iff. exists (N.to_nat (i mod 256)). split; [apply N2Nat.id|]. apply in_seq.
      pose proof (N.mod_lt i 256 ltac:(discriminate)). lia. }
    apply NoDup_incl_length in I; [|apply NoDup_nodup]. unfold vals in I. rewrite !map_length, seq_length in I. exact I.
Qed.
Print Assumptions c92_bench32.
Example c92_bench32_nonvacuous : benchmark32 2 = Ok [lookup2_gen false false [0; 0; 0; 0] 0; lookup2_gen false false [1; 0; 0; 0] 0] /\
  key32 256 = key32 0 /\ lookup2_gen false false [0; 0; 0; 0] 0 <> lookup2_gen false false [1; 0; 0; 0] 0.
Proof. split; [vm_compute; reflexivity|]. split; [reflexivity|]. vm_compute. discriminate. Qed.

Lemma dups64_32 u : forall l k i run dups mrun, dups64_loop u k l i dups = fst (dups_loop u k l i run dups mrun).
Proof.
  induction l as [|v l IH]; intros; [reflexivity|]. cbn [dups64_loop dups_loop]. destruct (Nat.eqb k 0 || Nat.eqb i k); [apply IH|].
  destruct (nth i u 0 =? v); apply IH.
Qed.
Lemma byte_at i s : wrap 8 (N.land (shr i s) 255) = i / 2 ^ s mod 256.
Proof.
  rewrite wrap_mod. change 255 with (N.ones 8). rewrite N.land_ones. change (2 ^ 8) with 256. rewrite N.mod_mod by discriminate.
  unfold shr. now rewrite N.shiftr_div_pow2.
Qed.
Lemma key64_eq i : key64 i = concat (repeat (le_store 4 i) 6).
Proof.
  unfold key64. rewrite (byte_at i 8), (byte_at i 16), (byte_at i 24).
  assert (E0 : wrap 8 (N.land i 255) = i mod 256) by (rewrite wrap_mod; change 255 with (N.ones 8); rewrite N.land_ones; change (2 ^ 8) with 256; now rewrite N.mod_mod).
  assert (L : le_store 4 i = [i mod 256; i / 2 ^ 8 mod 256; i / 2 ^ 16 mod 256; i / 2 ^ 24 mod 256]).
  { cbn [le_store]. rewrite ?wrap_mod, ?N.shiftr_div_pow2. rewrite ?N.div_div by discriminate. unfold shr. rewrite ?N.shiftr_div_pow2, ?N.div_div by discriminate. reflexivity. }
  rewrite E0, L. reflexivity.
Qed.

Lemma le_store_mod : forall n x, le_store n x = le_store n (x mod 2 ^ (8 * N.of_nat n)).
Proof.
  induction n as [|n IH]; intros x; [reflexivity|]. cbn [le_store]. rewrite !wrap_mod. unfold shr. rewrite !N.shiftr_div_pow2.
  replace (8 * N.of_nat (S n)) with (8 + 8 * N.of_nat n) by lia. f_equal.
  - apply N.bits_inj. intros p. destruct (N.lt_ge_cases p 8); [|now rewrite !N.mod_pow2_bits_high].
    rewrite !N.mod_pow2_bits_low by lia. reflexivity.
  - rewrite (IH (x / 2 ^ 8)). f_equal. apply N.bits_inj. intros p. rewrite N.div_pow2_bits.
    destruct (N.lt_ge_cases p (8 * N.of_nat n)).
    + rewrite !N.mod_pow2_bits_low by lia. now rewrite N.div_pow2_bits.
    + rewrite !N.mod_pow2_bits_high by lia. reflexivity.
Qed.
(** benchmark64 hashes the number [i], written in four bytes, six times over.  What it
    prints as duplicates is the number of hashes less the number of distinct ones,
    whatever sort.Sort does with equal elements. *)
Definition bench_hash (i : N) : N := lookup8v (concat (repeat (le_store 4 i) 6)) 0.
Lemma counted_lt n i : In i (counted n) -> i < N.of_nat n.
Proof. unfold counted. intros I. apply in_map_iff in I. destruct I as (x & <- & I). apply in_seq in I. lia. Qed.
Lemma distinct_perm u v : Permutation u v -> distinct u = distinct v.
Proof.
  intros P. unfold distinct. apply Permutation_length. apply NoDup_Permutation; try apply NoDup_nodup. intros x. rewrite !nodup_In.
  split; apply Permutation_in; [exact P|now apply Permutation_sym].
Qed.
Theorem c92_bench64 : forall sort n, (forall l, sorted (sort l) /\ Permutation l (sort l)) -> (0 <= n)%Z ->
  exists dups, benchmark64 sort n = Ok dups /\
    (dups + distinct (map bench_hash (counted (Z.to_nat n))) = Z.to_nat n)%nat /\
    (dups = 0%nat <-> forall i j, i < j -> (Z.of_N j < n)%Z -> bench_hash i <> bench_hash j).
Proof.
  intros sort n Hs Hn. unfold benchmark64. destruct (Z.ltb_spec n 0); [lia|].
  rewrite (hash_all_ok _ bench_hash).
  2:{ intros i _. rewrite key64_eq. unfold bench_hash.
      assert (B : bytes_ok (concat (repeat (le_store 4 i) 6))).
      { pose proof (le_store_ok 4 i) as B. cbn [repeat concat]. rewrite app_nil_r. unfold bytes_ok in *. repeat (apply Forall_app; split); exact B. }
      apply (proj2 (c57_lookup2_variant _ 0 B)); [apply N.ltb_lt; reflexivity|apply N.ltb_lt; reflexivity]. }
  cbn [rbind]. set (hs := map bench_hash (counted (Z.to_nat n))). exists (checkForDups64 (sort hs)). split; [reflexivity|].
  destruct (Hs hs) as [Sd P].
  assert (E : (checkForDups64 (sort hs) + distinct hs = Z.to_nat n)%nat).
  { rewrite (distinct_perm _ _ P). transitivity (length (sort hs)).
    - rewrite <- (c47_dups (sort hs) Sd). f_equal. apply dups64_32.
    - rewrite <- (Permutation_length P). unfold hs, counted. now rewrite !map_length, seq_length. }
  split; [exact E|].
  assert (Lh : length hs = Z.to_nat n) by (unfold hs, counted; now rewrite !map_length, seq_length).
  assert (D : checkForDups64 (sort hs) = 0%nat <-> NoDup hs).
  { split; intros Q.
    - rewrite Q in E. cbn [Nat.add] in E. unfold distinct in E. apply (NoDup_incl_NoDup (NoDup_nodup N.eq_dec hs)); [lia|]. intros x I. now apply nodup_In in I.
    - unfold distinct in E. rewrite nodup_fixed_point in E by exact Q. lia. }
  rewrite D. unfold hs, counted. rewrite map_map. split; intros Q.
  - intros i j Hij Hj Eq. rewrite NoDup_nth with (d := bench_hash 0) in Q. specialize (Q (N.to_nat i) (N.to_nat j)).
    rewrite map_length, seq_length in Q.
    assert (A : forall k, (k < Z.to_nat n)%nat -> nth k (map (fun x => bench_hash (N.of_nat x)) (seq 0 (Z.to_nat n))) (bench_hash 0) = bench_hash (N.of_nat k)).
    { intros k Hk. rewrite nth_indep with (d' := (fun x => bench_hash (N.of_nat x)) 0%nat) by (rewrite map_length, seq_length; exact Hk).
      rewrite (map_nth (fun x => bench_hash (N.of_nat x))), seq_nth by exact Hk. reflexivity. }
    rewrite !A, !N2Nat.id in Q by lia. specialize (Q ltac:(lia) ltac:(lia) Eq). lia.
  - assert (G : forall l, NoDup l -> (forall x, In x l -> (x < Z.to_nat n)%nat) -> NoDup (map (fun x => bench_hash (N.of_nat x)) l)).
    { induction l as [|x l IH]; intros Nd B; cbn [map]; constructor.
      - intros I. apply in_map_iff in I. destruct I as (y & Ey & Iy). inversion Nd as [|? ? Nx Nd']; subst.
        pose proof (B x ltac:(now left)). pose proof (B y ltac:(now right)).
        destruct (Nat.lt_trichotomy x y) as [L|[->|L]]; [|contradiction|].
        + apply (Q (N.of_nat x) (N.of_nat y)); [lia|lia|now symmetry].
        + apply (Q (N.of_nat y) (N.of_nat x)); [lia|lia|exact Ey].
      - inversion Nd; subst. apply IH; [assumption|]. intros y Iy. apply B. now right. }
    apply G; [apply seq_NoDup|]. intros x I. apply in_seq in I. lia.
Qed.
Print Assumptions c92_bench64.
(** A negative count panics in one benchmark and does nothing in the other. *)
Theorem c92_negative : forall sort n, (n < 0)%Z -> benchmark64 sort n = Panics /\ benchmark32 n = Ok [].
Proof.
  intros sort n Hn. unfold benchmark64, benchmark32. destruct (Z.ltb_spec n 0); [|lia]. replace (Z.to_nat n) with 0%nat by lia. split; reflexivity.
Qed.
Print Assumptions c92_negative.
(** Numbers that agree modulo 2^32 make the same key: past 2^32 every hash is a duplicate. *)
Lemma periodic_distinct (g : N -> N) w n : w <> 0 -> (forall i, g (i mod w) = g i) -> (Z.of_nat (distinct (map g (counted n))) <= Z.of_N w)%Z.
Proof.
  intros Hw M. assert (I : incl (nodup N.eq_dec (map g (counted n))) (map g (counted (N.to_nat w)))).
  { intros x Hx. apply nodup_In in Hx. apply in_map_iff in Hx. destruct Hx as (i & <- & _). apply in_map_iff. exists (i mod w). split; [apply M|].
    unfold counted. apply in_map_iff. exists (N.to_nat (i mod w)). split; [apply N2Nat.id|]. apply in_seq. pose proof (N.mod_lt i w Hw). lia. }
  apply NoDup_incl_length in I; [|apply NoDup_nodup]. rewrite map_length in I. unfold counted at 2 in I. rewrite map_length, seq_length in I.
  unfold distinct. lia.
Qed.
Theorem c92_bench64_large : forall sort n dups, (forall l, sorted (sort l) /\ Permutation l (sort l)) -> benchmark64 sort n = Ok dups ->
  (n - 2 ^ 32 <= Z.of_nat dups)%Z.
Proof.
  intros sort n dups Hs E. destruct (Z.ltb_spec n 0) as [L|L]; [unfold benchmark64 in E; apply Z.ltb_lt in L; rewrite L in E; discriminate|].
  destruct (c92_bench64 sort n Hs L) as (d & E' & Q & _). rewrite E' in E. injection E as ->.
  destruct (Z.leb_spec n (2 ^ 32)) as [S1|S1]; [lia|].
  assert (M : forall i, bench_hash (i mod 2 ^ 32) = bench_hash i).
  { intros i. unfold bench_hash. rewrite (le_store_mod 4 i). reflexivity. }
  pose proof (periodic_distinct bench_hash (2 ^ 32) (Z.to_nat n) ltac:(discriminate) M) as B.
  change (Z.of_N (2 ^ 32)) with (2 ^ 32)%Z in B. lia.
Qed.
Print Assumptions c92_bench64_large.
Example c92_bench64_nonvacuous : benchmark64 (fun l => l) 3 = Ok 0%nat /\ checkForDups64 [5; 5; 7; 9; 9; 9] = 3%nat /\ bench_hash 0 <> bench_hash 1.
Proof. split; [vm_compute; reflexivity|]. split; [reflexivity|]. vm_compute. discriminate. Qed.

(** The text as words: what C would see, when the length is a multiple of four;
    otherwise memory after the text is read. *)
Lemma stu_loop_ok : forall m pre s i, length pre = (4 * i)%nat -> length s = (4 * m)%nat -> bytes_ok s ->
  exists ws, stu_loop (pre ++ s) m i = Ok ws /\ wbytes ws = s /\ length ws = m /\ Forall (fits 32) ws.
Proof.
  induction m as [|m IH]; intros pre s i Hp Hs B.
  - exists []. destruct s; [|discriminate]. repeat split; constructor.
  - assert (Es : s = firstn 4 s ++ skipn 4 s) by (symmetry; apply firstn_skipn).
    assert (B1 : bytes_ok (firstn 4 s)) by now apply bytes_ok_firstn. assert (B2 : bytes_ok (skipn 4 s)) by now apply bytes_ok_skipn.
    destruct (IH (pre ++ firstn 4 s) (skipn 4 s) (S i)) as (ws & E & W & L & F); [rewrite app_length, firstn_length; lia|rewrite skipn_length; lia|exact B2|].
    rewrite <- app_assoc, firstn_skipn in E. exists (le_load (firstn 4 s) :: ws). cbn [stu_loop].
    assert (P : peek_le (pre ++ s) (4 * i) 4 = Ok (le_load (firstn 4 s))).
    { rewrite peek_le_ok by (rewrite app_length; lia). do 2 f_equal. rewrite <- Hp, skipn_app, skipn_all, Nat.sub_diag. reflexivity. }
    rewrite P. cbn [rbind]. rewrite E. cbn [rbind]. split; [reflexivity|]. split; [|split].
    + unfold wbytes in *. cbn [flat_map]. rewrite W.
      pose proof (le_store_load (firstn 4 s) B1) as Q. rewrite firstn_length, Nat.min_l in Q by lia. rewrite Q. apply firstn_skipn.
    + cbn [length]. now rewrite L.
    + constructor; [|exact F]. apply le_load_fits; [exact B1|]. rewrite firstn_length. lia.
Qed.
Theorem c92_stu : forall s, bytes_ok s ->
  (Nat.divide 4 (length s) -> exists ws, stu s = Ok ws /\ wbytes ws = s /\ Forall (fits 32) ws) /\
  (~ Nat.divide 4 (length s) -> stu s = Overread).
Proof.
  intros s B. unfold stu. split.
  - intros (m & Hm). replace ((length s + 3) / 4)%nat with m by (apply (Nat.div_unique _ _ _ 3); lia).
    destruct (stu_loop_ok m [] s 0) as (ws & E & W & _ & F); [reflexivity|lia|exact B|]. now exists ws.
  - intros Nd. assert (G : forall m i, (4 * i <= length s)%nat -> (length s < 4 * (i + m))%nat -> stu_loop s m i = Overread).
    { induction m as [|m IH]; intros i H1 H2; [lia|]. cbn [stu_loop]. destruct (le_lt_dec (4 * i + 4) (length s)) as [L|L].
      - rewrite peek_le_ok by exact L. cbn [rbind]. rewrite IH by lia. reflexivity.
      - unfold peek_le, peek. destruct (Nat.leb_spec (4 * i + 4) (length s)); [lia|].
        destruct (Nat.ltb_spec (4 * i) (length s)); [reflexivity|]. exfalso. apply Nd. exists i. lia. }
    pose proof (Nat.div_mod (length s + 3) 4 ltac:(lia)). pose proof (Nat.mod_upper_bound (length s + 3) 4 ltac:(lia)).
    apply G; [lia|]. cbn [Nat.add]. destruct (Nat.eq_dec (length s) (4 * ((length s + 3) / 4))) as [Q|Q]; [|lia].
    exfalso. apply Nd. exists ((length s + 3) / 4)%nat. lia.
Qed.
Print Assumptions c92_stu.
Example c92_stu_nonvacuous : stu [1; 2; 3; 4; 5; 6; 7; 8] = Ok [0x04030201; 0x08070605] /\ stu [1; 2; 3; 4; 5] = Overread.
Proof. split; vm_compute; reflexivity. Qed.
(** The text that main hashes: 72 bytes, three hashes of its words. *)
Example c92_text : exists h1 h2 h3,
  first_line [84; 104; 105; 115; 32; 105; 115; 32; 116; 104; 101; 32; 116; 105; 109; 101; 32; 102; 111; 114; 32; 97; 108; 108; 32; 103; 111; 111; 100; 32; 109; 101; 110; 32; 116; 111; 32; 99; 111; 109; 101; 32; 116; 111; 32; 116; 104; 101; 32; 97; 105; 100; 32; 111; 102; 32; 116; 104; 101; 105; 114; 32; 99; 111; 117; 110; 116; 114; 121; 46; 46; 46] = Ok (h1, h2, h3) /\
  first_line [84; 104; 105; 115; 32; 105] = Overread.
Proof. do 3 eexists. split; vm_compute; reflexivity. Qed.
