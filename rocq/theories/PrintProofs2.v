(** Bounds on the collisions of open addressing. *)
From Coq Require Import Arith NArith List Lia.
From Coq Require Import ZifyBool ZifyN ZifyNat.
From Verif Require Import Words HashTableModel HashTableSpec QualitySpec QualityProofs Parking Probing.
Import ListNotations.
Open Scope N_scope.

Lemma sumN_mono {A} (f g : A -> N) l : (forall a, In a l -> f a <= g a) -> sumN f l <= sumN g l.
Proof.
  induction l as [|a l IH]; intros H; [reflexivity|]. rewrite !sumN_cons. pose proof (H a (or_introl eq_refl)). specialize (IH (fun b Hb => H b (or_intror Hb))). lia.
Qed.
Section Bounds.
Variable m : N.
Hypothesis Hm : 1 <= m.
Lemma parked_bounds hs o F T U : parked m hs o F T U ->
  U <= N.of_nat (length hs) - 1 /\ U <= T /\ 2 * (T - U) <= (N.of_nat (length hs) - 1) * (N.of_nat (length hs) - 2).
Proof.
  induction 1 as [o F Ho HF|hs o F T U h d o' F' P IH Hh Hd Hf Hp Ho HF]; [cbn; lia|].
  destruct (parked_inv m Hm _ _ _ _ _ P) as (_ & _ & I4 & _).
  assert (D : d <= N.of_nat (length hs)).
  { rewrite <- I4, <- (rej_tot m Hm h d Hh) by lia. unfold tot. apply sumN_mono. intros a Ha. apply in_seq in Ha. set (s := N.of_nat a).
    assert (Hs : s < m) by lia. unfold rej. destruct (N.ltb_spec (off m s h) d) as [L|L]; [|cbn; lia].
    destruct (off_slot m Hm s h Hs Hh) as [S _]. specialize (Hp _ L). rewrite S in Hp. rewrite Hp. cbn. lia. }
  rewrite app_length. cbn [length]. destruct IH as (A & B & C). set (n := N.of_nat (length hs)) in *.
  replace (N.of_nat (length hs + 1)) with (n + 1) by lia. unfold b2n. destruct (N.eqb_spec d 0); cbn [negb]; [nia|].
  destruct (N.eq_dec n 1) as [->|N1]; [nia|]. assert (2 <= n) by lia.
  replace ((n + 1 - 1) * (n + 1 - 2)) with ((n - 1) * (n - 2) + 2 * (n - 1)) by nia. lia.
Qed.
Lemma parked_same hs o F T U h : parked m hs o F T U -> Forall (eq h) hs ->
  (forall s, s < m -> o s = (off m s h <? N.of_nat (length hs))) /\ U = N.of_nat (length hs) - 1 /\ 2 * T = N.of_nat (length hs) * (N.of_nat (length hs) - 1).
Proof.
  induction 1 as [o F Ho HF|hs o F T U h' d o' F' P IH Hh Hd Hf Hp Ho HF]; intros A.
  - split; [|cbn; lia]. intros s Hs. rewrite Ho by exact Hs. cbn. symmetry. apply N.ltb_ge. lia.
  - apply Forall_app in A. destruct A as [A1 A2]. inversion A2 as [|? ? E _]. subst h'. destruct (IH A1) as (B & C & D).
    set (n := N.of_nat (length hs)) in *. rewrite app_length. cbn [length]. replace (N.of_nat (length hs + 1)) with (n + 1) by lia.
    assert (Dn : d = n).
    { rewrite B in Hf by now apply slot_lt. rewrite slot_off in Hf by assumption. apply N.ltb_ge in Hf.
      destruct (N.le_gt_cases d n) as [|L]; [lia|]. specialize (Hp n L). rewrite B in Hp by (apply slot_lt; lia). rewrite slot_off in Hp by lia. lia. }
    split; [|split].
    + intros s Hs. rewrite Ho, B by exact Hs. subst d. destruct (N.eqb_spec s (slot m h n)) as [->|Ne].
      * rewrite slot_off by assumption. rewrite Bool.orb_true_r. symmetry. apply N.ltb_lt. lia.
      * rewrite Bool.orb_false_r. destruct (off_slot m Hm s h Hs Hh) as [S _].
        destruct (N.ltb_spec (off m s h) n), (N.ltb_spec (off m s h) (n + 1)); try reflexivity; try lia.
        exfalso. apply Ne. rewrite <- S. f_equal. lia.
    + unfold b2n. destruct (N.eqb_spec d 0); cbn [negb]; lia.
    + nia.
Qed.
Lemma parked_home hs o F T U : parked m hs o F T U -> (U = 0 -> NoDup hs) /\ (NoDup hs -> U = 0) /\ (U = 0 -> forall s, s < m -> o s = true <-> In s hs).
Proof.
  induction 1 as [o F Ho HF|hs o F T U h d o' F' P (I1 & I2 & I3) Hh Hd Hf Hp Ho HF].
  - split; [constructor|]. split; [reflexivity|]. intros _ s Hs. rewrite Ho by exact Hs. cbn. intuition discriminate.
  - assert (S0 : slot m h 0 = h) by (unfold slot; rewrite N.add_0_r; destruct (N.ltb_spec h m); [reflexivity|lia]).
    assert (Z : U + b2n (negb (d =? 0)) = 0 <-> U = 0 /\ d = 0) by (unfold b2n; destruct (N.eqb_spec d 0); cbn [negb]; lia). split; [|split].
    + intros E. apply Z in E. destruct E as [E ->]. rewrite S0 in Hf.
      assert (X : ~ In h hs) by (rewrite <- (I3 E h Hh), Hf; discriminate).
      clear -X I1 E. specialize (I1 E). induction I1 as [|a l Ha D IH]; cbn [app]; [repeat constructor; auto|].
      constructor; [|apply IH; intros C; apply X; now right]. rewrite in_app_iff. intros [C|[C|[]]]; [contradiction|]. subst a. apply X. now left.
    + intros D. apply Z. pose proof (NoDup_remove_1 hs [] h D) as D1. pose proof (NoDup_remove_2 hs [] h D) as D2. rewrite app_nil_r in D1, D2.
      specialize (I2 D1). split; [exact I2|]. destruct (N.eq_dec d 0) as [E|E]; [exact E|]. specialize (Hp 0 ltac:(lia)). rewrite S0 in Hp. apply (I3 I2 h Hh) in Hp. contradiction.
    + intros E s Hs. apply Z in E. destruct E as [E ->]. rewrite S0 in Ho. rewrite Ho, in_app_iff by exact Hs. rewrite Bool.orb_true_iff, (I3 E s Hs), N.eqb_eq. cbn. intuition congruence.
Qed.
End Bounds.
