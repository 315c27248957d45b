(** C94: the hash quality of a table, averaged over all placements, and its extreme values. *)
From Coq Require Import ZArith QArith List Lia Permutation.
From Verif Require Import Words WordLemmas HashTableModel HashTableSpec HashTableProofs HashTableProps QualitySpec.
Import ListNotations.
Open Scope N_scope.

Lemma assignments_in m n v : In v (assignments m n) <-> length v = n /\ Forall (fun a => a < m) v.
Proof.
  revert v. induction n as [|n IH]; intros v; cbn [assignments].
  - split; [intros [<-|[]]; split; [reflexivity|constructor]|]. intros [L _]. destruct v; [now left|discriminate].
  - rewrite in_flat_map. split.
    + intros (u & Hu & Hv). apply IH in Hu. destruct Hu as [L F]. apply in_map_iff in Hv. destruct Hv as (a & <- & Ha). apply in_seq in Ha.
      split; [cbn; lia|]. constructor; [lia|exact F].
    + intros [L F]. destruct v as [|a v]; [discriminate|]. inversion F as [|? ? Fa Fv]; subst. exists v. split; [apply IH; split; [cbn in L; lia|exact Fv]|].
      apply in_map_iff. exists (N.to_nat a). split; [now rewrite N2Nat.id|]. apply in_seq. lia.
Qed.
Lemma NoDup_app3 {A} (l l' : list A) : NoDup l -> NoDup l' -> (forall x, In x l -> ~ In x l') -> NoDup (l ++ l').
Proof.
  intros H H' D. induction H as [|a l Ha Hl IH]; [exact H'|]. cbn. constructor.
  - rewrite in_app_iff. intros [I|I]; [now apply Ha|]. exact (D a (or_introl eq_refl) I).
  - apply IH. intros x Hx. apply D. now right.
Qed.
Lemma assignments_NoDup m n : NoDup (assignments m n).
Proof.
  induction n as [|n IH]; cbn [assignments]; [constructor; [easy|constructor]|].
  induction IH as [|v l Hv Hl IH']; [constructor|]. cbn [flat_map]. apply NoDup_app3; [|exact IH'|].
  - apply FinFun.Injective_map_NoDup; [|apply seq_NoDup]. intros a b E. injection E as E. lia.
  - intros x Hx Hx'. apply in_map_iff in Hx as (a & <- & _). apply in_flat_map in Hx' as (u & Hu & Hx'). apply in_map_iff in Hx' as (b & E & _).
    injection E as E1 E2. congruence.
Qed.

(** Pairs of equal numbers. *)
Fixpoint eq_pairs (l : list N) : N :=
  match l with [] => 0 | a :: r => N.of_nat (length (filter (fun b => b =? a) r)) + eq_pairs r end.
Lemma equal_hash_pairs_map hf ks : equal_hash_pairs hf ks = eq_pairs (map hf ks).
Proof.
  induction ks as [|k ks IH]; [reflexivity|]. cbn [equal_hash_pairs map eq_pairs]. rewrite IH. f_equal. f_equal.
  generalize (hf k) as a. intros a. clear IH. induction ks as [|k' ks IH]; [reflexivity|]. cbn [filter map]. destruct (hf k' =? a); cbn [length]; now rewrite IH.
Qed.
Lemma given_map ks v : NoDup ks -> length ks = length v -> map (given ks v) ks = v.
Proof.
  revert v. induction ks as [|k ks IH]; intros v H L; [destruct v; [reflexivity|discriminate]|]. destruct v as [|a v]; [discriminate|].
  inversion H as [|? ? Hk Hks]; subst. cbn [map given]. destruct (list_eq_dec N.eq_dec k k); [|contradiction]. f_equal.
  transitivity (map (given ks v) ks); [|apply IH; [exact Hks|cbn in L; lia]]. apply map_ext_in. intros k' Hk'. destruct (list_eq_dec N.eq_dec k k') as [->|]; [contradiction|reflexivity].
Qed.

Lemma sumN_cons {A} (f : A -> N) a l : sumN f (a :: l) = f a + sumN f l.
Proof. reflexivity. Qed.
Lemma sumN_app {A} (f : A -> N) l l' : sumN f (l ++ l') = sumN f l + sumN f l'.
Proof. induction l as [|a l IH]; [reflexivity|]. cbn [app]. rewrite !sumN_cons, IH. lia. Qed.
Lemma sumN_ext {A} (f g : A -> N) l : (forall a, In a l -> f a = g a) -> sumN f l = sumN g l.
Proof. intros H. induction l as [|a l IH]; [reflexivity|]. rewrite !sumN_cons, IH by (intros; apply H; now right). now rewrite (H a (or_introl eq_refl)). Qed.
Lemma sumN_flat {A B} (f : B -> N) (g : A -> list B) l : sumN f (flat_map g l) = sumN (fun a => sumN f (g a)) l.
Proof. induction l as [|a l IH]; [reflexivity|]. cbn [flat_map]. rewrite sumN_app, IH. reflexivity. Qed.
Lemma sumN_map {A B} (f : B -> N) (g : A -> B) l : sumN f (map g l) = sumN (fun a => f (g a)) l.
Proof. induction l as [|a l IH]; [reflexivity|]. cbn [map]. now rewrite !sumN_cons, IH. Qed.
Lemma sumN_plus {A} (f g : A -> N) l : sumN (fun a => f a + g a) l = sumN f l + sumN g l.
Proof. induction l as [|a l IH]; [reflexivity|]. rewrite !sumN_cons, IH. lia. Qed.
Lemma sumN_const {A} c (l : list A) : sumN (fun _ => c) l = c * N.of_nat (length l).
Proof. induction l as [|a l IH]; [cbn; lia|]. rewrite sumN_cons, IH. cbn [length]. lia. Qed.
Lemma sumN_mul {A} c (f : A -> N) l : sumN (fun a => c * f a) l = c * sumN f l.
Proof. induction l as [|a l IH]; [cbn; lia|]. rewrite !sumN_cons, IH. lia. Qed.

Lemma sumN_swap {A B} (f : A -> B -> N) l l' : sumN (fun a => sumN (f a) l') l = sumN (fun b => sumN (fun a => f a b) l) l'.
Proof.
  induction l as [|a l IH]; [cbn [sumN fold_right]; symmetry; apply (sumN_const 0)|]. rewrite sumN_cons, IH, <- sumN_plus. apply sumN_ext. intros b _. now rewrite sumN_cons.
Qed.
Lemma assignments_length m n : N.of_nat (length (assignments m n)) = m ^ N.of_nat n.
Proof.
  induction n as [|n IH]; [reflexivity|]. rewrite Nat2N.inj_succ, N.pow_succ_r', <- IH. cbn [assignments]. clear IH.
  induction (assignments m n) as [|v l IHl]; [cbn; lia|]. cbn [flat_map]. rewrite app_length, map_length, seq_length. cbn [length]. lia.
Qed.
(** Each number of a list is met by exactly one of the m candidates. *)
Lemma candidate_count m b : (b < m) -> sumN (fun a => if b =? N.of_nat a then 1 else 0) (seq 0 (N.to_nat m)) = 1.
Proof.
  intros Hb. assert (Z : forall c s, (forall i, (s <= i < s + c)%nat -> N.of_nat i <> b) -> sumN (fun a => if b =? N.of_nat a then 1 else 0) (seq s c) = 0).
  { induction c as [|c IH]; intros s Hs; [reflexivity|]. cbn [seq]. rewrite sumN_cons, IH by (intros; apply Hs; lia).
    destruct (N.eqb_spec b (N.of_nat s)); [exfalso; apply (Hs s); lia|reflexivity]. }
  replace (N.to_nat m) with (N.to_nat b + S (N.to_nat m - N.to_nat b - 1))%nat by lia. rewrite seq_app, sumN_app. cbn [Nat.add seq].
  rewrite (Z (N.to_nat b) 0%nat) by lia. rewrite sumN_cons, (Z _ (S (N.to_nat b))) by lia. rewrite N2Nat.id, N.eqb_refl. reflexivity.
Qed.
Lemma candidates m v : Forall (fun a => a < m) v -> sumN (fun a => N.of_nat (length (filter (fun b => b =? N.of_nat a) v))) (seq 0 (N.to_nat m)) = N.of_nat (length v).
Proof.
  intros H. induction H as [|b v Hb Hv IH]; [cbn [filter length]; rewrite sumN_const; reflexivity|].
  rewrite (sumN_ext _ (fun a => (if b =? N.of_nat a then 1 else 0) + N.of_nat (length (filter (fun b => b =? N.of_nat a) v)))).
  - rewrite sumN_plus, IH, candidate_count by exact Hb. cbn [length]. lia.
  - intros a _. cbn [filter]. destruct (b =? N.of_nat a); cbn [length]; lia.
Qed.
Lemma pairs_total m n : 2 * m * sumN eq_pairs (assignments m n) + N.of_nat n * m ^ N.of_nat n = N.of_nat n * N.of_nat n * m ^ N.of_nat n.
Proof.
  induction n as [|n IH]; [cbn; lia|]. cbn [assignments]. rewrite sumN_flat.
  rewrite (sumN_ext _ (fun v => N.of_nat n + m * eq_pairs v)).
  - rewrite sumN_plus, sumN_const, sumN_mul, assignments_length, Nat2N.inj_succ, N.pow_succ_r'. set (s := sumN eq_pairs _) in *. set (q := m ^ N.of_nat n) in *. nia.
  - intros v Hv. apply assignments_in in Hv. destruct Hv as [L F]. rewrite sumN_map. cbn [eq_pairs]. rewrite sumN_plus, sumN_const, seq_length, N2Nat.id, candidates by exact F. lia.
Qed.

Lemma sum_Q_ext {A} (f g : A -> Q) l : (forall a, In a l -> f a == g a)%Q -> (sum_Q f l == sum_Q g l)%Q.
Proof.
  intros H. induction l as [|a l IH]; [reflexivity|]. cbn [sum_Q fold_right]. fold (sum_Q f l) (sum_Q g l). rewrite IH by (intros; apply H; now right). now rewrite (H a (or_introl eq_refl)).
Qed.
Lemma sum_Q_div {A} (f : A -> N) (d : Q) l : (sum_Q (fun a => inject_Z (Z.of_N (f a)) / d) l == inject_Z (Z.of_N (sumN f l)) / d)%Q.
Proof.
  induction l as [|a l IH]; [cbn; unfold Qdiv; ring|]. cbn [sum_Q sumN fold_right]. fold (sum_Q (fun a => inject_Z (Z.of_N (f a)) / d)%Q l) (sumN f l).
  rewrite IH, N2Z.inj_add, inject_Z_plus. unfold Qdiv. ring.
Qed.
