(** Linear probing without keys: cars with a home on a circular street of [m] places,
    each taking the first free place from its home on.  The number of cars a place
    turned away, and where the taken places are, depend on the number of cars of each
    home only; the turned-away cars are counted exactly over all homes.  (Proof
    vocabulary of C96 and C97.) *)
From Coq Require Import Arith NArith List Lia Permutation.
From Coq Require Import ZifyBool ZifyN ZifyNat.
From Verif Require Import QualitySpec QualityProofs.
Import ListNotations.
Open Scope N_scope.

Definition b2n (b : bool) : N := if b then 1 else 0.
Section Street.
Variable m : N.
Hypothesis Hm : 1 <= m.

(** The place [d] steps after [h], the number of steps from [h] to [s], neighbours. *)
Definition slot (h d : N) : N := if h + d <? m then h + d else h + d - m.
Definition off (s h : N) : N := if h <=? s then s - h else s + m - h.
Definition nxt (s : N) : N := if s + 1 =? m then 0 else s + 1.
Definition prv (s : N) : N := if s =? 0 then m - 1 else s - 1.
Definition rej (h d s : N) : N := b2n (off s h <? d).

Inductive parked : list N -> (N -> bool) -> (N -> N) -> N -> N -> Prop :=
| p_nil o F : (forall s, s < m -> o s = false) -> (forall s, s < m -> F s = 0) -> parked [] o F 0 0
| p_snoc hs o F T U h d o' F' : parked hs o F T U -> h < m -> d < m ->
    o (slot h d) = false -> (forall e, e < d -> o (slot h e) = true) ->
    (forall s, s < m -> o' s = (o s || (s =? slot h d))%bool) -> (forall s, s < m -> F' s = F s + rej h d s) ->
    parked (hs ++ [h]) o' F' (T + d) (U + b2n (negb (d =? 0))).

Definition tot (g : N -> N) : N := sumN (fun a => g (N.of_nat a)) (seq 0 (N.to_nat m)).
Lemma tot_ext g g' : (forall s, s < m -> g s = g' s) -> tot g = tot g'.
Proof. intros H. apply sumN_ext. intros a Ha. apply in_seq in Ha. apply H. lia. Qed.
Lemma tot_plus g g' : tot (fun s => g s + g' s) = tot g + tot g'.
Proof. apply (sumN_plus (fun a => g (N.of_nat a))). Qed.
Lemma tot_mul c g : tot (fun s => c * g s) = c * tot g.
Proof. apply (sumN_mul c (fun a => g (N.of_nat a))). Qed.
Lemma tot_0 : tot (fun _ => 0) = 0.
Proof. unfold tot. now rewrite sumN_const. Qed.
Lemma tot_one c : c < m -> tot (fun s => b2n (c =? s)) = 1.
Proof. apply candidate_count. Qed.
Lemma seq_snoc c : seq 0 (S c) = seq 0 c ++ [c].
Proof. rewrite <- Nat.add_1_r, seq_app. reflexivity. Qed.
Lemma tot_nxt g : tot (fun s => g (nxt s)) = tot g.
Proof.
  unfold tot. destruct (N.to_nat m) as [|c] eqn:E; [lia|]. rewrite seq_snoc at 1. rewrite sumN_app. cbn [seq].
  rewrite (sumN_cons (fun a => g (N.of_nat a)) 0%nat). rewrite <- seq_shift, sumN_map.
  rewrite (sumN_ext (fun a => g (nxt (N.of_nat a))) (fun a => g (N.of_nat (S a))) (seq 0 c)).
  - cbn [sumN fold_right]. replace (nxt (N.of_nat c)) with 0 by (unfold nxt; destruct (N.eqb_spec (N.of_nat c + 1) m); lia). change (N.of_nat 0) with 0. lia.
  - intros a Ha. apply in_seq in Ha. f_equal. unfold nxt. destruct (N.eqb_spec (N.of_nat a + 1) m); lia.
Qed.

Lemma slot_lt h d : h < m -> d < m -> slot h d < m.
Proof. unfold slot. destruct (N.ltb_spec (h + d) m); lia. Qed.
Lemma slot_off h d : h < m -> d < m -> off (slot h d) h = d.
Proof. unfold slot, off. destruct (N.ltb_spec (h + d) m); [destruct (N.leb_spec h (h + d))|destruct (N.leb_spec h (h + d - m))]; lia. Qed.
Lemma off_slot s h : s < m -> h < m -> slot h (off s h) = s /\ off s h < m.
Proof. unfold slot, off. destruct (N.leb_spec h s); [destruct (N.ltb_spec (h + (s - h)) m)|destruct (N.ltb_spec (h + (s + m - h)) m)]; lia. Qed.
Lemma nxt_lt s : s < m -> nxt s < m.
Proof. unfold nxt. destruct (N.eqb_spec (s + 1) m); lia. Qed.
Lemma prv_lt s : s < m -> prv s < m.
Proof. unfold prv. destruct (N.eqb_spec s 0); lia. Qed.
Lemma prv_nxt s : s < m -> prv (nxt s) = s.
Proof. unfold nxt, prv. destruct (N.eqb_spec (s + 1) m); [destruct (N.eqb_spec 0 0); lia|destruct (N.eqb_spec (s + 1) 0); lia]. Qed.
Lemma nxt_prv s : s < m -> nxt (prv s) = s.
Proof. unfold nxt, prv. destruct (N.eqb_spec s 0); [destruct (N.eqb_spec (m - 1 + 1) m)|destruct (N.eqb_spec (s - 1 + 1) m)]; lia. Qed.
Lemma off_nxt s h : s < m -> h < m -> off (nxt s) h = if off s h + 1 =? m then 0 else off s h + 1.
Proof. unfold nxt, off. intros. destruct (N.eqb_spec (s + 1) m), (N.leb_spec h s); repeat match goal with |- context [?a <=? ?b] => destruct (N.leb_spec a b) | |- context [?a =? ?b] => destruct (N.eqb_spec a b) end; lia. Qed.
Lemma slot_eq s h d : s < m -> h < m -> d < m -> (s =? slot h d) = (off s h =? d).
Proof.
  intros Hs Hh Hd. destruct (N.eqb_spec (off s h) d) as [<-|Ne].
  - apply N.eqb_eq. symmetry. now apply off_slot.
  - apply N.eqb_neq. intros ->. apply Ne. now apply slot_off.
Qed.
Lemma rej_step s h d : s < m -> h < m -> d < m -> rej h d s + b2n (h =? nxt s) = rej h d (nxt s) + b2n (nxt s =? slot h d).
Proof.
  intros Hs Hh Hd. rewrite slot_eq by auto using nxt_lt. unfold rej. rewrite off_nxt by assumption.
  assert (E : (h =? nxt s) = (off s h + 1 =? m)).
  { unfold nxt, off. destruct (N.eqb_spec (s + 1) m), (N.leb_spec h s); repeat match goal with |- context [?a =? ?b] => destruct (N.eqb_spec a b) end; lia. }
  rewrite E. pose proof (proj2 (off_slot s h Hs Hh)) as B. destruct (N.eqb_spec (off s h + 1) m); unfold b2n;
  repeat match goal with |- context [?a <? ?b] => destruct (N.ltb_spec a b) | |- context [?a =? ?b] => destruct (N.eqb_spec a b) end; lia.
Qed.
Lemma rej_tot h d : h < m -> d <= m -> tot (rej h d) = d.
Proof.
  intros Hh. induction d as [|d IH] using N.peano_ind; intros Hd.
  - rewrite (tot_ext _ (fun _ => 0)); [apply tot_0|]. intros s _. unfold rej. destruct (N.ltb_spec (off s h) 0); [lia|reflexivity].
  - rewrite (tot_ext _ (fun s => rej h d s + b2n (slot h d =? s))).
    + rewrite tot_plus, IH, tot_one by (try apply slot_lt; lia). lia.
    + intros s Hs. rewrite (N.eqb_sym (slot h d) s), slot_eq by lia. unfold rej, b2n.
      destruct (N.ltb_spec (off s h) (N.succ d)), (N.ltb_spec (off s h) d), (N.eqb_spec (off s h) d); lia.
Qed.

(** Number of cars with home [s]. *)
Definition homes (s : N) (hs : list N) : N := sumN (fun h => b2n (h =? s)) hs.
Lemma homes_snoc s hs h : homes s (hs ++ [h]) = homes s hs + b2n (h =? s).
Proof. unfold homes. rewrite sumN_app. cbn [sumN fold_right]. lia. Qed.
Lemma homes_perm s hs hs' : Permutation hs hs' -> homes s hs = homes s hs'.
Proof. intros P. unfold homes. induction P; rewrite ?sumN_cons; lia. Qed.

(** What the street satisfies, in terms of the homes alone. *)
Definition balanced (X : N -> N) (o : N -> bool) (F : N -> N) : Prop :=
  (forall s, s < m -> F s + X (nxt s) = F (nxt s) + b2n (o (nxt s))) /\
  (forall s, s < m -> o s = false -> F s = 0) /\
  (exists s, s < m /\ F s = 0).
Lemma balanced_le X o F o' F' : balanced X o F -> balanced X o' F' -> forall s, s < m -> F s <= F' s.
Proof.
  intros (A1 & A2 & (z & Hz & A3)) (B1 & B2 & _) s Hs. destruct (N.le_gt_cases (F s) (F' s)) as [L|G]; [exact L|exfalso].
  assert (Back : forall s, s < m -> F' (nxt s) < F (nxt s) -> F' s < F s).
  { intros t Ht Gt. specialize (A1 t Ht). specialize (B1 t Ht). destruct (o (nxt t)) eqn:E.
    - unfold b2n in *. destruct (o' (nxt t)); lia.
    - rewrite (A2 _ (nxt_lt t Ht) E) in Gt. lia. }
  assert (Down : forall t, t < m -> F' t < F t -> forall u, u <= t -> F' u < F u).
  { intros t. induction t as [|t IH] using N.peano_ind; intros Ht Gt u Hu.
    - now replace u with 0 by lia.
    - destruct (N.eq_dec u (N.succ t)) as [->|]; [exact Gt|]. apply IH; [lia| |lia]. apply Back; [lia|]. replace (nxt t) with (N.succ t); [exact Gt|].
      unfold nxt. destruct (N.eqb_spec (t + 1) m); lia. }
  assert (G0 : F' 0 < F 0) by (apply (Down s Hs G); lia).
  assert (Gl : F' (m - 1) < F (m - 1)).
  { apply Back; [lia|]. replace (nxt (m - 1)) with 0; [exact G0|]. unfold nxt. destruct (N.eqb_spec (m - 1 + 1) m); lia. }
  pose proof (Down (m - 1) ltac:(lia) Gl z ltac:(lia)). lia.
Qed.
Lemma balanced_unique X o F o' F' : balanced X o F -> balanced X o' F' -> forall s, s < m -> F s = F' s /\ o s = o' s.
Proof.
  intros A B. assert (E : forall s, s < m -> F s = F' s).
  { intros s Hs. pose proof (balanced_le _ _ _ _ _ A B s Hs). pose proof (balanced_le _ _ _ _ _ B A s Hs). lia. }
  intros s Hs. split; [now apply E|]. destruct A as (A1 & _). destruct B as (B1 & _). specialize (A1 _ (prv_lt s Hs)). specialize (B1 _ (prv_lt s Hs)).
  rewrite nxt_prv in A1, B1 by exact Hs. rewrite (E s Hs), (E _ (prv_lt s Hs)) in A1. unfold b2n in *. destruct (o s), (o' s); auto; lia.
Qed.

Lemma parked_inv hs o F T U : parked hs o F T U ->
  Forall (fun h => h < m) hs /\ balanced (fun s => homes s hs) o F /\ tot (fun s => b2n (o s)) = N.of_nat (length hs) /\ tot F = T.
Proof.
  induction 1 as [o F Ho HF|hs o F T U h d o' F' P (I0 & (I1 & I2 & I3) & I4 & I5) Hh Hd Hf Hp Ho HF].
  - split; [constructor|]. split; [|split].
    + split; [|split]; [intros s Hs|intros s Hs _; auto|exists 0; split; [lia|apply HF; lia]].
      rewrite !HF, Ho by auto using nxt_lt. reflexivity.
    + rewrite (tot_ext _ (fun _ => 0)); [apply tot_0|]. intros s Hs. now rewrite Ho.
    + rewrite (tot_ext _ (fun _ => 0)); [apply tot_0|]. exact HF.
  - pose proof (slot_lt h d Hh Hd) as Hs0. split; [apply Forall_app; split; [exact I0|constructor; [exact Hh|constructor]]|]. split; [split; [|split]|split].
    + intros s Hs. rewrite !HF, Ho by auto using nxt_lt. rewrite homes_snoc. pose proof (rej_step s h d Hs Hh Hd) as R. specialize (I1 s Hs).
      assert (E : b2n (o (nxt s) || (nxt s =? slot h d)) = b2n (o (nxt s)) + b2n (nxt s =? slot h d)).
      { destruct (N.eqb_spec (nxt s) (slot h d)) as [E|_]; [rewrite E, Hf; reflexivity|]. rewrite Bool.orb_false_r. unfold b2n. lia. }
      rewrite E. lia.
    + intros s Hs E. rewrite Ho in E by exact Hs. apply Bool.orb_false_iff in E. destruct E as [E1 E2]. rewrite HF, (I2 s Hs E1) by exact Hs.
      unfold rej. destruct (N.ltb_spec (off s h) d) as [L|]; [|reflexivity]. destruct (off_slot s h Hs Hh) as [S _]. rewrite <- S, (Hp _ L) in E1. discriminate.
    + exists (slot h d). split; [exact Hs0|]. rewrite HF, (I2 _ Hs0 Hf) by exact Hs0. unfold rej. rewrite slot_off by assumption. destruct (N.ltb_spec d d); [lia|reflexivity].
    + rewrite (tot_ext _ (fun s => b2n (o s) + b2n (slot h d =? s))).
      * rewrite tot_plus, I4, tot_one by exact Hs0. rewrite app_length. cbn [length]. lia.
      * intros s Hs. rewrite Ho, N.eqb_sym by exact Hs. destruct (N.eqb_spec (slot h d) s) as [<-|_]; [rewrite Hf; reflexivity|]. rewrite Bool.orb_false_r. unfold b2n. lia.
    + rewrite (tot_ext _ (fun s => F s + rej h d s)) by exact HF. rewrite tot_plus, I5, rej_tot by lia. reflexivity.
Qed.
(** Order does not matter. *)
Lemma parked_order hs hs' o F T U o' F' T' U' : parked hs o F T U -> parked hs' o' F' T' U' -> Permutation hs hs' ->
  (forall s, s < m -> F s = F' s /\ o s = o' s) /\ T = T'.
Proof.
  intros P P' Pm. destruct (parked_inv _ _ _ _ _ P) as (_ & B & _ & <-). destruct (parked_inv _ _ _ _ _ P') as (_ & B' & _ & <-).
  assert (X : forall s, s < m -> F s = F' s /\ o s = o' s).
  { apply (balanced_unique (fun s => homes s hs)); [exact B|]. destruct B' as (B1 & B2). split; [|exact B2]. intros s Hs. rewrite (homes_perm _ _ _ Pm). now apply B1. }
  split; [exact X|]. apply tot_ext. intros s Hs. now apply X.
Qed.

(** ** The street as a function of the homes *)
Definition place (o : N -> bool) (h : N) : N :=
  match find (fun d => negb (o (slot h d))) (map N.of_nat (seq 0 (N.to_nat m))) with Some d => d | None => 0 end.
Definition street (v : list N) : (N -> bool) * (N -> N) * N * N :=
  fold_left (fun '(o, F, T, U) h => let d := place o h in
    (fun s => (o s || (s =? slot h d))%bool, fun s => F s + rej h d s, T + d, U + b2n (negb (d =? 0))))
    v (fun _ => false, fun _ => 0, 0, 0).
Definition flow (v : list N) : N -> N := snd (fst (fst (street v))).
Lemma find_least (f : N -> bool) c s : (exists d, (s <= d)%nat /\ (d < s + c)%nat /\ f (N.of_nat d) = true) ->
  exists d, find f (map N.of_nat (seq s c)) = Some d /\ d < N.of_nat (s + c) /\ f d = true /\ forall e, N.of_nat s <= e < d -> f e = false.
Proof.
  revert s. induction c as [|c IH]; intros s (d & H1 & H2 & H3); [lia|]. cbn [seq map find]. destruct (f (N.of_nat s)) eqn:E.
  - exists (N.of_nat s). repeat split; auto; lia.
  - destruct (IH (S s)) as (d' & F1 & F2 & F3 & F4); [exists d; repeat split; auto; [|lia]|].
    { destruct (Nat.eq_dec s d) as [->|]; [congruence|lia]. }
    exists d'. repeat split; auto; [lia|]. intros e He. destruct (N.eq_dec e (N.of_nat s)) as [->|]; [exact E|]. apply F4. lia.
Qed.
Lemma tot_full (o : N -> bool) : (forall s, s < m -> o s = true) -> tot (fun s => b2n (o s)) = m.
Proof.
  intros H. rewrite (tot_ext _ (fun _ => 1)) by (intros s Hs; now rewrite H). unfold tot. rewrite sumN_const, seq_length. lia.
Qed.
Lemma free_exists (o : N -> bool) : tot (fun s => b2n (o s)) < m -> exists s, s < m /\ o s = false.
Proof.
  intros H. destruct (find (fun a => negb (o (N.of_nat a))) (seq 0 (N.to_nat m))) as [a|] eqn:E.
  - apply find_some in E. destruct E as [E1 E2]. apply in_seq in E1. exists (N.of_nat a). split; [lia|]. now apply Bool.negb_true_iff.
  - rewrite tot_full in H; [lia|]. intros s Hs. pose proof (find_none _ _ E (N.to_nat s) ltac:(apply in_seq; lia)) as F. cbv beta in F. rewrite N2Nat.id in F. now apply Bool.negb_false_iff.
Qed.
Lemma street_parked v : Forall (fun h => h < m) v -> N.of_nat (length v) <= m ->
  let '(o, F, T, U) := street v in parked v o F T U.
Proof.
  induction v as [|h v IH] using rev_ind; intros H L; [constructor; reflexivity|]. apply Forall_app in H. destruct H as [Hv Hh]. inversion Hh as [|? ? Hh' _]; subst.
  rewrite app_length in L. cbn [length] in L. specialize (IH Hv ltac:(lia)). unfold street. rewrite fold_left_app. fold (street v). destruct (street v) as (((o & F) & T) & U). cbn [fold_left].
  destruct (parked_inv _ _ _ _ _ IH) as (_ & _ & I4 & _). destruct (free_exists o) as (s & Hs & Es); [lia|].
  destruct (find_least (fun d => negb (o (slot h d))) (N.to_nat m) 0) as (d & F1 & F2 & F3 & F4).
  { exists (N.to_nat (off s h)). destruct (off_slot s h Hs Hh') as [X Y]. rewrite N2Nat.id, X, Es. repeat split; lia. }
  assert (P : place o h = d) by (unfold place; now rewrite F1). rewrite P.
  apply (p_snoc v o F T U h d); auto; [lia|now apply Bool.negb_true_iff|]. intros e He. apply Bool.negb_false_iff. apply F4. lia.
Qed.

(** ** A car turned away at every place but the one before its home *)
Lemma tot_swap (g : N -> N -> N) l : tot (fun s => sumN (fun h => g h s) l) = sumN (fun h => tot (g h)) l.
Proof. unfold tot. apply (sumN_swap (fun a h => g h (N.of_nat a))). Qed.
Lemma tot_point g c : c < m -> tot (fun s => g s * b2n (c =? s)) = g c.
Proof.
  intros Hc. rewrite (tot_ext _ (fun s => g c * b2n (c =? s))); [rewrite tot_mul, tot_one by exact Hc; lia|]. intros s _. destruct (N.eqb_spec c s) as [->|]; unfold b2n; lia.
Qed.
Lemma homes_tot hs : Forall (fun h => h < m) hs -> tot (fun s => homes s hs) = N.of_nat (length hs).
Proof.
  intros H. unfold homes. rewrite (tot_swap (fun h s => b2n (h =? s))). rewrite (sumN_ext _ (fun _ => 1)); [rewrite sumN_const; lia|].
  intros h Hh. rewrite Forall_forall in H. now apply tot_one, H.
Qed.
Lemma homes_filter a hs : homes a hs = N.of_nat (length (filter (fun b => b =? a) hs)).
Proof. unfold homes. induction hs as [|h hs IH]; [reflexivity|]. rewrite sumN_cons, IH. cbn [filter]. destruct (h =? a); cbn [length b2n]; lia. Qed.
Lemma homes_squares hs : Forall (fun h => h < m) hs -> tot (fun s => homes s hs * homes s hs) = N.of_nat (length hs) + 2 * eq_pairs hs.
Proof.
  intros H. transitivity (sumN (fun h => homes h hs) hs).
  - unfold homes at 2. rewrite (tot_ext _ (fun s => sumN (fun h => homes s hs * b2n (h =? s)) hs)) by (intros; now rewrite sumN_mul).
    rewrite (tot_swap (fun h s => homes s hs * b2n (h =? s))). apply sumN_ext. intros h Hh. rewrite Forall_forall in H. apply (tot_point (fun s => homes s hs)). now apply H.
  - clear H. induction hs as [|a hs IH]; [reflexivity|]. rewrite sumN_cons. cbn [eq_pairs length]. rewrite <- homes_filter.
    rewrite (sumN_ext _ (fun h => b2n (h =? a) + homes h hs)).
    + rewrite sumN_plus, IH. fold (homes a hs). unfold homes at 1. rewrite sumN_cons, N.eqb_refl. fold (homes a hs). unfold b2n. lia.
    + intros h _. unfold homes. now rewrite sumN_cons, N.eqb_sym.
Qed.
Lemma homes_flow F hs : Forall (fun h => h < m) hs -> tot (fun s => F s * homes (nxt s) hs) = sumN (fun h => F (prv h)) hs.
Proof.
  intros H. unfold homes. rewrite (tot_ext _ (fun s => sumN (fun h => F s * b2n (h =? nxt s)) hs)) by (intros; now rewrite sumN_mul).
  rewrite (tot_swap (fun h s => F s * b2n (h =? nxt s))). apply sumN_ext. intros h Hh. rewrite Forall_forall in H. specialize (H h Hh).
  rewrite (tot_ext _ (fun s => F (prv (nxt s)) * b2n (h =? nxt s))) by (intros s Hs; now rewrite prv_nxt).
  rewrite (tot_nxt (fun s => F (prv s) * b2n (h =? s))). apply (tot_point (fun s => F (prv s))). exact H.
Qed.
Lemma balance_squares hs o F : Forall (fun h => h < m) hs -> balanced (fun s => homes s hs) o F -> tot (fun s => b2n (o s)) = N.of_nat (length hs) ->
  tot F = sumN (fun h => F (prv h)) hs + eq_pairs hs.
Proof.
  intros H (I1 & I2 & _) I4. rewrite <- homes_flow by exact H. pose proof (homes_tot hs H) as X1. pose proof (homes_squares hs H) as X2.
  assert (E : tot (fun s => F (nxt s) * F (nxt s) + 2 * (F s + homes (nxt s) hs)) =
              tot (fun s => F s * F s + 2 * (F s * homes (nxt s) hs) + homes (nxt s) hs * homes (nxt s) hs + b2n (o (nxt s)))).
  { apply tot_ext. intros s Hs. specialize (I1 s Hs). destruct (o (nxt s)) eqn:E.
    - cbn [b2n] in *. assert (F (nxt s) = F s + homes (nxt s) hs - 1) by lia. nia.
    - rewrite (I2 _ (nxt_lt s Hs) E) in *. cbn [b2n] in *. assert (F s = 0) by lia. assert (homes (nxt s) hs = 0) by lia. nia. }
  rewrite !tot_plus in E. rewrite !tot_mul, tot_plus in E.
  rewrite (tot_nxt (fun s => F s * F s)), (tot_nxt (fun s => homes s hs)), (tot_nxt (fun s => homes s hs * homes s hs)), (tot_nxt (fun s => b2n (o s))) in E. lia.
Qed.

(** ** Taking one car out *)
Fixpoint picks (v : list N) : list (N * list N) :=
  match v with [] => [] | a :: v => (a, v) :: map (fun '(b, w) => (b, a :: w)) (picks v) end.
Lemma picks_fst v : map fst (picks v) = v.
Proof. induction v as [|a v IH]; [reflexivity|]. cbn [picks map fst]. f_equal. rewrite map_map. rewrite <- IH at 2. apply map_ext. now intros (b & w). Qed.
Lemma picks_perm v b w : In (b, w) (picks v) -> Permutation (w ++ [b]) v.
Proof.
  revert b w. induction v as [|a v IH]; intros b w; [intros []|]. cbn [picks]. intros [E|I].
  - injection E as <- <-. apply Permutation_sym, Permutation_cons_append.
  - apply in_map_iff in I. destruct I as ((b' & w') & E & I). injection E as <- <-. cbn [app]. apply perm_skip. now apply IH.
Qed.
Lemma flow_without v b w : Forall (fun h => h < m) v -> N.of_nat (length v) <= m -> In (b, w) (picks v) -> flow v (prv b) = flow w (prv b).
Proof.
  intros H L I. pose proof (picks_perm _ _ _ I) as P.
  assert (H' : Forall (fun h => h < m) (w ++ [b])) by (eapply Permutation_Forall; [apply Permutation_sym; exact P|exact H]).
  pose proof (Permutation_length P) as Lp. rewrite app_length in Lp. cbn [length] in Lp. apply Forall_app in H' as Hs. destruct Hs as [Hw Hb]. inversion Hb as [|? ? Hb' _]; subst.
  pose proof (street_parked v H L) as Pv. pose proof (street_parked (w ++ [b]) H' ltac:(rewrite app_length; cbn [length]; lia)) as Pw.
  unfold flow. unfold street in Pw at 1. rewrite fold_left_app in Pw. fold (street w) in Pw.
  destruct (street v) as (((o & F) & T) & U). destruct (street w) as (((o1 & F1) & T1) & U1) eqn:Ew. cbn [fold_left fst snd] in *.
  destruct (parked_order _ _ _ _ _ _ _ _ _ _ Pw Pv P) as (X & _). rewrite <- (proj1 (X (prv b) (prv_lt b Hb'))).
  assert (Hd : place o1 b < m).
  { unfold place. destruct (find _ _) as [d|] eqn:E; [|lia]. apply find_some in E. destruct E as [E _]. apply in_map_iff in E. destruct E as (a & <- & Ha). apply in_seq in Ha. lia. }
  unfold rej. replace (off (prv b) b <? place o1 b) with false; [cbn [b2n]; lia|]. symmetry. apply N.ltb_ge.
  unfold off, prv. destruct (N.eqb_spec b 0); [destruct (N.leb_spec b (m - 1))|destruct (N.leb_spec b (b - 1))]; lia.
Qed.
Lemma flow_total v : Forall (fun h => h < m) v -> N.of_nat (length v) <= m ->
  tot (flow v) = sumN (fun '(b, w) => flow w (prv b)) (picks v) + eq_pairs v.
Proof.
  intros H L. pose proof (street_parked v H L) as P. assert (Fe : flow v = snd (fst (fst (street v)))) by reflexivity. destruct (street v) as (((o & F) & T) & U). cbn [fst snd] in Fe.
  destruct (parked_inv _ _ _ _ _ P) as (_ & B & I4 & _). rewrite Fe, (balance_squares v o F H B I4). f_equal. rewrite <- Fe.
  transitivity (sumN (fun h => flow v (prv h)) (map fst (picks v))); [now rewrite picks_fst|]. rewrite sumN_map. apply sumN_ext. intros (b & w) I. cbn [fst]. now apply flow_without.
Qed.

(** ** Sums over all homes *)
Lemma picks_sum n (g : N -> list N -> N) :
  sumN (fun v => sumN (fun '(b, w) => g b w) (picks v)) (assignments m (S n)) = N.of_nat (S n) * sumN (fun w => tot (fun b => g b w)) (assignments m n).
Proof.
  revert g. induction n as [|n IH]; intros g.
  - cbn [assignments flat_map]. rewrite app_nil_r, sumN_map. cbn [picks map]. unfold tot. cbn [sumN fold_right]. rewrite N.add_0_r. rewrite N.mul_1_l. apply sumN_ext. intros a _. lia.
  - remember (S n) as n1. cbn [assignments]. rewrite sumN_flat.
    rewrite (sumN_ext _ (fun v => tot (fun a => g a v) + tot (fun a => sumN (fun '(b, w) => g b (a :: w)) (picks v)))).
    + rewrite sumN_plus. unfold tot at 2. rewrite (sumN_swap (fun v a => sumN (fun '(b, w) => g b (N.of_nat a :: w)) (picks v))).
      rewrite (sumN_ext (fun a => sumN _ (assignments m n1)) (fun a => N.of_nat n1 * sumN (fun w => tot (fun b => g b (N.of_nat a :: w))) (assignments m n))).
      2:{ intros a _. subst n1. apply (IH (fun b w => g b (N.of_nat a :: w))). }
      rewrite sumN_mul. rewrite (sumN_swap (fun a w => tot (fun b => g b (N.of_nat a :: w)))).
      replace (sumN (fun b => sumN (fun a => tot (fun b0 => g b0 (N.of_nat a :: b))) (seq 0 (N.to_nat m))) (assignments m n)) with (sumN (fun w => tot (fun b => g b w)) (assignments m n1)); [lia|].
      subst n1. cbn [assignments]. rewrite sumN_flat. apply sumN_ext. intros w _. now rewrite sumN_map.
    + intros v _. rewrite sumN_map. unfold tot. rewrite <- sumN_plus. apply sumN_ext. intros a _. cbn [picks]. rewrite sumN_cons, sumN_map. f_equal. apply sumN_ext. now intros (b & w) _.
Qed.
Definition displaced (n : nat) : N := sumN (fun v => tot (flow v)) (assignments m n).
Lemma displaced_rec n : N.of_nat (S n) <= m -> displaced (S n) = N.of_nat (S n) * displaced n + sumN eq_pairs (assignments m (S n)).
Proof.
  intros L. unfold displaced. rewrite (sumN_ext _ (fun v => sumN (fun '(b, w) => flow w (prv b)) (picks v) + eq_pairs v)).
  - rewrite sumN_plus, (picks_sum n (fun b w => flow w (prv b))). do 2 f_equal. apply sumN_ext. intros w _.
    rewrite <- (tot_nxt (fun b => flow w (prv b))). apply tot_ext. intros s Hs. now rewrite prv_nxt.
  - intros v Hv. apply assignments_in in Hv. destruct Hv as [Lv H]. apply flow_total; [exact H|lia].
Qed.
End Street.
