(** Counting keys with a given hash. *)
From Coq Require Import NArith List Lia Arith Permutation.
From Verif Require Import Words WordLemmas Bij Mm3Coll UniformSpec.
Import ListNotations.
Open Scope N_scope.

Lemma in_all_bytes x : In x all_bytes <-> x < 256.
Proof.
  unfold all_bytes. rewrite in_map_iff. split.
  - intros (y & <- & H). apply in_seq in H. lia.
  - intros H. exists (N.to_nat x). split; [lia|]. apply in_seq. lia.
Qed.
Lemma in_all_keys n : forall k, In k (all_keys n) <-> length k = n /\ bytes_ok k.
Proof.
  induction n as [|n IH]; intros k; cbn [all_keys].
  - cbn. split; [intros [<-|[]]; split; [reflexivity|constructor]|intros [H _]; left; destruct k; [reflexivity|discriminate]].
  - rewrite in_flat_map. split.
    + intros (b & Hb & Hk). apply in_map_iff in Hk. destruct Hk as (r & <- & Hr). apply IH in Hr. destruct Hr as [L O].
      split; [cbn; congruence|]. constructor; [|exact O]. now apply in_all_bytes.
    + intros [L O]. destruct k as [|b r]; [discriminate|]. inversion O; subst. exists b. split; [now apply in_all_bytes|].
      apply in_map. apply IH. cbn in L. split; [congruence|assumption].
Qed.
Lemma nodup_flat_cons (l : list N) (r : list (list N)) : NoDup l -> NoDup r -> NoDup (flat_map (fun b => map (cons b) r) l).
Proof.
  intros Hl Hr. induction Hl as [|b l Hb Hl IH]; cbn [flat_map]; [constructor|]. apply Mm3Coll.NoDup_app2.
  - apply FinFun.Injective_map_NoDup; [|exact Hr]. intros x y E. congruence.
  - exact IH.
  - intros k Hk Hk'. apply in_map_iff in Hk. destruct Hk as (x & <- & _). apply in_flat_map in Hk'. destruct Hk' as (c & Hc & Hk').
    apply in_map_iff in Hk'. destruct Hk' as (y & E & _). congruence.
Qed.
Lemma nodup_all_bytes : NoDup all_bytes.
Proof. apply FinFun.Injective_map_NoDup; [intros x y E; lia|apply seq_NoDup]. Qed.
Lemma nodup_all_keys n : NoDup (all_keys n).
Proof.
  induction n as [|n IH]; [repeat constructor; intros []|]. apply nodup_flat_cons; [apply nodup_all_bytes|exact IH].
Qed.
Lemma all_keys_length n : N.of_nat (length (all_keys n)) = 256 ^ N.of_nat n.
Proof.
  induction n as [|n IH]; [reflexivity|]. cbn [all_keys].
  assert (G : forall l : list N, length (flat_map (fun b => map (cons b) (all_keys n)) l) = (length l * length (all_keys n))%nat).
  { induction l as [|b l H]; [reflexivity|]. cbn [flat_map length]. rewrite app_length, map_length, H. reflexivity. }
  rewrite G. unfold all_bytes. rewrite map_length, seq_length, Nat2N.inj_mul, IH.
  replace (N.of_nat (S n)) with (N.succ (N.of_nat n)) by lia. rewrite N.pow_succ_r'. reflexivity.
Qed.

(** ** From explicit descriptions of the keys with a given hash *)
Definition hitb (h : list N -> option N) (v : N) (b : list N) : bool := match h b with Some x => x =? v | None => false end.
Lemma hitb_true h v b : hitb h v b = true <-> h b = Some v.
Proof.
  unfold hitb. destruct (h b) as [x|]; [rewrite N.eqb_eq; split; congruence|split; discriminate].
Qed.
Lemma even_param n r W h : 8 * N.of_nat n = W + 8 * N.of_nat r ->
  (forall v, v < 2 ^ W -> exists g : list N -> list N,
     (forall x, In x (all_keys r) -> In (g x) (all_keys n) /\ h (g x) = Some v) /\
     (forall x y, In x (all_keys r) -> In y (all_keys r) -> g x = g y -> x = y) /\
     (forall b, In b (all_keys n) -> h b = Some v -> exists x, In x (all_keys r) /\ g x = b)) -> even n W h.
Proof.
  intros E H v Hv. destruct (H v Hv) as (g & G1 & G2 & G3).
  assert (P : Permutation (filter (hitb h v) (all_keys n)) (map g (all_keys r))).
  { apply NoDup_Permutation.
    - apply NoDup_filter, nodup_all_keys.
    - assert (A : forall l, NoDup l -> incl l (all_keys r) -> NoDup (map g l)).
      { induction l as [|x l IH]; intros D I; [constructor|]. inversion D; subst. cbn. constructor.
        - rewrite in_map_iff. intros (y & E' & Hy). apply G2 in E'; [congruence|apply I; now right|apply I; now left].
        - apply IH; [assumption|]. intros z Hz. apply I. now right. }
      apply A; [apply nodup_all_keys|apply incl_refl].
    - intros b. rewrite filter_In, hitb_true, in_map_iff. split.
      + intros [Hb Eb]. destruct (G3 b Hb Eb) as (x & Hx & <-). eauto.
      + intros (x & <- & Hx). apply G1. exact Hx. }
  unfold number. change (fun b => _) with (hitb h v). apply Permutation_length in P. rewrite P, map_length, all_keys_length.
  change 256 with (2 ^ 8). rewrite <- !N.pow_mul_r, <- N.pow_add_r. f_equal. lia.
Qed.
(** A hash with as many values as there are strings, never twice the same. *)
Definition range (M : N) : list N := map N.of_nat (seq 0 (N.to_nat M)).
Lemma in_range M x : In x (range M) <-> x < M.
Proof.
  unfold range. rewrite in_map_iff. split.
  - intros (y & <- & H). apply in_seq in H. lia.
  - intros H. exists (N.to_nat x). split; [lia|]. apply in_seq. lia.
Qed.
Lemma range_nodup M : NoDup (range M).
Proof. apply FinFun.Injective_map_NoDup; [intros x y E; lia|apply seq_NoDup]. Qed.
Lemma range_length M : N.of_nat (length (range M)) = M.
Proof. unfold range. rewrite map_length, seq_length. lia. Qed.
Lemma even_inj n h :
  (forall b, length b = n -> bytes_ok b -> exists v, v < 2 ^ (8 * N.of_nat n) /\ h b = Some v) ->
  (forall b b', length b = n -> length b' = n -> bytes_ok b -> bytes_ok b' -> h b = h b' -> b = b') ->
  even n (8 * N.of_nat n) h.
Proof.
  intros T I. apply (even_param n 0); [lia|]. intros v Hv.
  assert (C : In (Some v) (map h (all_keys n))).
  { assert (L : incl (map (@Some N) (range (2 ^ (8 * N.of_nat n)))) (map h (all_keys n))).
    { apply NoDup_length_incl.
      - assert (A : forall l, NoDup l -> incl l (all_keys n) -> NoDup (map h l)).
        { induction l as [|x l IH]; intros D J; [constructor|]. inversion D; subst. cbn. constructor.
          - rewrite in_map_iff. intros (y & E' & Hy).
            assert (Jx := J x (or_introl eq_refl)). assert (Jy := J y (or_intror Hy)).
            apply in_all_keys in Jx, Jy. apply I in E'; try tauto. congruence.
          - apply IH; [assumption|]. intros z Hz. apply J. now right. }
        apply A; [apply nodup_all_keys|apply incl_refl].
      - apply Nat.eq_le_incl. apply Nat2N.inj. rewrite !map_length, range_length, all_keys_length.
        change 256 with (2 ^ 8). rewrite <- N.pow_mul_r. reflexivity.
      - intros o Ho. apply in_map_iff in Ho. destruct Ho as (b & <- & Hb). apply in_all_keys in Hb.
        destruct (T b (proj1 Hb) (proj2 Hb)) as (x & Hx & ->). apply in_map. now apply in_range. }
    apply L. apply in_map. now apply in_range. }
  apply in_map_iff in C. destruct C as (b0 & E0 & H0). exists (fun _ => b0). split; [|split].
  - intros x _. auto.
  - cbn. intros x y [<-|[]] [<-|[]] _. reflexivity.
  - intros b Hb Eb. exists []. split; [now left|]. apply in_all_keys in Hb, H0. apply I; try tauto. congruence.
Qed.

(** ** Sets of values *)
Lemma length_filter_or {A} (P Q : A -> bool) l : (forall x, P x = true -> Q x = true -> False) ->
  length (filter (fun x => (P x || Q x)%bool) l) = (length (filter P l) + length (filter Q l))%nat.
Proof.
  intros D. induction l as [|x l IH]; [reflexivity|]. cbn [filter]. specialize (D x).
  destruct (P x), (Q x); cbn [orb length]; lia.
Qed.
Definition inb (vs : list N) (x : N) : bool := existsb (N.eqb x) vs.
Lemma inb_true vs x : inb vs x = true <-> In x vs.
Proof.
  unfold inb. rewrite existsb_exists. split; [intros (y & H & E); apply N.eqb_eq in E; now subst|intros H; exists x; rewrite N.eqb_eq; auto].
Qed.
Definition setb (h : list N -> option N) (Q : N -> bool) (b : list N) : bool := match h b with Some x => Q x | None => false end.
Lemma number_set n W h vs : even n W h -> NoDup vs -> Forall (fun v => v < 2 ^ W) vs ->
  number n (setb h (inb vs)) * 2 ^ W = N.of_nat (length vs) * 256 ^ N.of_nat n.
Proof.
  intros E D. induction D as [|v vs Hv D IH]; intros F.
  - assert (Z : number n (setb h (inb [])) = 0); [|now rewrite Z].
    unfold number. replace (filter _ _) with (@nil (list N)); [reflexivity|]. symmetry.
    induction (all_keys n) as [|b l IHl]; [reflexivity|]. cbn [filter]. unfold setb at 1. destruct (h b); exact IHl.
  - inversion F; subst. specialize (IH H2). specialize (E v H1).
    assert (S : number n (setb h (inb (v :: vs))) = number n (hitb h v) + number n (setb h (inb vs))).
    { unfold number. rewrite <- Nat2N.inj_add, <- length_filter_or.
      - f_equal. f_equal. apply filter_ext. intros b. unfold setb, hitb, inb. destruct (h b); reflexivity.
      - intros b. rewrite hitb_true. unfold setb. intros ->. rewrite inb_true. exact Hv. }
    rewrite S, N.mul_add_distr_r, IH. change (number n (hitb h v) * 2 ^ W = 256 ^ N.of_nat n) in E. rewrite E. cbn [length]. lia.
Qed.
Lemma filter_le {A} (P : A -> bool) l : (length (filter P l) <= length l)%nat.
Proof. induction l as [|x l IH]; [auto|]. cbn [filter]. destruct (P x); cbn [length]; lia. Qed.
(** Evenness leaves no room for failures or larger values. *)
Lemma filter_full {A} (P : A -> bool) l : length (filter P l) = length l -> forall x, In x l -> P x = true.
Proof.
  induction l as [|y l IH]; intros E x Hx; [contradiction|]. cbn [filter] in E. pose proof (filter_le P l).
  destruct (P y) eqn:Py; cbn [length] in E; [|lia]. destruct Hx as [<-|Hx]; [exact Py|]. apply IH; [lia|exact Hx].
Qed.
Lemma even_total n W h : even n W h -> forall b, length b = n -> bytes_ok b -> exists v, v < 2 ^ W /\ h b = Some v.
Proof.
  intros E b Hl Hb.
  assert (R : Forall (fun v => v < 2 ^ W) (range (2 ^ W))) by (apply Forall_forall; intros v; apply in_range).
  pose proof (number_set n W h _ E (range_nodup (2 ^ W)) R) as C. rewrite range_length in C.
  assert (C' : number n (setb h (inb (range (2 ^ W)))) = N.of_nat (length (all_keys n))).
  { rewrite all_keys_length. apply (N.mul_cancel_r _ _ (2 ^ W)); [apply N.pow_nonzero; discriminate|]. lia. }
  unfold number in C'. apply Nat2N.inj in C'.
  pose proof (filter_full _ _ C' b ltac:(now apply in_all_keys)) as G. unfold setb in G.
  destruct (h b) as [v|]; [|discriminate]. apply inb_true, in_range in G. eauto.
Qed.
Lemma number_values n W h Q : even n W h ->
  number n (setb h Q) * 2 ^ W = N.of_nat (length (filter Q (range (2 ^ W)))) * 256 ^ N.of_nat n.
Proof.
  intros E. rewrite <- (number_set n W h (filter Q (range (2 ^ W)))); auto.
  - f_equal. unfold number. f_equal. f_equal. apply filter_ext_in. intros b Hb. apply in_all_keys in Hb.
    destruct (even_total _ _ _ E b (proj1 Hb) (proj2 Hb)) as (v & Hv & Ev). unfold setb. rewrite Ev.
    destruct (Q v) eqn:Qv; symmetry.
    + apply inb_true, filter_In. split; [now apply in_range|exact Qv].
    + apply Bool.not_true_is_false. intros C. apply inb_true, filter_In in C. destruct C. congruence.
  - apply NoDup_filter, range_nodup.
  - apply Forall_forall. intros v Hv. apply filter_In in Hv. now apply in_range.
Qed.
(** Residues. *)
Lemma residues M s i : i < s -> N.of_nat (length (filter (fun v => v mod s =? i) (range M))) = (M + s - 1 - i) / s.
Proof.
  intros Hi. assert (P : Permutation (filter (fun v => v mod s =? i) (range M)) (map (fun u => u * s + i) (range ((M + s - 1 - i) / s)))).
  { apply NoDup_Permutation.
    - apply NoDup_filter, range_nodup.
    - apply FinFun.Injective_map_NoDup; [|apply range_nodup]. intros x y E. nia.
    - intros v. rewrite filter_In, in_range, N.eqb_eq, in_map_iff. split.
      + intros [Hv E]. exists (v / s). pose proof (N.div_mod v s ltac:(lia)) as DM. split; [rewrite <- E; lia|]. apply in_range.
        assert (G : (v - i + s) / s <= (M + s - 1 - i) / s) by (apply N.div_le_mono; [lia|rewrite <- E; pose proof (N.mod_le v s ltac:(lia)); lia]).
        rewrite E in DM. generalize dependent (v / s). intros q DM. replace (v - i + s) with ((q + 1) * s) in G by (rewrite DM, N.add_sub; ring).
        rewrite N.div_mul in G by lia. lia.
      + intros (u & <- & Hu). apply in_range in Hu. split.
        * pose proof (N.mul_div_le (M + s - 1 - i) s ltac:(lia)). nia.
        * rewrite N.add_comm, N.mod_add by lia. now apply N.mod_small. }
  apply Permutation_length in P. rewrite P, map_length, range_length. reflexivity.
Qed.
