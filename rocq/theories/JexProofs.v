(** Proofs about JexModel: the tester. *)
From Coq Require Import NArith ZArith List Arith Bool Lia.
From Verif Require Import Words WordLemmas ListLemmas Mem HashTableModel JenkinsModel JenkinsSpec JenkinsProofs JenkinsProofs3 JenkinsProps JexModel JexSpec.
Import ListNotations.
Open Scope N_scope.
Open Scope list_scope.

(** ** Slices *)
Lemma set_len {A} (x : A) : forall l i, length (set_nth i x l) = length l.
Proof. induction l as [|a l IH]; intros [|i]; cbn [set_nth length]; auto. Qed.
Lemma nth_set (x : N) : forall l i j, (i < length l)%nat -> nth j (set_nth i x l) 0 = if Nat.eqb j i then x else nth j l 0.
Proof.
  induction l as [|a l IH]; intros [|i] [|j] H; cbn [length] in H; try lia; cbn [set_nth nth Nat.eqb]; auto. apply IH. lia.
Qed.
Lemma put_ok a i x : (i < length a)%nat -> put a i x = Ok (set_nth i x a).
Proof. intros H. unfold put. apply Nat.ltb_lt in H. now rewrite H. Qed.
Lemma clear_ok a : forall n, (n <= length a)%nat -> exists a', clear a n = Ok a' /\ length a' = length a /\
  forall j, nth j a' 0 = if Nat.ltb j n then 0 else nth j a 0.
Proof.
  induction n as [|n IH]; intros H; [exists a; auto|]. cbn [clear]. destruct IH as (a' & E & L & N); [lia|]. rewrite E. cbn [rbind].
  rewrite put_ok by lia. eexists. split; [reflexivity|]. split; [now rewrite set_len|]. intros j. rewrite nth_set by lia. rewrite N.
  destruct (Nat.eqb_spec j n) as [->|D]; [replace (Nat.ltb n (S n)) with true by (symmetry; apply Nat.ltb_lt; lia); reflexivity|].
  destruct (Nat.ltb_spec j n), (Nat.ltb_spec j (S n)); try lia; reflexivity.
Qed.
Definition shaped (hlen : nat) (a : list N) : Prop := length a = 70%nat /\ forall l, (hlen < l)%nat -> nth l a 0 = 0.
Lemma clear_shaped hlen a : (hlen < 70)%nat -> shaped hlen a -> clear a (hlen + 1) = Ok (repeat 0 70).
Proof.
  intros H (L & Z). destruct (clear_ok a (hlen + 1)) as (a' & E & L' & Nt); [lia|]. rewrite E. f_equal.
  apply nth_ext with (d := 0) (d' := 0); [rewrite L', repeat_length; exact L|]. intros j Hj. rewrite Nt, nth_repeat.
  destruct (Nat.ltb_spec j (hlen + 1)); [reflexivity|]. apply Z. lia.
Qed.
Lemma probe_length i j k : length (probe i j k) = 70%nat.
Proof. unfold probe. now rewrite map_length, seq_length. Qed.
Lemma probe_nth i j k l : (l < 70)%nat -> nth l (probe i j k) 0 = if Nat.eqb l i then turned j k else 0.
Proof.
  intros H. unfold probe. set (f := fun l => if Nat.eqb l i then turned j k else 0).
  rewrite (nth_indep _ 0 (f 0%nat)) by (rewrite map_length, seq_length; exact H). rewrite map_nth, seq_nth by exact H. reflexivity.
Qed.
Lemma turned_byte j k : turned j k < 256.
Proof. unfold turned. apply N.mod_lt. discriminate. Qed.
Lemma probe_bytes i j k : bytes_ok (probe i j k).
Proof.
  apply Forall_forall. intros x Hx. apply In_nth with (d := 0) in Hx. destruct Hx as (l & L & <-). rewrite probe_length in L. rewrite probe_nth by exact L.
  destruct (Nat.eqb l i); [apply turned_byte|reflexivity].
Qed.
Lemma probe_shaped hlen i j k : (i < hlen)%nat -> shaped hlen (probe i j k).
Proof.
  intros H. split; [apply probe_length|]. intros l Hl. destruct (Nat.lt_ge_cases l 70) as [L|L]; [|apply nth_overflow; rewrite probe_length; lia].
  rewrite probe_nth by exact L. destruct (Nat.eqb_spec l i); [lia|reflexivity].
Qed.
Lemma zeros_shaped hlen : shaped hlen (repeat 0 70).
Proof. split; [reflexivity|]. intros l _. apply nth_repeat. Qed.
Lemma shaped_more n n' a : (n <= n')%nat -> shaped n a -> shaped n' a.
Proof. intros L (H & Z). split; [exact H|]. intros l Hl. apply Z. lia. Qed.
Lemma spread_ok i j k : (i < 70)%nat -> j < 8 -> k <= 6022 -> spread (repeat 0 70) i j k = Ok (probe i j k).
Proof.
  intros Hi Hj Hk. unfold spread, xor_at. rewrite idx_ok by (rewrite repeat_length; exact Hi). cbn [rbind]. rewrite nth_repeat.
  rewrite put_ok by (rewrite repeat_length; exact Hi). cbn [rbind]. rewrite N.lxor_0_l.
  rewrite idx_ok by (rewrite set_len, repeat_length; exact Hi). cbn [rbind]. rewrite nth_set by (rewrite repeat_length; exact Hi). rewrite Nat.eqb_refl.
  rewrite put_ok by (rewrite set_len, repeat_length; exact Hi). f_equal.
  apply nth_ext with (d := 0) (d' := 0); [now rewrite !set_len, repeat_length, probe_length|].
  intros l Hl. rewrite !set_len, repeat_length in Hl. rewrite probe_nth by exact Hl.
  rewrite nth_set by (rewrite set_len, repeat_length; exact Hi). destruct (Nat.eqb_spec l i) as [->|D].
  - unfold turned, shl32, shr, shlw. rewrite !wrap_mod, N.shiftl_mul_pow2, N.shiftr_div_pow2. change (2 ^ 8) with 256.
    assert (B : k * 2 ^ j < 2 ^ 32).
    { apply N.le_lt_trans with (6022 * 2 ^ 7); [|reflexivity]. apply N.mul_le_mono; [exact Hk|]. apply N.pow_le_mono_r; lia. }
    rewrite (N.mod_small (k * 2 ^ j) (2 ^ 32)) by exact B.
    apply N.bits_inj. intros p. change 256 with (2 ^ 8). destruct (N.lt_ge_cases p 8) as [P|P].
    + rewrite N.lxor_spec, !N.mod_pow2_bits_low, N.lxor_spec by exact P. reflexivity.
    + rewrite N.lxor_spec, !N.mod_pow2_bits_high by exact P. reflexivity.
  - rewrite nth_set by (rewrite repeat_length; exact Hi). destruct (Nat.eqb_spec l i); [contradiction|]. apply nth_repeat.
Qed.
Lemma probe_hash_ok hlen i j m k : (1 <= hlen <= 70)%nat -> m < 2 ^ 32 ->
  hash_bytes_length (probe i j k) (Z.of_nat hlen) m = Ok (probe_hash hlen i j m k).
Proof.
  intros Hh Hm. unfold hash_bytes_length. rewrite probe_length. replace (Z.of_nat 70 <? Z.of_nat hlen)%Z with false by (symmetry; apply Z.ltb_ge; lia).
  rewrite jenkins364_explicit by (try apply probe_bytes; rewrite ?probe_length; lia). rewrite probe_length. cbn [rbind]. unfold probe_hash.
  destruct (lookup3 _ _ _). reflexivity.
Qed.

(** ** Masks *)
Lemma ones32_bit p : N.testbit ones32 p = (p <? 32).
Proof. unfold ones32. change (2 ^ 32 - 1) with (N.ones 32). destruct (N.ltb_spec p 32); [now apply N.ones_spec_low|now apply N.ones_spec_high]. Qed.
Lemma not32_bit c p : p < 32 -> N.testbit (not32 c) p = negb (N.testbit c p).
Proof. intros H. unfold not32. rewrite N.lxor_spec, ones32_bit. apply N.ltb_lt in H. rewrite H. apply xorb_true_r. Qed.
(** A mask that starts full and keeps the bits common to [v 0], ..., [v (t-1)]. *)
Fixpoint common (v : nat -> N) (t : nat) : N := match t with O => ones32 | S t => N.land (common v t) (v t) end.
Lemma common_bit v p : forall t, N.testbit (common v t) p = true <-> p < 32 /\ forall s, (s < t)%nat -> N.testbit (v s) p = true.
Proof.
  induction t as [|t IH]; cbn [common].
  - rewrite ones32_bit, N.ltb_lt. split; [|tauto]. intros H. split; [exact H|]. intros; lia.
  - rewrite N.land_spec, andb_true_iff, IH. split.
    + intros ((P & H) & L). split; [exact P|]. intros s Hs. destruct (Nat.eq_dec s t) as [->|D]; [exact L|]. apply H. lia.
    + intros (P & H). split; [split; [exact P|intros; apply H; lia]|apply H; lia].
Qed.
Lemma common_0 v t : common v t = 0 <-> forall p, p < 32 -> exists s, (s < t)%nat /\ N.testbit (v s) p = false.
Proof.
  split.
  - intros E p Hp. assert (X : ~ forall s, (s < t)%nat -> N.testbit (v s) p = true).
    { intros H. assert (T : N.testbit (common v t) p = true) by (apply common_bit; auto). rewrite E, N.bits_0 in T. discriminate. }
    destruct (Exists_dec (fun s => N.testbit (v s) p = false) (seq 0 t)) as [D|D]; [intros s; destruct (N.testbit (v s) p); [now right|now left]| |].
    + apply Exists_exists in D. destruct D as (s & I & F). apply in_seq in I. exists s. split; [lia|exact F].
    + exfalso. apply X. intros s Hs. destruct (N.testbit (v s) p) eqn:F; [reflexivity|]. exfalso. apply D. apply Exists_exists. exists s. split; [apply in_seq; lia|exact F].
  - intros H. apply N.bits_inj. intros p. rewrite N.bits_0. destruct (N.testbit (common v t) p) eqn:T; [|reflexivity]. apply common_bit in T.
    destruct T as (P & A). destruct (H p P) as (s & Hs & F). rewrite (A s Hs) in F. discriminate.
Qed.

Section Case.
Variables (hlen i : nat) (j m : N).
Let h (s : nat) : N := probe_hash hlen i j m (2 * N.of_nat s).
Let h' (s : nat) : N := probe_hash hlen i j m (2 * N.of_nat s + 1).
(** The masks after [t] trials. *)
Definition after (t : nat) : masks :=
  (common (fun s => N.lxor (h s) (h' s)) t, common (fun s => not32 (N.lxor (h s) (h' s))) t,
   common h t, common (fun s => not32 (h s)) t, common h' t, common (fun s => not32 (h' s)) t).
Lemma finished_after t : finished (after t) = true <-> mixed hlen i j m t.
Proof.
  unfold finished, after. rewrite N.eqb_eq. rewrite !N.lor_eq_0_iff, !common_0. unfold mixed. cbv zeta. fold h h'.
  split.
  - intros (((((A & B) & C) & D) & E) & F) p v Hp. specialize (A p Hp). specialize (B p Hp). specialize (C p Hp). specialize (D p Hp). specialize (E p Hp). specialize (F p Hp).
    assert (Neg : forall (w : nat -> N), (exists s, (s < t)%nat /\ N.testbit (not32 (w s)) p = false) -> exists s, (s < t)%nat /\ N.testbit (w s) p = true).
    { intros w (s & Hs & X). exists s. split; [exact Hs|]. rewrite not32_bit in X by exact Hp. now destruct (N.testbit (w s) p). }
    apply (Neg (fun s => N.lxor (h s) (h' s))) in B. apply Neg in D. apply Neg in F.
    destruct v; (split; [assumption|split; [assumption|]]); [destruct B as (s & Hs & X)|destruct A as (s & Hs & X)]; exists s; (split; [exact Hs|]); now rewrite N.lxor_spec in X.
  - intros H.
    assert (Neg : forall (w : nat -> N) p, p < 32 -> (exists s, (s < t)%nat /\ N.testbit (w s) p = true) -> exists s, (s < t)%nat /\ N.testbit (not32 (w s)) p = false).
    { intros w p Hp (s & Hs & X). exists s. split; [exact Hs|]. rewrite not32_bit by exact Hp. now rewrite X. }
    repeat split; intros p Hp.
    + destruct (H p false Hp) as (_ & _ & s & Hs & X). exists s. split; [exact Hs|]. now rewrite N.lxor_spec.
    + apply (Neg (fun s => N.lxor (h s) (h' s)) p Hp). destruct (H p true Hp) as (_ & _ & s & Hs & X). exists s. split; [exact Hs|]. now rewrite N.lxor_spec.
    + exact (proj1 (H p false Hp)).
    + apply Neg; [exact Hp|]. exact (proj1 (H p true Hp)).
    + exact (proj1 (proj2 (H p false Hp))).
    + apply Neg; [exact Hp|]. exact (proj1 (proj2 (H p true Hp))).
Qed.
Lemma after_S t : narrow_masks (h t) (h' t) (after t) = after (S t).
Proof. reflexivity. Qed.
Hypothesis Hc : tested hlen i j m.
Hypothesis Hl : (hlen < 70)%nat.
(** The trials from number [t] on; [r] are left. *)
Lemma trials_from : forall r t fuel a b, N.of_nat t + N.of_nat r = 3011 -> (r < fuel)%nat -> shaped hlen a -> shaped hlen b ->
  exists a' b', shaped hlen a' /\ shaped hlen b' /\
    trials fuel hlen i j m (2 * N.of_nat t) (after t) a b =
    Ok (match find (fun s => finished (after (S s))) (seq t r) with
        | Some s => (2 * N.of_nat s, after (S s), (a', b'))
        | None => (MAXPAIR, after (t + r), (a', b'))
        end).
Proof.
  destruct Hc as (Hi & Hj & Hm).
  induction r as [|r IH]; intros t fuel a b E F A B.
  - exists a, b. split; [exact A|]. split; [exact B|]. destruct fuel as [|fuel]; [lia|]. cbn [trials seq find].
    replace (2 * N.of_nat t) with MAXPAIR by (unfold MAXPAIR; lia). rewrite N.ltb_irrefl. now rewrite Nat.add_0_r.
  - destruct fuel as [|fuel]; [lia|]. cbn [trials]. replace (2 * N.of_nat t <? MAXPAIR) with true by (symmetry; apply N.ltb_lt; unfold MAXPAIR; lia).
    rewrite (clear_shaped hlen a Hl A). cbn [rbind]. rewrite (clear_shaped hlen b Hl B). cbn [rbind].
    rewrite spread_ok by lia. cbn [rbind]. rewrite probe_hash_ok by (try (change (2 ^ 32) with 4294967296); lia). cbn [rbind].
    rewrite spread_ok by lia. cbn [rbind]. rewrite probe_hash_ok by (try (change (2 ^ 32) with 4294967296); lia). cbn [rbind]. cbv zeta.
    fold (h t) (h' t). rewrite after_S. cbn [seq find]. destruct (finished (after (S t))) eqn:Fin.
    + eexists. eexists. split; [|split; [|reflexivity]]; now apply probe_shaped.
    + replace (2 * N.of_nat t + 2) with (2 * N.of_nat (S t)) by lia.
      destruct (IH (S t) fuel (probe i j (2 * N.of_nat t)) (probe i j (2 * N.of_nat t + 1))) as (a' & b' & A' & B' & X); [lia|lia|now apply probe_shaped|now apply probe_shaped|].
      exists a', b'. split; [exact A'|]. split; [exact B'|]. rewrite X. replace (S t + r)%nat with (t + S r)%nat by lia. reflexivity.
Qed.
End Case.
