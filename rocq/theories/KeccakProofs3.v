(** Proofs about package keccakpg: blocks, slices and the methods of the digest. *)
From Verif Require Import Words WordLemmas ListLemmas Mem SLP Bij Blocks Mm3Spec Mm3Proofs KeccakModel KeccakSpec KeccakProofs KeccakProofs2.
From Coq Require Import ZArith.
Open Scope N_scope.

Lemma list_ext (a b : list N) : length a = length b -> (forall i, (i < length a)%nat -> nth i a 0 = nth i b 0) -> a = b.
Proof. intros L H. apply (nth_ext a b 0 0 L H). Qed.
Lemma nth_map_seq (g : nat -> N) n i : (i < n)%nat -> nth i (map g (seq 0 n)) 0 = g i.
Proof. intros H. rewrite (nth_indep _ 0 (g 0%nat)) by now rewrite map_length, seq_length. rewrite map_nth, seq_nth by assumption. reflexivity. Qed.

(** ** The block function *)
Lemma xor_loop_ok n : forall i s block, bytes_ok block -> (i + n <= length s)%nat -> (8 * (i + n) <= length block)%nat ->
  exists s', xor_loop n i s block = Ok s' /\ length s' = length s /\
    forall j, nth j s' 0 = if (Nat.leb i j && Nat.ltb j (i + n))%bool then N.lxor (nth j s 0) (le_int (firstn 8 (skipn (8 * j) block))) else nth j s 0.
Proof.
  induction n as [|n IH]; intros i s block Hb Hs Hl; cbn [xor_loop].
  - exists s. split; [reflexivity|]. split; [reflexivity|]. intros j.
    destruct (Nat.leb_spec i j), (Nat.ltb_spec j (i + 0)); cbn [andb]; try reflexivity; lia.
  - rewrite idx_ok by lia. cbn [rbind]. rewrite tail_from_ok by lia. cbn [rbind]. unfold uint64le.
    rewrite skipn_length. destruct (Nat.leb_spec 8 (length block - i * 8)); [|lia]. cbn [rbind].
    destruct (IH (S i) (upd s i (xor (nth i s 0) (le_load (firstn 8 (skipn (i * 8) block))))) block Hb) as (s' & E & L & Hn);
      [rewrite upd_length; lia|lia|].
    exists s'. split; [exact E|]. rewrite upd_length in L. split; [exact L|]. intros j. rewrite Hn.
    destruct (Nat.eq_dec j i) as [->|Hj].
    + rewrite upd_same by lia. destruct (Nat.leb_spec (S i) i); [lia|]. cbn [andb].
      destruct (Nat.leb_spec i i); [|lia]. destruct (Nat.ltb_spec i (i + S n)); [|lia]. cbn [andb].
      rewrite le_int_load by (apply bytes_ok_firstn; now apply bytes_ok_skipn). now rewrite (Nat.mul_comm i 8).
    + rewrite upd_other by assumption.
      destruct (Nat.leb_spec (S i) j), (Nat.leb_spec i j), (Nat.ltb_spec j (S i + n)), (Nat.ltb_spec j (i + S n)); cbn [andb]; try reflexivity; lia.
Qed.
(** What a block contributes: the bytes of whole lanes. *)
Definition used (B : nat) (block : list N) : list N := firstn (8 * (B / 8)) block.
Definition stepf (nr B : nat) (s block : list N) : list N := absorb_block nr s (used B block).
Lemma used_all B block : (B mod 8 = 0)%nat -> length block = B -> used B block = block.
Proof. intros H L. unfold used. apply firstn_all2. pose proof (Nat.div_mod B 8). lia. Qed.
Lemma lanes_ok b : bytes_ok b -> state_ok (lanes_of b).
Proof.
  intros H. split; [unfold lanes_of; now rewrite map_length, seq_length|].
  apply Forall_forall. intros x Hx. apply in_map_iff in Hx. destruct Hx as (i & <- & _).
  rewrite le_int_load by (apply bytes_ok_firstn; now apply bytes_ok_skipn).
  apply (le_load_firstn_fits 8 _ 64); [now apply bytes_ok_skipn|reflexivity].
Qed.
Lemma xor_state_ok A B : state_ok A -> state_ok B -> state_ok (xor_state A B).
Proof.
  intros [LA FA] [LB FB]. split; [unfold xor_state; now rewrite map_length, seq_length|].
  apply Forall_forall. intros x Hx. apply in_map_iff in Hx. destruct Hx as (i & <- & _). apply xor_fits; now apply nth_fits.
Qed.
Record valid (k : keccak) (B nr : nat) : Prop := {
  v_bs : blockSize k = Z.of_nat B;
  v_pos : (0 < B)%nat;
  v_max : (B <= 200)%nat;
  v_nr : Z.to_nat (rounds k) = nr;
  v_24 : (nr <= 24)%nat
}.
Lemma keccak_f_ok nr s : (nr <= 24)%nat -> state_ok s -> rounds_loop nr 0 s = Ok (keccak_f nr s) /\ state_ok (keccak_f nr s).
Proof. intros H Hs. apply rounds_loop_ok; [lia|assumption]. Qed.
Lemma stepf_ok nr B s block : (nr <= 24)%nat -> state_ok s -> bytes_ok block -> state_ok (stepf nr B s block).
Proof.
  intros Hn Hs Hb. apply keccak_f_ok; [assumption|]. apply xor_state_ok; [assumption|]. apply lanes_ok. now apply bytes_ok_firstn.
Qed.
Lemma f_ok k B nr s block : valid k B nr -> state_ok s -> bytes_ok block -> length block = B -> f k s block = Ok (stepf nr B s block).
Proof.
  intros V Hs Hb L. pose proof (v_pos _ _ _ V) as Bp. pose proof (v_max _ _ _ V) as Bm.
  unfold f. rewrite (v_bs _ _ _ V), L, Z.eqb_refl. rewrite (v_nr _ _ _ V).
  replace (Z.to_nat (Z.quot (Z.of_nat B) 8)) with (B / 8)%nat.
  2:{ change 8%Z with (Z.of_nat 8). rewrite Z.quot_div_nonneg by lia. rewrite <- Nat2Z.inj_div. now rewrite Nat2Z.id. }
  pose proof (Nat.mul_div_le B 8 ltac:(lia)) as Hd.
  destruct (xor_loop_ok (B / 8) 0 s block Hb) as (s' & E & L' & Hn); [rewrite (proj1 Hs); lia|lia|].
  rewrite E. cbn [rbind].
  assert (Es : s' = xor_state s (lanes_of (used B block))).
  { apply list_ext; [unfold xor_state; rewrite map_length, seq_length, L'; apply Hs|].
    intros j Hj. rewrite L', (proj1 Hs) in Hj. rewrite Hn. unfold xor_state, lanes_of. rewrite !nth_map_seq by assumption.
    cbn [Nat.leb andb Nat.add]. unfold used. rewrite skipn_firstn_comm, firstn_firstn.
    destruct (Nat.ltb_spec j (B / 8)).
    - do 2 f_equal. rewrite Nat.min_l by lia. reflexivity.
    - replace (8 * (B / 8) - 8 * j)%nat with 0%nat by lia. rewrite Nat.min_r by lia. cbn [firstn le_int]. now rewrite N.lxor_0_r. }
  rewrite Es. apply keccak_f_ok; [apply V|]. apply xor_state_ok; [assumption|]. apply lanes_ok. now apply bytes_ok_firstn.
Qed.

(** ** Slices *)
Definition heap_ok (h : heap) : Prop := Forall bytes_ok h.
Definition wf (h : heap) (s : slice) : Prop :=
  (len s <= cap s)%nat /\ (off s + cap s <= length (array h (arr s)))%nat /\ (cap s = 0 \/ arr s < length h)%nat.
Lemma array_ok h a : heap_ok h -> bytes_ok (array h a).
Proof.
  intros H. unfold array. destruct (Nat.lt_ge_cases a (length h)) as [L|L]; [|rewrite nth_overflow by assumption; constructor].
  unfold heap_ok in H. rewrite Forall_forall in H. apply H. now apply nth_In.
Qed.
Lemma read_ok h s : heap_ok h -> bytes_ok (read h s).
Proof. intros H. apply bytes_ok_firstn, bytes_ok_skipn. now apply array_ok. Qed.
Lemma read_length h s : wf h s -> length (read h s) = len s.
Proof. intros (H1 & H2 & _). unfold read. rewrite firstn_length, skipn_length. lia. Qed.
Lemma read_from h s n : (n <= len s)%nat -> read h (from s n) = skipn n (read h s).
Proof. intros H. unfold read, from. cbn. rewrite skipn_firstn_comm. now rewrite skipn_add. Qed.
Lemma read_upto h s n : (n <= len s)%nat -> read h (upto s n) = firstn n (read h s).
Proof. intros H. unfold read, upto. cbn. rewrite firstn_firstn. now rewrite Nat.min_l. Qed.
Lemma wf_from h s n : wf h s -> (n <= len s)%nat -> wf h (from s n).
Proof. intros (H1 & H2 & H3) H. unfold wf, from. cbn. repeat split; lia. Qed.
Lemma wf_nil h : wf h nil_slice.
Proof. unfold wf. cbn. repeat split; auto; lia. Qed.
Lemma array_app h x a : (a < length h)%nat -> array (h ++ [x]) a = array h a.
Proof. intros H. unfold array. now apply app_nth1. Qed.
Lemma array_last h x : array (h ++ [x]) (length h) = x.
Proof. unfold array. rewrite app_nth2 by lia. now rewrite Nat.sub_diag. Qed.
Lemma array_store_same h a o bs : (a < length h)%nat ->
  array (store h a o bs) a = firstn o (array h a) ++ bs ++ skipn (o + length bs) (array h a).
Proof. intros H. unfold store, array. assert (E : forall d, nth a (upd h a d) [] = d). { intros d. rewrite <- (upd_same h a d []) at 2 by assumption. reflexivity. } apply E. Qed.
Lemma array_store_other h a b o bs : a <> b -> array (store h b o bs) a = array h a.
Proof. intros H. unfold store, array. now apply upd_other. Qed.
Lemma store_length h a o bs : length (store h a o bs) = length h.
Proof. unfold store. apply upd_length. Qed.
Lemma store_array_length h a b o bs : (a < length h)%nat -> (o + length bs <= length (array h a))%nat -> length (array (store h a o bs) b) = length (array h b).
Proof.
  intros H L. destruct (Nat.eq_dec b a) as [->|Hn].
  - rewrite array_store_same, !app_length, firstn_length, skipn_length by assumption. lia.
  - now rewrite array_store_other.
Qed.
Lemma store_ok h a o bs : heap_ok h -> bytes_ok bs -> heap_ok (store h a o bs).
Proof.
  intros H Hb. unfold heap_ok, store. apply upd_Forall; [assumption|]. pose proof (array_ok h a H) as Ha.
  unfold bytes_ok. rewrite !Forall_app. split; [now apply bytes_ok_firstn|split; [assumption|now apply bytes_ok_skipn]].
Qed.
(** append: the result holds the bytes; other arrays do not change. *)
Section Append.
  Variable grow : nat -> nat -> nat.
  Lemma append_read h s bs h' s' : wf h s -> append grow h s bs = (h', s') -> (0 < len s + length bs)%nat ->
    read h' s' = read h s ++ bs /\ wf h' s' /\ len s' = (len s + length bs)%nat /\
    (arr s' = arr s \/ arr s' = length h) /\ (length h <= length h')%nat /\
    (forall a, (a < length h)%nat -> a <> arr s -> array h' a = array h a) /\
    (forall a, (a < length h)%nat -> length (array h' a) = length (array h a)).
  Proof.
    intros W E P. unfold append in E. destruct W as (W1 & W2 & W3).
    destruct (Nat.leb_spec (len s + length bs) (cap s)) as [L|L]; inversion E; subst; clear E.
    - assert (A : (arr s < length h)%nat) by (destruct W3; [lia|assumption]).
      split; [|split; [|split; [|split; [|split; [|split]]]]]; cbn.
      + unfold read. cbn. rewrite array_store_same by assumption.
        set (l := array h (arr s)) in *.
        rewrite skipn_app, skipn_firstn_comm, firstn_length, Nat.min_l by lia.
        replace (off s + len s - off s)%nat with (len s) by lia.
        rewrite firstn_app. rewrite firstn_firstn. rewrite Nat.min_r by lia. f_equal.
        rewrite firstn_length, skipn_length, Nat.min_l by lia.
        replace (len s + length bs - len s)%nat with (length bs) by lia.
        replace (off s - (off s + len s))%nat with 0%nat by lia. cbn [skipn].
        rewrite firstn_app, Nat.sub_diag, firstn_all. cbn [firstn]. apply app_nil_r.
      + unfold wf. cbn. rewrite store_length. rewrite store_array_length by (assumption || lia). repeat split; lia.
      + reflexivity.
      + now left.
      + rewrite store_length. lia.
      + intros a _ Ha. now apply array_store_other.
      + intros a _. apply store_array_length; [assumption|lia].
    - set (c := Nat.max (len s + length bs) (grow (cap s) (len s + length bs))).
      assert (Lr : length (read h s) = len s) by (apply read_length; repeat split; assumption).
      split; [|split; [|split; [|split; [|split; [|split]]]]]; cbn [arr off len cap].
      + unfold read at 1. cbn [arr off len]. rewrite array_last. cbn [skipn]. rewrite app_assoc. rewrite firstn_app_exact; [reflexivity|]. rewrite app_length. lia.
      + unfold wf. cbn [arr off len cap]. rewrite array_last, !app_length, repeat_length, Lr. cbn [length]. lia.
      + reflexivity.
      + now right.
      + rewrite app_length. lia.
      + intros a Ha _. now apply array_app.
      + intros a Ha. now rewrite array_app.
  Qed.
  Lemma append_ok h s bs h' s' : heap_ok h -> bytes_ok bs -> append grow h s bs = (h', s') -> heap_ok h'.
  Proof.
    intros H Hb E. unfold append in E. destruct (Nat.leb _ _); inversion E; subst; [now apply store_ok|].
    unfold heap_ok. rewrite Forall_app. split; [assumption|]. constructor; [|constructor].
    unfold bytes_ok. rewrite !Forall_app. split; [now apply read_ok|]. split; [assumption|].
    apply Forall_forall. intros x Hx. apply repeat_spec in Hx. subst. reflexivity.
  Qed.
End Append.
