(** Proofs about package keccakpg: client histories, aliasing, padding, unusual sizes. *)
From Coq Require Import ZArith.
From Verif Require Import Words WordLemmas ListLemmas Mem SLP Bij Blocks Mm3Spec Mm3Proofs KeccakModel KeccakSpec KeccakHist KeccakProofs KeccakProofs2 KeccakProofs3 KeccakProofs4.
Open Scope N_scope.

Lemma read_same h h' s : array h' (arr s) = array h (arr s) -> read h' s = read h s.
Proof. intros H. unfold read. now rewrite H. Qed.
Lemma read_cap0 h s : wf h s -> cap s = 0%nat -> read h s = [].
Proof. intros W E. apply length_zero_iff_nil. rewrite read_length by assumption. destruct W. lia. Qed.
Lemma holds_heap h h' k B nr data : holds h k B nr data -> wf h' (buf k) -> read h' (buf k) = read h (buf k) -> holds h' k B nr data.
Proof. intros [V S R W D] W' E. constructor; auto. now rewrite E. Qed.

(** The digest's own buffer is empty or lies in a busy array. *)
Definition kept (k : keccak) (busy : list nat) : Prop := len (buf k) = 0%nat \/ In (arr (buf k)) busy.
Lemma read_empty h s : len s = 0%nat -> read h s = [].
Proof. intros E. unfold read. now rewrite E. Qed.
Lemma holds_frame h h' k B nr data busy : holds h k B nr data -> kept k busy -> (length h <= length h')%nat ->
  (forall a, (a < length h)%nat -> length (array h' a) = length (array h a)) ->
  (forall a, (a < length h)%nat -> In a busy -> array h' a = array h a) -> holds h' k B nr data.
Proof.
  intros H K L Al Ab. apply (holds_heap h); [assumption|eapply wf_mono; try eassumption; apply H|].
  destruct K as [E|K]; [now rewrite !read_empty|].
  destruct (h_wf _ _ _ _ _ H) as (W1 & W2 & [W3|W3]); [rewrite !read_empty by lia; reflexivity|].
  apply read_same. now apply Ab.
Qed.
Lemma append_frame grow h s bs h' s' : wf h s -> append grow h s bs = (h', s') ->
  (length h <= length h')%nat /\ (forall a, (a < length h)%nat -> a <> arr s -> array h' a = array h a) /\
  (forall a, (a < length h)%nat -> length (array h' a) = length (array h a)) /\
  (arr s' = arr s \/ arr s' = length h /\ (length h < length h')%nat) /\
  (cap s = 0%nat -> forall a, (a < length h)%nat -> array h' a = array h a).
Proof.
  intros (W1 & W2 & W3) E. unfold append in E. destruct (Nat.leb_spec (len s + length bs) (cap s)) as [L|L]; inversion E; subst; clear E.
  - rewrite store_length. split; [lia|]. split; [intros a _ Ha; now apply array_store_other|].
    split; [|split; [left; reflexivity|]].
    + intros a Ha. destruct (Nat.lt_ge_cases (arr s) (length h)); [apply store_array_length; [assumption|lia]|].
      unfold array at 1, store. rewrite upd_other by lia. reflexivity.
    + intros C a Ha. assert (Eb : bs = []) by (apply length_zero_iff_nil; lia). subst bs.
      destruct (Nat.eq_dec a (arr s)) as [->|Hn]; [|now apply array_store_other].
      rewrite array_store_same by assumption. cbn [app length]. rewrite Nat.add_0_r. apply firstn_skipn.
  - rewrite app_length. cbn [length]. split; [lia|]. split; [intros a Ha _; now apply array_app|].
    split; [intros a Ha; now rewrite array_app|]. split; [right; cbn [arr]; lia|intros _ a Ha; now apply array_app].
Qed.

Section History.
  Variables (grow : nat -> nat -> nat) (B nr d : nat) (digest : list N -> list N).
  Hypothesis d200 : (d <= 200)%nat.
  Hypothesis digest_final : forall data, digest data = firstn d (state_bytes (final B nr data)).
  Lemma digest_length data : (0 < B)%nat -> (nr <= 24)%nat -> bytes_ok data -> length (digest data) = d.
  Proof.
    intros HB Hn Hd. rewrite digest_final, firstn_length, state_bytes_length.
    rewrite (proj1 (final_ok B nr data HB Hn Hd)). lia.
  Qed.
  Lemma state_bytes_ok s : bytes_ok (state_bytes s).
  Proof.
    rewrite <- state_bytes_eq. induction s as [|x s IH]; [constructor|]. cbn [map concat]. apply Forall_app. split; [apply le_store_ok|exact IH].
  Qed.
  Lemma behaves_ok ops : forall h k data busy, holds h k B nr data -> size k = Z.of_nat d -> heap_ok h -> kept k busy ->
    behaves digest grow h k data busy ops.
  Proof.
    induction ops as [|op ops IH]; intros h k data busy H Hsz Hh K; [exact I|]. destruct op as [bs|a o bs|s|s|]; cbn [behaves].
    - intros Hb. apply IH; try assumption.
      + apply (holds_frame h _ k B nr data busy); try assumption.
        * rewrite app_length. lia.
        * intros a Ha. now rewrite array_app.
        * intros a Ha _. now apply array_app.
      + apply Forall_app. split; [assumption|]. constructor; [assumption|constructor].
    - intros Hb Ha Ho Hn. apply IH; try assumption.
      + apply (holds_frame h _ k B nr data busy); try assumption.
        * now rewrite store_length.
        * intros b _. now apply store_array_length.
        * intros b _ Hi. apply array_store_other. intros ->. contradiction.
      + now apply store_ok.
    - intros W F. destruct (append grow h (buf k) (firstn (room B k s) (read h s))) as [h1 nb] eqn:Ea.
      destruct (append_frame grow h (buf k) _ h1 nb (h_wf _ _ _ _ _ H) Ea) as (L1 & O1 & A1 & R1 & _).
      destruct (Write_core grow (S (len s)) h k s B nr data h1 nb H Hh W ltac:(lia) Ea) as (h' & k' & E & H' & Hh' & Sz & _ & H0 & Hp & Hbuf).
      { intros P. destruct K as [K|K]; [lia|].
        destruct F as [F|F].
        - pose proof (read_cap0 h s W F) as Rn. rewrite Rn, skipn_nil. apply read_empty. cbn [len from]. destruct W. lia.
        - destruct W as (W1 & W2 & [W3|W3]).
          + pose proof (read_cap0 h s (conj W1 (conj W2 (or_introl W3))) W3) as Rn. rewrite Rn, skipn_nil. apply read_empty. cbn [len from]. lia.
          + rewrite read_from by (unfold room; lia). f_equal. apply read_same. apply O1; [assumption|]. intros En. apply F. now rewrite En. }
      exists h', k'. split; [exact E|]. split.
      + intros a Ha Hn. destruct (Nat.eq_dec (len (buf k)) 0) as [Z|Z]; [now rewrite H0|]. rewrite Hp by lia.
        destruct K as [K|K]; [lia|]. apply O1; [assumption|]. intros ->. contradiction.
      + apply IH; [exact H'|now rewrite Sz|exact Hh'|]. destruct Hbuf as [(y & Hy & Eb & El)|[[P _] Eb]].
        * right. rewrite Eb. cbn [arr from]. left. reflexivity.
        * destruct K as [K|K]; [lia|]. right. rewrite Eb, Hp by assumption. destruct R1 as [->|[-> R1]]; [right; apply in_or_app; now right|].
          right. apply in_or_app. left. apply in_seq. lia.
    - intros W F. pose proof (h_valid _ _ _ _ _ H) as V.
      pose proof (digest_length data (v_pos _ _ _ V) (v_24 _ _ _ V) (h_bytes _ _ _ _ _ H)) as Ld.
      destruct (append grow h s (digest data)) as [h' s'] eqn:Ea.
      destruct (append_frame grow h s _ h' s' W Ea) as (L1 & O1 & A1 & R1 & C1).
      exists h', s'. split; [rewrite (Sum_ok grow h k B nr data s d H Hh Hsz d200); f_equal; now rewrite <- digest_final|].
      split; [|split; [exact O1|]].
      + destruct (Nat.eq_dec (len s + d) 0) as [Z|Z].
        * assert (Ed : digest data = []) by (apply length_zero_iff_nil; lia). rewrite Ed in *. rewrite app_nil_r.
          assert (El : len s' = len s). { unfold append in Ea. destruct (Nat.leb _ _); inversion Ea; cbn [len length]; lia. }
          rewrite !read_empty by lia. reflexivity.
        * eapply append_read; [exact W|exact Ea|lia].
      + apply IH; try assumption.
        * apply (holds_frame h _ k B nr data busy); try assumption. intros a Ha Hi. destruct F as [F|F]; [now apply C1|].
          apply O1; [assumption|]. intros ->. contradiction.
        * eapply append_ok; [exact Hh| |exact Ea]. rewrite digest_final. apply bytes_ok_firstn, state_bytes_ok.
    - apply IH; [|exact Hsz|exact Hh|left; reflexivity].
      apply Reset_holds; [apply H|]. eapply holds_state_ok. exact H.
  Qed.
End History.

(** ** Consecutive chunks of one buffer *)
Fixpoint chunks (s : slice) (ns : list nat) : list slice :=
  match ns with
  | [] => []
  | n :: ns => upto s n :: chunks (from s n) ns
  end.
(** Write each slice in turn. *)
Fixpoint write_all (grow : nat -> nat -> nat) (h : heap) (k : keccak) (ss : list slice) : res (heap * keccak) :=
  match ss with
  | [] => Ok (h, k)
  | s :: ss => '(h, k, n) <~ Write grow (S (len s)) h k s ;; if Nat.eqb n (len s) then write_all grow h k ss else Panics
  end.
Lemma store_same h a o n : (a < length h)%nat -> (o + n <= length (array h a))%nat -> store h a o (firstn n (skipn o (array h a))) = h.
Proof.
  intros Ha Ho. unfold store. rewrite firstn_length, skipn_length, Nat.min_l by lia.
  replace (firstn o (array h a) ++ firstn n (skipn o (array h a)) ++ skipn (o + n) (array h a)) with (array h a).
  - unfold array in *. clear Ho. revert a Ha. induction h as [|x h IH]; intros [|a] Ha; cbn [length] in *; try lia; [reflexivity|].
    cbn [upd nth]. f_equal. apply IH. lia.
  - rewrite skipn_add. now rewrite !firstn_skipn.
Qed.
Lemma chunks_ok grow ns : forall h0 h k B nr data s,
  holds h k B nr data -> heap_ok h -> wf h s -> (fold_right Nat.add 0 ns = len s)%nat ->
  (length h0 <= length h)%nat -> (arr s < length h0 \/ cap s = 0)%nat -> (forall a, (a < length h0)%nat -> array h a = array h0 a) ->
  (len (buf k) = 0 \/ (arr (buf k) = arr s /\ off (buf k) + len (buf k) = off s) \/ length h0 <= arr (buf k))%nat ->
  exists h' k', write_all grow h k (chunks s ns) = Ok (h', k') /\ holds h' k' B nr (data ++ read h s) /\ heap_ok h' /\ size k' = size k /\
    (length h0 <= length h')%nat /\ (forall a, (a < length h0)%nat -> array h' a = array h0 a).
Proof.
  induction ns as [|n ns IH]; intros h0 h k B nr data s H Hh W Es L0 As A0 K; cbn [fold_right] in Es; cbn [chunks write_all].
  - exists h, k. split; [reflexivity|]. rewrite (read_empty h s) by lia. rewrite app_nil_r. auto 10.
  - assert (Wn : wf h (upto s n)) by (destruct W as (W1 & W2 & W3); unfold wf, upto; cbn; repeat split; lia).
    destruct (append grow h (buf k) (firstn (room B k (upto s n)) (read h (upto s n)))) as [h1 nb] eqn:Ea.
    set (x := room B k (upto s n)) in *.
    assert (Hx : (x <= n)%nat) by (unfold x, room; cbn [len upto]; lia).
    pose proof (append_frame grow h (buf k) _ h1 nb (h_wf _ _ _ _ _ H) Ea) as (L1 & O1 & A1 & R1 & _).
    (* the caller's arrays are the same after append *)
    assert (Keep : (0 < len (buf k))%nat -> (forall a, (a < length h0)%nat -> array h1 a = array h a) /\
        (length h0 <= arr nb \/ arr nb = arr s /\ off nb + len nb = off s + x)%nat).
    { intros P. destruct K as [K|[[Ka Ko]|K]]; [lia| |].
      - unfold append in Ea. rewrite read_upto in Ea by lia. rewrite firstn_firstn, Nat.min_l in Ea by assumption.
        pose proof (read_length h s W) as Lr.
        rewrite firstn_length, Nat.min_l in Ea by lia.
        destruct (Nat.leb_spec (len (buf k) + x) (cap (buf k))) as [Lc|Lc]; inversion Ea; subst; clear Ea.
        + destruct W as (W1 & W2 & W3). destruct (h_wf _ _ _ _ _ H) as (X1 & X2 & X3).
          assert (Ab : (arr (buf k) < length h)%nat) by lia.
          unfold read. rewrite firstn_firstn, Nat.min_l by lia. rewrite Ka, Ko.
          rewrite store_same; [|rewrite <- Ka; assumption|lia]. split; [reflexivity|]. right. cbn [arr off len]. lia.
        + split; [intros a Ha; apply array_app; lia|]. left. cbn [arr]. lia.
      - split; [intros a Ha; apply O1; lia|]. left. destruct R1 as [->|[-> _]]; lia. }
    destruct (Write_core grow (S (len (upto s n))) h k (upto s n) B nr data h1 nb H Hh Wn ltac:(lia) Ea) as (h' & k' & E & H' & Hh' & Sz & _ & Hz & Hp & Hbuf).
    { intros P. fold x. rewrite <- read_from by (cbn [len upto]; lia).
      destruct As as [As|As].
      - apply read_same. cbn [arr from upto]. apply (proj1 (Keep P)). assumption.
      - rewrite !read_empty; [reflexivity| |]; cbn [len from upto]; destruct W; lia. }
    rewrite E. cbn [rbind]. rewrite Nat.eqb_refl.
    assert (Wf : wf h' (from s n)).
    { destruct (Nat.eq_dec (len (buf k)) 0) as [Z|Z].
      - rewrite (Hz Z). apply wf_from; [assumption|lia].
      - rewrite Hp by lia. apply (wf_mono h); try assumption. apply wf_from; [assumption|lia]. }
    assert (Same : forall a, (a < length h0)%nat -> array h' a = array h a).
    { intros a Ha. destruct (Nat.eq_dec (len (buf k)) 0) as [Z|Z]; [now rewrite (Hz Z)|]. rewrite Hp by lia. apply (proj1 (Keep ltac:(lia))). assumption. }
    assert (Lh' : (length h0 <= length h')%nat).
    { destruct (Nat.eq_dec (len (buf k)) 0) as [Z|Z]; [now rewrite (Hz Z)|]. rewrite Hp by lia. lia. }
    destruct (IH h0 h' k' B nr (data ++ read h (upto s n)) (from s n) H' Hh' Wf) as (h2 & k2 & E2 & H2 & Hh2 & Sz2 & L2 & A2).
    + cbn [len from]. lia.
    + assumption.
    + cbn [arr cap from]. lia.
    + intros a Ha. rewrite Same by assumption. now apply A0.
    + destruct Hbuf as [(y & Hy & Eb & El)|[[P Ex] Eb]].
      * right. left. rewrite Eb. cbn [arr off len from upto] in *. lia.
      * rewrite Eb. destruct (Keep P) as [_ [Kn|[Ka Ko]]]; [right; right; assumption|]. right. left. split; [exact Ka|].
        cbn [off from]. cbn [len upto] in Ex. fold x in Ex. lia.
    + exists h2, k2. split; [exact E2|]. split; [|split; [assumption|split; [congruence|split; assumption]]].
      assert (Er : read h s = read h (upto s n) ++ read h' (from s n)).
      { rewrite read_upto, read_from by lia. replace (read h' s) with (read h s); [now rewrite firstn_skipn|].
        destruct As as [As|As]; [symmetry; apply read_same; now apply Same|].
        rewrite !read_empty; [reflexivity| |]; destruct W; lia. }
      rewrite Er, app_assoc. exact H2.
Qed.

(** ** Padding *)
Lemma nth_padding q i : (i < q)%nat -> nth i (padding q) 0 =
  N.lor (if Nat.eqb i 0 then 1 else 0) (if Nat.eqb (S i) q then 0x80 else 0).
Proof.
  intros H. unfold padding. destruct (Nat.eqb_spec q 1) as [->|Hq]; [destruct i; [reflexivity|lia]|].
  destruct i as [|i]; [cbn [nth]; destruct (Nat.eqb_spec 1 q); [lia|reflexivity]|]. cbn [nth]. change (Nat.eqb (S i) 0) with false. cbv iota.
  destruct (Nat.eqb_spec (S (S i)) q) as [E|E].
  - rewrite app_nth2 by (rewrite repeat_length; lia). rewrite repeat_length. replace (i - (q - 2))%nat with 0%nat by lia. reflexivity.
  - rewrite app_nth1 by (rewrite repeat_length; lia). apply nth_repeat.
Qed.
Lemma padding_lt m1 m2 q1 q2 : (0 < q1 < q2)%nat -> m1 ++ padding q1 = m2 ++ padding q2 -> False.
Proof.
  intros H E. assert (L : (length m1 + q1 = length m2 + q2)%nat).
  { apply (f_equal (@length N)) in E. now rewrite !app_length, !padding_length in E by lia. }
  apply (f_equal (fun l => nth (length m1) l 0)) in E.
  rewrite app_nth2, Nat.sub_diag, nth_padding in E by lia.
  rewrite app_nth2, nth_padding in E by lia.
  replace (length m1 - length m2)%nat with (q2 - q1)%nat in E by lia.
  destruct (Nat.eqb_spec (q2 - q1) 0); [lia|]. change (Nat.eqb 0 0) with true in E. destruct (Nat.eqb 1 q1), (Nat.eqb (S (q2 - q1)) q2); discriminate E.
Qed.
Lemma padding_inj m1 m2 q1 q2 : (0 < q1)%nat -> (0 < q2)%nat -> m1 ++ padding q1 = m2 ++ padding q2 -> m1 = m2 /\ q1 = q2.
Proof.
  intros H1 H2 E. destruct (Nat.lt_trichotomy q1 q2) as [L|[->|L]].
  - exfalso. eapply (padding_lt m1 m2 q1 q2); [lia|exact E].
  - split; [|reflexivity]. now apply app_inv_tail in E.
  - exfalso. eapply (padding_lt m2 m1 q2 q1); [lia|now symmetry].
Qed.
