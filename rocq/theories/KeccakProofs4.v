(** Proofs about package keccakpg: Write, Sum and the published sponge. *)
From Coq Require Import ZArith.
From Verif Require Import Words WordLemmas ListLemmas Mem SLP Bij Blocks Mm3Spec Mm3Proofs KeccakModel KeccakSpec KeccakProofs KeccakProofs2 KeccakProofs3.
Open Scope N_scope.

Definition zero : list N := repeat 0 25.
Lemma zero_ok : state_ok zero.
Proof. split; [reflexivity|]. repeat constructor; reflexivity. Qed.
Definition absorbed (B nr : nat) (data : list N) : list N * list N := absorb B (stepf nr B) zero data.
Lemma absorb_state_ok B nr s p : (0 < B)%nat -> (nr <= 24)%nat -> state_ok s -> bytes_ok p -> state_ok (fst (absorb B (stepf nr B) s p)).
Proof.
  intros HB Hn Hs Hp. apply (absorb_inv B (stepf nr B) HB state_ok bytes_ok); auto.
  - intros l n Hl. split; [now apply bytes_ok_firstn|now apply bytes_ok_skipn].
  - intros s' b H1 H2 _. now apply stepf_ok.
Qed.
Lemma absorb_rest_ok {S} B (g : S -> list N -> S) s p : (0 < B)%nat -> bytes_ok p -> bytes_ok (snd (absorb B g s p)).
Proof. intros HB Hp. rewrite absorb_rest by assumption. now apply bytes_ok_skipn. Qed.
Lemma valid_withS k s B nr : valid k B nr -> valid (withS k s) B nr.
Proof. intros []. constructor; assumption. Qed.
Lemma valid_withBuf k s B nr : valid k B nr -> valid (withBuf k s) B nr.
Proof. intros []. constructor; assumption. Qed.

Lemma write_loop_ok fuel : forall h k b B nr, valid k B nr -> state_ok (S_ k) -> heap_ok h -> wf h b -> (len b < fuel)%nat ->
  write_loop fuel h k b =
    Ok (withS k (fst (absorb B (stepf nr B) (S_ k) (read h b))),
        from b (len b - length (snd (absorb B (stepf nr B) (S_ k) (read h b))))).
Proof.
  induction fuel as [|fuel IH]; intros h k b B nr V Hs Hh W Hf; [lia|]. cbn [write_loop].
  pose proof (v_pos _ _ _ V) as Bp. rewrite (v_bs _ _ _ V).
  pose proof (read_length h b W) as Lr.
  destruct (Z.leb_spec (Z.of_nat B) (Z.of_nat (len b))) as [L|L].
  - destruct (Z.ltb_spec (Z.of_nat B) 0); [lia|]. rewrite Nat2Z.id.
    assert (Eb : read h (upto b B) = firstn B (read h b)) by (apply read_upto; lia).
    rewrite Eb. rewrite (f_ok k B nr); [|assumption|assumption|now apply bytes_ok_firstn, read_ok|rewrite firstn_length; lia].
    cbn [rbind]. rewrite (IH _ _ _ B nr); [|now apply valid_withS|cbn [S_ withS]; apply stepf_ok; [apply V|assumption|now apply bytes_ok_firstn, read_ok]|assumption|apply wf_from; [assumption|lia]|cbn [len from]; lia].
    rewrite read_from by lia. cbn [S_ withS].
    rewrite (absorb_step B (stepf nr B) Bp (S_ k) (read h b)) by lia.
    set (r := absorb B (stepf nr B) (stepf nr B (S_ k) (firstn B (read h b))) (skipn B (read h b))).
    assert (Lr2 : (length (snd r) <= len b - B)%nat).
    { unfold r. rewrite absorb_rest by assumption. rewrite !skipn_length. lia. }
    f_equal. f_equal. unfold from. cbn [arr off len cap]. f_equal; lia.
  - rewrite absorb_short by lia. cbn [fst snd]. rewrite Lr, Nat.sub_diag. f_equal. f_equal.
    + destruct k; reflexivity.
    + unfold from. destruct b; cbn. f_equal; lia.
Qed.

Record holds (h : heap) (k : keccak) (B nr : nat) (data : list N) : Prop := {
  h_valid : valid k B nr;
  h_state : S_ k = fst (absorbed B nr data);
  h_rest : read h (buf k) = snd (absorbed B nr data);
  h_wf : wf h (buf k);
  h_bytes : bytes_ok data
}.
Lemma holds_lt h k B nr data : holds h k B nr data -> (len (buf k) < B)%nat.
Proof.
  intros H. rewrite <- (read_length h) by apply H. rewrite (h_rest _ _ _ _ _ H). apply absorb_rest_lt. apply (h_valid _ _ _ _ _ H).
Qed.
Lemma holds_state_ok h k B nr data : holds h k B nr data -> state_ok (S_ k).
Proof. intros H. rewrite (h_state _ _ _ _ _ H). apply absorb_state_ok; try apply H. apply zero_ok. Qed.
Lemma wf_mono h h' s : (length h <= length h')%nat -> (forall a, (a < length h)%nat -> length (array h' a) = length (array h a)) -> wf h s -> wf h' s.
Proof.
  intros Hl Ha (W1 & W2 & W3). destruct (Nat.lt_ge_cases (arr s) (length h)) as [L|L].
  - unfold wf. rewrite Ha by assumption. repeat split; try assumption. right. lia.
  - unfold array in W2. rewrite (nth_overflow h) in W2 by assumption. cbn [length] in W2. unfold wf. repeat split; try lia.
Qed.
Definition room (B : nat) (k : keccak) (b : slice) : nat := Nat.min (B - len (buf k)) (len b).
Lemma Write_core grow fuel h k b B nr data h1 nb :
  holds h k B nr data -> heap_ok h -> wf h b -> (len b < fuel)%nat ->
  append grow h (buf k) (firstn (room B k b) (read h b)) = (h1, nb) ->
  ((0 < len (buf k))%nat -> read h1 (from b (room B k b)) = skipn (room B k b) (read h b)) ->
  exists h' k', Write grow fuel h k b = Ok (h', k', len b) /\ holds h' k' B nr (data ++ read h b) /\
    heap_ok h' /\ size k' = size k /\ rounds k' = rounds k /\
    (len (buf k) = 0%nat -> h' = h) /\ ((0 < len (buf k))%nat -> h' = h1) /\
    ((exists y, (y <= len b)%nat /\ buf k' = from b y /\ len (buf k') = (len b - y)%nat) \/ (0 < len (buf k) /\ room B k b = len b)%nat /\ buf k' = nb).
Proof.
  intros H Hh W Hf Ea Hkeep. pose proof (h_valid _ _ _ _ _ H) as V. pose proof (v_pos _ _ _ V) as Bp.
  pose proof (holds_lt _ _ _ _ _ H) as Lt. pose proof (read_length h b W) as Lr.
  pose proof (holds_state_ok _ _ _ _ _ H) as Hs. pose proof (read_ok h b Hh) as Hb.
  assert (Hd : bytes_ok (data ++ read h b)) by (apply Forall_app; split; [apply H|assumption]).
  assert (Eabs : absorbed B nr (data ++ read h b) = absorb B (stepf nr B) (S_ k) (read h (buf k) ++ read h b)).
  { unfold absorbed. rewrite absorb_app by assumption. fold (absorbed B nr data).
    rewrite (h_state _ _ _ _ _ H), (h_rest _ _ _ _ _ H). destruct (absorbed B nr data); reflexivity. }
  unfold Write. rewrite (v_bs _ _ _ V).
  destruct (Nat.ltb_spec 0 (len (buf k))) as [P|P].
  - set (x := room B k b) in *.
    replace (Z.min (Z.of_nat B - Z.of_nat (len (buf k))) (Z.of_nat (len b))) with (Z.of_nat x) by (unfold x, room; lia).
    destruct (Z.ltb_spec (Z.of_nat x) 0); [lia|]. rewrite Nat2Z.id.
    assert (Hx : (x <= len b)%nat) by (unfold x, room; lia).
    rewrite read_upto by assumption. rewrite Ea.
    assert (Lx : length (firstn x (read h b)) = x) by (rewrite firstn_length; lia).
    destruct (append_read grow h (buf k) _ h1 nb (h_wf _ _ _ _ _ H) Ea ltac:(lia)) as (R & Wn & Ln & Arr & Hlen & Oth & Alen).
    assert (Hh1 : heap_ok h1) by (eapply append_ok; [exact Hh| |exact Ea]; now apply bytes_ok_firstn).
    rewrite Lx in Ln. rewrite Ln.
    destruct (Z.ltb_spec (Z.of_nat (len (buf k) + x)) (Z.of_nat B)) as [Ls|Ls].
    + assert (Ex : x = len b) by (unfold x, room; unfold x, room in Ls; lia).
      exists h1, (withBuf k nb). split; [reflexivity|]. split; [|split; [assumption|split; [reflexivity|split; [reflexivity|split; [lia|split; [reflexivity|right; split; [split; assumption|reflexivity]]]]]]].
      rewrite firstn_all2 in R by lia.
      assert (La : length (read h (buf k) ++ read h b) = (len (buf k) + x)%nat) by (rewrite app_length, (read_length _ _ (h_wf _ _ _ _ _ H)); lia).
      constructor; [now apply valid_withBuf| | |exact Wn|exact Hd]; rewrite Eabs, absorb_short by lia; cbn [S_ withBuf fst snd buf]; [reflexivity|exact R].
    + assert (Ex : (len (buf k) + x = B)%nat) by (unfold x, room in *; lia).
      assert (Hblk : bytes_ok (read h1 nb)) by now apply read_ok.
      assert (Lblk : length (read h1 nb) = B) by (rewrite read_length by assumption; lia).
      rewrite (f_ok k B nr) by assumption. cbn [rbind].
      assert (Wb : wf h1 (from b x)) by (apply (wf_mono h); try assumption; now apply wf_from).
      rewrite (write_loop_ok fuel h1 _ _ B nr); [|now apply valid_withS, valid_withBuf|cbn [S_ withS]; apply stepf_ok; [apply V|assumption|assumption]|assumption|assumption|cbn [len from]; lia].
      cbn [rbind S_ withS withBuf]. rewrite (Hkeep P).
      set (r := absorb B (stepf nr B) (stepf nr B (S_ k) (read h1 nb)) (skipn x (read h b))).
      assert (Er : absorbed B nr (data ++ read h b) = r).
      { rewrite Eabs. unfold r. rewrite R. rewrite <- (firstn_skipn x (read h b)) at 1. rewrite app_assoc.
        apply (Blocks.absorb_block B (stepf nr B) Bp). rewrite <- R. exact Lblk. }
      assert (Lr2 : (length (snd r) <= len b - x)%nat).
      { unfold r. rewrite absorb_rest by assumption. rewrite !skipn_length. lia. }
      set (y := (len (from b x) - length (snd r))%nat).
      assert (Hy : (y <= len b - x)%nat) by (unfold y; cbn [len from]; lia).
      eexists h1, _. split; [reflexivity|].
      cbn [size rounds buf withBuf withS].
      split; [|split; [assumption|split; [reflexivity|split; [reflexivity|split; [lia|split; [reflexivity|left]]]]]].
      * constructor; [apply valid_withBuf, valid_withS, valid_withS, valid_withBuf, V| | | |exact Hd];
          rewrite ?Er; cbn [S_ withBuf withS fst snd buf]; [reflexivity| |apply wf_from; [assumption|exact Hy]].
        rewrite read_from by exact Hy. rewrite (Hkeep P). unfold r. rewrite absorb_rest by assumption.
        unfold y, r. cbn [len from]. rewrite absorb_rest by assumption. rewrite !skipn_length, Lr.
        f_equal. pose proof (Nat.mul_div_le (len b - x) B ltac:(lia)). lia.
      * exists (x + y)%nat. split; [lia|]. split; unfold from; cbn [arr off len cap]; [f_equal; lia|lia].
  - assert (P0 : len (buf k) = 0%nat) by lia.
    rewrite (write_loop_ok fuel h k b B nr) by assumption. cbn [rbind].
    assert (E0 : read h (buf k) = []) by (apply length_zero_iff_nil; rewrite read_length by apply H; assumption).
    rewrite E0 in Eabs. cbn [app] in Eabs.
    set (r := absorb B (stepf nr B) (S_ k) (read h b)) in *.
    assert (Lr2 : (length (snd r) <= len b)%nat).
    { unfold r. rewrite absorb_rest by assumption. rewrite !skipn_length. lia. }
    eexists h, _. split; [reflexivity|]. cbn [size rounds buf withBuf withS].
    split; [|split; [assumption|split; [reflexivity|split; [reflexivity|split; [reflexivity|split; [lia|left]]]]]].
    + constructor; [apply valid_withBuf, valid_withS, V| | | |exact Hd]; rewrite ?Eabs; cbn [S_ withBuf withS fst snd buf]; [reflexivity| |apply wf_from; [assumption|lia]].
      rewrite read_from by lia. unfold r. rewrite absorb_rest by assumption. rewrite skipn_length, Lr. f_equal.
      pose proof (Nat.mul_div_le (len b) B ltac:(lia)). lia.
    + eexists. split; [|split; [reflexivity|]]; [lia|cbn [len from]; lia].
Qed.

(** ** Reset *)
Lemma map_zero (l : list N) n : length l = n -> map (fun _ => 0) l = repeat 0 n.
Proof. intros <-. induction l; cbn; congruence. Qed.
Lemma Reset_holds h k B nr : valid k B nr -> length (S_ k) = 25%nat -> holds h (Reset k) B nr [].
Proof.
  intros V L. constructor; [destruct V; constructor; assumption| | |apply wf_nil|constructor];
    unfold absorbed; rewrite absorb_short by (cbn [length]; apply V); [|reflexivity].
  cbn [fst Reset S_]. now apply map_zero.
Qed.

(** ** pad is the published padding of the last block *)
Definition padding (q : nat) : list N := if Nat.eqb q 1 then [0x81] else 0x01 :: repeat 0 (q - 2) ++ [0x80].
Lemma padding_length q : (0 < q)%nat -> length (padding q) = q.
Proof. intros H. unfold padding. destruct (Nat.eqb_spec q 1); subst; [reflexivity|]. cbn [length]. rewrite app_length, repeat_length. cbn [length]. lia. Qed.
Lemma padding_ok q : bytes_ok (padding q).
Proof.
  unfold padding. destruct (Nat.eqb q 1); [repeat constructor|]. constructor; [reflexivity|].
  apply Forall_app. split; [|repeat constructor]. apply Forall_forall. intros x Hx. apply repeat_spec in Hx. now subst.
Qed.
Lemma upd_app_r {A} (a b : list A) n x : upd (a ++ b) (length a + n) x = a ++ upd b n x.
Proof. induction a as [|y a IH]; [reflexivity|]. cbn [app length Nat.add upd]. now rewrite IH. Qed.
Lemma pad_any k B p : blockSize k = Z.of_nat B -> (length p < B)%nat -> pad k p = Ok (p ++ padding (B - length p)).
Proof.
  intros HB L. unfold pad. rewrite HB. destruct (Z.ltb_spec (Z.of_nat B) 0); [lia|]. rewrite Nat2Z.id.
  destruct (Nat.ltb_spec (length p) B); [|lia]. rewrite firstn_all2 by lia. f_equal.
  destruct (B - length p)%nat as [|q] eqn:Eq; [lia|].
  assert (EB : (B - 1 = length p + q)%nat) by lia. rewrite EB.
  cbn [repeat].
  replace (upd (p ++ 0 :: repeat 0 q) (length p) 1) with (p ++ 1 :: repeat 0 q).
  2:{ rewrite <- (Nat.add_0_r (length p)). now rewrite upd_app_r. }
  unfold get. rewrite upd_app_r, app_nth2_plus. f_equal. unfold padding.
  destruct q as [|q]; [reflexivity|]. cbn [Nat.eqb nth upd]. f_equal. replace (S (S q) - 2)%nat with q by lia.
  clear. induction q as [|q IH]; [reflexivity|]. cbn [repeat upd nth app] in *. f_equal. exact IH.
Qed.

Lemma pad_ok k B nr p : valid k B nr -> (length p < B)%nat -> pad k p = Ok (p ++ padding (B - length p)).
Proof. intros V. apply pad_any. apply V. Qed.

(** ** Sum *)
Definition final (B nr : nat) (data : list N) : list N :=
  let '(s, r) := absorbed B nr data in stepf nr B s (r ++ padding (B - length r)).
Lemma final_ok B nr data : (0 < B)%nat -> (nr <= 24)%nat -> bytes_ok data -> state_ok (final B nr data).
Proof.
  intros HB Hn Hd. unfold final. pose proof (absorb_state_ok B nr zero data HB Hn zero_ok Hd) as Hs.
  pose proof (absorb_rest_ok B (stepf nr B) zero data HB Hd) as Hr. fold (absorbed B nr data) in *.
  destruct (absorbed B nr data) as [s r]. cbn [fst snd] in *. apply stepf_ok; try assumption.
  apply Forall_app. split; [assumption|apply padding_ok].
Qed.
Lemma le_bytes_store n x : le_bytes n x = le_store n x.
Proof.
  revert x. induction n as [|n IH]; intros x; [reflexivity|]. cbn [le_bytes le_store]. rewrite IH.
  unfold wrap, shr. now rewrite N.land_ones, N.shiftr_div_pow2.
Qed.
Lemma state_bytes_eq s : concat (map putUint64le s) = state_bytes s.
Proof. unfold state_bytes. f_equal. apply map_ext. intros x. now rewrite le_bytes_store. Qed.
Lemma state_bytes_length s : length (state_bytes s) = (8 * length s)%nat.
Proof.
  rewrite <- state_bytes_eq. induction s as [|x s IH]; [reflexivity|]. cbn [map concat length]. rewrite app_length, IH.
  unfold putUint64le. rewrite le_store_length. lia.
Qed.
Lemma Sum_ok grow h k B nr data b d : holds h k B nr data -> heap_ok h -> size k = Z.of_nat d -> (d <= 200)%nat ->
  Sum grow h k b = Ok (append grow h b (firstn d (state_bytes (final B nr data)))).
Proof.
  intros H Hh Ed Hd. pose proof (h_valid _ _ _ _ _ H) as V. pose proof (v_pos _ _ _ V) as Bp.
  unfold Sum. pose proof (absorb_rest_lt B (stepf nr B) Bp zero data) as Lt. fold (absorbed B nr data) in Lt.
  pose proof (absorb_rest_ok B (stepf nr B) zero data Bp (h_bytes _ _ _ _ _ H)) as Hr. fold (absorbed B nr data) in Hr.
  rewrite (h_rest _ _ _ _ _ H), (pad_ok k B nr) by assumption. cbn [rbind].
  rewrite (f_ok k B nr); [|assumption|eapply holds_state_ok; eassumption|apply Forall_app; split; [assumption|apply padding_ok]|rewrite app_length, padding_length by lia; lia].
  cbn [rbind]. rewrite (h_state _ _ _ _ _ H).
  pose proof (final_ok B nr data Bp (v_24 _ _ _ V) (h_bytes _ _ _ _ _ H)) as [Lf _].
  unfold final in *. destruct (absorbed B nr data) as [s r]. cbn [fst snd] in *.
  rewrite state_bytes_eq, state_bytes_length, Lf, Ed.
  destruct (Z.ltb_spec (Z.of_nat d) 0); [lia|]. destruct (Z.ltb_spec (Z.of_nat (8 * 25)) (Z.of_nat d)); [lia|]. cbn [orb].
  now rewrite Nat2Z.id.
Qed.
Lemma sponge_final B nr d data : (0 < B)%nat -> (B mod 8 = 0)%nat -> (d <= B)%nat ->
  sponge nr B d data = firstn d (state_bytes (final B nr data)).
Proof.
  intros HB H8 Hd. unfold sponge.
  assert (E : fold_left (absorb_block nr) (fst (blocks B (pad101 B data))) (repeat 0 25) = final B nr data).
  { pose proof (fold_blocks (absorb_block nr) B (pad101 B data) zero HB) as F.
    destruct (blocks B (pad101 B data)) as [bs r]. cbn [fst]. fold zero.
    replace (fold_left (absorb_block nr) bs zero) with (fst (absorb B (absorb_block nr) zero (pad101 B data))) by now rewrite <- F.
    rewrite (absorb_ext B (absorb_block nr) (stepf nr B) HB) by (intros s b L; unfold stepf; now rewrite used_all).
    unfold pad101. fold (padding (B - length data mod B)). rewrite absorb_app by assumption.
    unfold final, absorbed. pose proof (absorb_rest_length B (stepf nr B) HB zero data) as Lr.
    pose proof (absorb_rest_lt B (stepf nr B) HB zero data) as Lt.
    destruct (absorb B (stepf nr B) zero data) as [s r']. cbn [fst snd] in *. rewrite <- Lr.
    rewrite <- (app_nil_r (r' ++ padding _)). rewrite Blocks.absorb_block; [|assumption|rewrite app_length, padding_length by lia; lia].
    rewrite absorb_short by assumption. now rewrite app_nil_r. }
  rewrite E. destruct d; cbn [squeeze]; [now destruct (Nat.leb 0 B)|]. destruct (Nat.leb_spec (S d) B); [reflexivity|lia].
Qed.
