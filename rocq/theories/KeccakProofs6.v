(** Proofs about package keccakpg: injectivity of blocks, unusual sizes. *)
From Coq Require Import ZArith.
From Verif Require Import Words WordLemmas ListLemmas Mem SLP Bij Blocks Mm3Spec Mm3Proofs KeccakModel KeccakSpec KeccakHist KeccakProofs KeccakProofs2 KeccakProofs3 KeccakProofs4 KeccakProofs5.
Open Scope N_scope.

Lemma chunk_ext n : forall b1 b2 : list N, length b1 = (8 * n)%nat -> length b2 = (8 * n)%nat ->
  (forall j, (j < n)%nat -> firstn 8 (skipn (8 * j) b1) = firstn 8 (skipn (8 * j) b2)) -> b1 = b2.
Proof.
  induction n as [|n IH]; intros b1 b2 L1 L2 H.
  - destruct b1, b2; cbn [length] in *; try lia. reflexivity.
  - rewrite <- (firstn_skipn 8 b1), <- (firstn_skipn 8 b2). f_equal; [apply (H 0%nat); lia|].
    apply IH; [rewrite skipn_length; lia|rewrite skipn_length; lia|]. intros j Hj.
    rewrite <- !skipn_add. specialize (H (S j) ltac:(lia)). now replace (8 * S j)%nat with (8 + 8 * j)%nat in H by lia.
Qed.
Lemma lanes_inj B b1 b2 : (B mod 8 = 0)%nat -> (B <= 200)%nat -> bytes_ok b1 -> bytes_ok b2 -> length b1 = B -> length b2 = B ->
  lanes_of b1 = lanes_of b2 -> b1 = b2.
Proof.
  intros H8 HB H1 H2 L1 L2 E. pose proof (Nat.div_mod B 8 ltac:(lia)) as D.
  apply (chunk_ext (B / 8)); [lia|lia|]. intros j Hj.
  apply (f_equal (fun l => nth j l 0)) in E. unfold lanes_of in E. rewrite !nth_map_seq in E by lia.
  rewrite !le_int_load in E by (apply bytes_ok_firstn; now apply bytes_ok_skipn).
  apply le_load_inj in E; [exact E|apply bytes_ok_firstn; now apply bytes_ok_skipn|apply bytes_ok_firstn; now apply bytes_ok_skipn|].
  rewrite !firstn_length, !skipn_length. lia.
Qed.
Lemma lxor_cancel_l a b c : N.lxor a b = N.lxor a c -> b = c.
Proof. intros H. apply (f_equal (N.lxor a)) in H. now rewrite <- !N.lxor_assoc, !N.lxor_nilpotent, !N.lxor_0_l in H. Qed.
Lemma xor_state_nth A B i : (i < 25)%nat -> nth i (xor_state A B) 0 = N.lxor (nth i A 0) (nth i B 0).
Proof. intros H. unfold xor_state. now rewrite nth_map_seq. Qed.
Lemma xor_state_inj_r s a b : state_ok a -> state_ok b -> xor_state s a = xor_state s b -> a = b.
Proof.
  intros [La _] [Lb _] E. apply list_ext; [congruence|]. intros i Hi. rewrite La in Hi.
  apply (f_equal (fun l => nth i l 0)) in E. rewrite !xor_state_nth in E by assumption. now apply lxor_cancel_l in E.
Qed.
Lemma xor_state_inj_l s a b : state_ok a -> state_ok b -> xor_state a s = xor_state b s -> a = b.
Proof.
  intros [La _] [Lb _] E. apply list_ext; [congruence|]. intros i Hi. rewrite La in Hi.
  apply (f_equal (fun l => nth i l 0)) in E. rewrite !xor_state_nth in E by assumption.
  rewrite (N.lxor_comm _ (nth i s 0)), (N.lxor_comm (nth i b 0)) in E. now apply lxor_cancel_l in E.
Qed.
Lemma stepf_inj_block nr B s b1 b2 : (nr <= 24)%nat -> (B mod 8 = 0)%nat -> (B <= 200)%nat -> state_ok s ->
  bytes_ok b1 -> bytes_ok b2 -> length b1 = B -> length b2 = B -> stepf nr B s b1 = stepf nr B s b2 -> b1 = b2.
Proof.
  intros Hn H8 HB Hs H1 H2 L1 L2 E. unfold stepf in E. rewrite !used_all in E by assumption. unfold absorb_block in E.
  apply (bij_inj _ _ (bij_keccak_f nr Hn)) in E; [|apply xor_state_ok; [assumption|now apply lanes_ok]|apply xor_state_ok; [assumption|now apply lanes_ok]].
  apply xor_state_inj_r in E; [|now apply lanes_ok|now apply lanes_ok]. now apply (lanes_inj B).
Qed.
Lemma stepf_inj_state nr B s1 s2 b : (nr <= 24)%nat -> state_ok s1 -> state_ok s2 -> bytes_ok b ->
  stepf nr B s1 b = stepf nr B s2 b -> s1 = s2.
Proof.
  intros Hn H1 H2 Hb E. unfold stepf, absorb_block in E.
  assert (Hu : state_ok (lanes_of (used B b))) by now apply lanes_ok, bytes_ok_firstn.
  apply (bij_inj _ _ (bij_keccak_f nr Hn)) in E; [|now apply xor_state_ok|now apply xor_state_ok].
  now apply xor_state_inj_l in E.
Qed.
(** Messages shorter than a block: the final state determines the message. *)
Lemma final_short_inj B nr m1 m2 : (0 < B)%nat -> (B mod 8 = 0)%nat -> (B <= 200)%nat -> (nr <= 24)%nat -> bytes_ok m1 -> bytes_ok m2 ->
  (length m1 < B)%nat -> (length m2 < B)%nat -> final B nr m1 = final B nr m2 -> m1 = m2.
Proof.
  intros HB H8 HM Hn H1 H2 L1 L2 E. unfold final, absorbed in E. rewrite !absorb_short in E by assumption.
  apply stepf_inj_block in E; try assumption.
  - apply padding_inj in E; [apply E|lia|lia].
  - apply zero_ok.
  - apply Forall_app; split; [assumption|apply padding_ok].
  - apply Forall_app; split; [assumption|apply padding_ok].
  - rewrite app_length, padding_length; lia.
  - rewrite app_length, padding_length; lia.
Qed.
(** ** One-shot use *)
Definition oneshot (grow : nat -> nat -> nat) (h : heap) (k : keccak) (s t : slice) : res (heap * slice) :=
  '(h, k, n) <~ Write grow (S (len s)) h (Reset k) s ;; Sum grow h k t.
Lemma oneshot_write grow fuel h k B nr s : valid k B nr -> length (S_ k) = 25%nat -> heap_ok h -> wf h s -> (len s < fuel)%nat ->
  exists k', Write grow fuel h (Reset k) s = Ok (h, k', len s) /\ holds h k' B nr (read h s) /\ size k' = size k /\
    exists y, (y <= len s)%nat /\ buf k' = from s y.
Proof.
  intros V L Hh W Hf. pose proof (Reset_holds h k B nr V L) as H.
  destruct (append grow h (buf (Reset k)) (firstn (room B (Reset k) s) (read h s))) as [h1 nb] eqn:Ea.
  destruct (Write_core grow fuel h (Reset k) s B nr [] h1 nb H Hh W Hf Ea) as (h' & k' & E & H' & _ & Sz & _ & Hz & _ & Hb).
  - cbn [Reset buf len nil_slice]. lia.
  - rewrite (Hz eq_refl) in *. exists k'. split; [exact E|]. split; [exact H'|]. split; [exact Sz|].
    destruct Hb as [(y & Hy & Eb & _)|[[P _] _]]; [exists y; split; assumption|cbn [Reset buf len nil_slice] in P; lia].
Qed.
Lemma oneshot_ok grow h k B nr d s t : valid k B nr -> size k = Z.of_nat d -> (d <= 200)%nat -> length (S_ k) = 25%nat -> heap_ok h -> wf h s ->
  oneshot grow h k s t = Ok (append grow h t (firstn d (state_bytes (final B nr (read h s))))).
Proof.
  intros V Sz Hd L Hh W. unfold oneshot.
  destruct (oneshot_write grow (S (len s)) h k B nr s V L Hh W ltac:(lia)) as (k' & E & H' & Sz' & _).
  rewrite E. cbn [rbind]. rewrite (Sum_ok grow h k' B nr (read h s) t d); auto. congruence.
Qed.
(** ** Sizes that are not a multiple of four bytes *)
Lemma final_skip B nr m x : (0 < B)%nat -> (length m mod B = 8 * (B / 8))%nat -> (8 * (B / 8) + 1 < B)%nat ->
  final B nr (m ++ [x]) = final B nr m.
Proof.
  intros HB Hm Hq. unfold final, absorbed. rewrite absorb_app by assumption.
  pose proof (absorb_rest_length B (stepf nr B) HB zero m) as Lr.
  destruct (absorb B (stepf nr B) zero m) as [s r]. cbn [snd] in Lr. rewrite Hm in Lr.
  rewrite (absorb_short B _ HB) by (rewrite app_length; cbn [length]; lia).
  unfold stepf, used. f_equal. rewrite <- app_assoc. rewrite <- Lr. now rewrite !firstn_app, Nat.sub_diag.
Qed.
(** Bytes at positions p with p mod B >= 8 * (B / 8) do not matter. *)
Definition same_used (B : nat) (m1 m2 : list N) : Prop :=
  length m1 = length m2 /\ forall p, (p mod B < 8 * (B / 8))%nat -> nth p m1 0 = nth p m2 0.
Lemma nth_firstn {A} (l : list A) n i d : nth i (firstn n l) d = if Nat.ltb i n then nth i l d else d.
Proof.
  revert n i. induction l as [|x l IH]; intros n i.
  - rewrite firstn_nil. destruct (Nat.ltb i n), i; reflexivity.
  - destruct n as [|n]; [destruct i; reflexivity|]. destruct i as [|i]; [reflexivity|]. rewrite firstn_cons. cbn [nth]. rewrite IH.
    reflexivity.
Qed.
Lemma nth_skipn {A} (l : list A) n i d : nth i (skipn n l) d = nth (n + i) l d.
Proof. revert l. induction n as [|n IH]; intros [|x l]; [reflexivity|reflexivity|destruct i; reflexivity|]. cbn [skipn Nat.add nth]. apply IH. Qed.
Lemma used_same B b1 b2 : (0 < B)%nat -> length b1 = length b2 -> (length b1 <= B)%nat -> (forall p, (p mod B < 8 * (B / 8))%nat -> nth p b1 0 = nth p b2 0) -> used B b1 = used B b2.
Proof.
  intros HB L L2 H. unfold used. apply list_ext; [rewrite !firstn_length; lia|].
  intros i Hi. rewrite firstn_length in Hi. rewrite !nth_firstn. destruct (Nat.ltb_spec i (8 * (B / 8))); [|reflexivity].
  apply H. rewrite Nat.mod_small; [assumption|]. lia.
Qed.
Lemma same_skip B b1 b2 : (0 < B)%nat -> same_used B b1 b2 -> same_used B (skipn B b1) (skipn B b2).
Proof.
  intros HB [L H]. split; [rewrite !skipn_length; lia|]. intros p Hp. rewrite !nth_skipn. apply H.
  replace (B + p)%nat with (p + 1 * B)%nat by lia. rewrite Nat.mod_add by lia. assumption.
Qed.
Lemma absorb_same B nr : (0 < B)%nat -> forall n m1 m2 s, (length m1 <= n)%nat -> same_used B m1 m2 ->
  fst (absorb B (stepf nr B) s m1) = fst (absorb B (stepf nr B) s m2) /\
  same_used B (snd (absorb B (stepf nr B) s m1)) (snd (absorb B (stepf nr B) s m2)).
Proof.
  intros HB. induction n as [|n IH]; intros m1 m2 s Hl H; pose proof (proj1 H) as L.
  - rewrite !absorb_short by lia. split; [reflexivity|exact H].
  - destruct (Nat.lt_ge_cases (length m1) B) as [C|C]; [rewrite !absorb_short by lia; split; [reflexivity|exact H]|].
    rewrite (absorb_step B _ HB s m1), (absorb_step B _ HB s m2) by lia.
    assert (E : stepf nr B s (firstn B m1) = stepf nr B s (firstn B m2)).
    { unfold stepf. f_equal. apply used_same; [assumption|rewrite !firstn_length; lia|rewrite firstn_length; lia|].
      intros p Hp. rewrite !nth_firstn. destruct (Nat.ltb p B); [now apply (proj2 H)|reflexivity]. }
    rewrite E. apply IH; [rewrite skipn_length; lia|now apply same_skip].
Qed.
Lemma final_same B nr m1 m2 : (0 < B)%nat -> same_used B m1 m2 -> final B nr m1 = final B nr m2.
Proof.
  intros HB H. destruct (absorb_same B nr HB (length m1) m1 m2 zero (le_n _) H) as [E1 [L2 H2]].
  pose proof (absorb_rest_lt B (stepf nr B) HB zero m1) as Lt.
  unfold final, absorbed in *. destruct (absorb B (stepf nr B) zero m1) as [s1 r1], (absorb B (stepf nr B) zero m2) as [s2 r2]. cbn [fst snd] in *.
  subst s2. unfold stepf. f_equal. rewrite <- L2. apply used_same; [assumption|rewrite !app_length; lia|rewrite app_length, padding_length by lia; lia|].
  intros p Hp. destruct (Nat.lt_ge_cases p (length r1)) as [C|C].
  - rewrite !app_nth1 by lia. now apply H2.
  - rewrite !app_nth2 by lia. now rewrite L2.
Qed.
(** ** Block size zero or negative *)
Lemma write_loop_hangs fuel : forall h k b nr, blockSize k = 0%Z -> Z.to_nat (rounds k) = nr -> (nr <= 24)%nat -> state_ok (S_ k) ->
  write_loop fuel h k b = NoFuel.
Proof.
  induction fuel as [|fuel IH]; intros h k b nr B0 R Hn Hs; [reflexivity|]. cbn [write_loop]. rewrite B0.
  destruct (Z.leb_spec 0 (Z.of_nat (len b))); [|lia]. cbn [Z.ltb Z.compare].
  change (Z.to_nat 0) with 0%nat.
  assert (E : f k (S_ k) (read h (upto b 0)) = Ok (keccak_f nr (S_ k))).
  { unfold f. rewrite B0. unfold read. cbn [len upto firstn length]. change (Z.of_nat 0) with 0%Z. cbn [Z.eqb].
    change (Z.to_nat (Z.quot 0 8)) with 0%nat. cbn [xor_loop rbind]. rewrite R. now apply keccak_f_ok. }
  rewrite E. cbn [rbind]. apply (IH _ _ _ nr); auto. cbn [withS S_]. now apply keccak_f_ok.
Qed.
