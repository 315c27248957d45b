(** Proofs about package keccak: the queue, and what happens to a long write. *)
From Coq Require Import ZArith.
From Verif Require Import Words WordLemmas ListLemmas Mem SLP Bij Blocks Mm3Spec Mm3Proofs KeccakSpec KeccakProofs KeccakProofs2 KeccakProofs3 KeccakProofs4 CkProg CkModel CkRounds CkProofs.
From Verif Require KeccakModel.
Open Scope N_scope.

Notation rest B d := (snd (absorbed B 24 d)).
Record rate_ok (B : nat) : Prop := { ro_pos : (0 < B)%nat; ro_8 : (B mod 8 = 0)%nat; ro_max : (B <= 192)%nat }.
Record holds (F : N) (s : spongeState) (B : nat) (d : list N) : Prop := {
  h_B : rate_ok B; h_rate : rate s = 8 * N.of_nat B;
  h_qlen : length (dataQueue s) = queue_bytes; h_qok : bytes_ok (dataQueue s);
  h_data : bytes_ok d;
  h_state : state s = masked (fst (absorbed B 24 d));
  h_bits : bitsInQueue s = 8 * N.of_nat (length (rest B d));
  h_rest : firstn (length (rest B d)) (dataQueue s) = rest B d;
  h_sq : squeezing s = false; h_fixed : fixedOutputLength s = F }.

Lemma wrap_small w x : x < 2 ^ w -> wrap w x = x.
Proof. intros H. unfold wrap. rewrite N.land_ones. now apply N.mod_small. Qed.
Lemma sub32_small a b : b <= a -> a < 2 ^ 32 -> sub32 a b = a - b.
Proof.
  intros H1 H2. unfold sub32. rewrite subw_mod. change (2 ^ 32) with 4294967296 in *. rewrite (N.mod_small b) by lia.
  symmetry. apply N.mod_unique with 1; lia.
Qed.
Lemma absorbed_state_ok B d : (0 < B)%nat -> bytes_ok d -> state_ok (fst (absorbed B 24 d)).
Proof. intros HB Hd. apply absorb_state_ok; [assumption|lia|apply zero_ok|assumption]. Qed.
Lemma rest_lt B d : (0 < B)%nat -> (length (rest B d) < B)%nat.
Proof. intros H. now apply absorb_rest_lt. Qed.
Lemma rest_length B d : (0 < B)%nat -> length (rest B d) = (length d mod B)%nat.
Proof. intros H. now apply absorb_rest_length. Qed.
Lemma absorbed_app B d x : (0 < B)%nat -> absorbed B 24 (d ++ x) = absorb B (stepf 24 B) (fst (absorbed B 24 d)) (rest B d ++ x).
Proof. intros H. unfold absorbed. rewrite absorb_app by assumption. now destruct (absorb B (stepf 24 B) zero d). Qed.

Lemma whole_ok B n : (B mod 8 = 0)%nat -> (0 < B <= 200)%nat -> forall s cur, (n * B <= length cur)%nat -> state_ok s -> bytes_ok cur ->
  whole_blocks n (8 * N.of_nat B) (masked s) cur = Ok (masked (fst (absorb B (stepf 24 B) s (firstn (n * B) cur)))).
Proof.
  intros H8 HB. induction n as [|n IH]; intros s cur HL Hs Hc.
  - cbn [whole_blocks Nat.mul]. rewrite firstn_O. rewrite absorb_short by (cbn [length]; lia). reflexivity.
  - cbn [whole_blocks]. rewrite absorb_rate_ok by (assumption || lia). cbn [rbind].
    replace (N.to_nat (8 * N.of_nat B / 8)) with B by (rewrite N.mul_comm, N.div_mul by discriminate; now rewrite Nat2N.id).
    rewrite IH; [|rewrite skipn_length; lia|apply stepf_ok; [lia|assumption|now apply bytes_ok_firstn]|now apply bytes_ok_skipn].
    do 3 f_equal. symmetry. rewrite absorb_step by (rewrite ?firstn_length; lia).
    rewrite firstn_firstn, Nat.min_l by lia. replace (S n * B)%nat with (B + n * B)%nat by lia. now rewrite skipn_firstn_comm, Nat.add_comm, Nat.add_sub.
Qed.

Lemma memcpy_ok dst off src soff n : (off + n <= length dst)%nat -> (soff + n <= length src)%nat ->
  memcpy dst (N.of_nat off) src (N.of_nat soff) (N.of_nat n) = Ok (firstn off dst ++ firstn n (skipn soff src) ++ skipn (off + n) dst).
Proof.
  intros H1 H2. unfold memcpy. destruct (N.leb_spec (N.of_nat off + N.of_nat n) (N.of_nat (length dst))); [|lia].
  destruct (N.leb_spec (N.of_nat soff + N.of_nat n) (N.of_nat (length src))); [|lia]. cbn [andb].
  rewrite !Nat2N.id. replace (N.to_nat (N.of_nat off + N.of_nat n)) with (off + n)%nat by lia. reflexivity.
Qed.
Lemma div8 n : 8 * N.of_nat n / 8 = N.of_nat n.
Proof. rewrite N.mul_comm. now apply N.div_mul. Qed.
Lemma mod8 n : (8 * N.of_nat n) mod 8 = 0.
Proof. rewrite N.mul_comm. now apply N.mod_mul. Qed.

Lemma push_ok F s B d p j c : holds F s B d -> bytes_ok p -> (j + c <= length p)%nat -> (length (rest B d) + c <= B)%nat ->
  exists q s', memcpy (dataQueue s) (bitsInQueue s / 8) p (N.of_nat j) (N.of_nat c) = Ok q /\
    (let s1 := withBits (withQueue s q) (add32 (bitsInQueue s) (8 * N.of_nat c)) in
     if bitsInQueue s1 =? rate s1 then AbsorbQueue s1 else Ok s1) = Ok s' /\ holds F s' B (d ++ firstn c (skipn j p)).
Proof.
  intros H Hp Hj Hc. destruct H as [RB Hr Hq Hqo Hd Hs Hb Hre Hsq HF]. destruct RB as [B0 B8 BM]. set (r := rest B d) in *.
  assert (Hq' : (length r + c <= length (dataQueue s))%nat) by (rewrite Hq; unfold queue_bytes; lia).
  rewrite Hb, div8. eexists. set (ch := firstn c (skipn j p)).
  assert (Lch : length ch = c) by (unfold ch; rewrite firstn_length, skipn_length; lia).
  assert (Och : bytes_ok ch) by (unfold ch; apply bytes_ok_firstn; now apply bytes_ok_skipn).
  rewrite memcpy_ok by assumption. fold ch. set (q := firstn (length r) (dataQueue s) ++ ch ++ skipn (length r + c) (dataQueue s)).
  assert (Lq : length q = queue_bytes).
  { unfold q. rewrite !app_length, firstn_length, skipn_length, Lch, Hq. unfold queue_bytes in *. lia. }
  assert (Oq : bytes_ok q).
  { unfold q. apply bytes_ok_app. split; [now apply bytes_ok_firstn|]. apply bytes_ok_app. split; [assumption|now apply bytes_ok_skipn]. }
  assert (Fq : firstn (length r + c) q = r ++ ch).
  { unfold q. rewrite Hre, app_assoc. apply firstn_app_exact. rewrite app_length. lia. }
  assert (Ea : add32 (8 * N.of_nat (length r)) (8 * N.of_nat c) = 8 * N.of_nat (length r + c)).
  { unfold add32, addw. rewrite wrap_small; [lia|]. change (2 ^ 32) with 4294967296. lia. }
  cbn zeta. rewrite Ea. cbn [withBits withQueue bitsInQueue rate].
  assert (Oc : bytes_ok (d ++ ch)) by (apply bytes_ok_app; split; assumption).
  assert (Ab : absorbed B 24 (d ++ ch) = absorb B (stepf 24 B) (fst (absorbed B 24 d)) (r ++ ch)) by now apply absorbed_app.
  destruct (N.eqb_spec (8 * N.of_nat (length r + c)) (rate s)) as [E|E].
  - assert (EB : (length r + c = B)%nat) by lia.
    unfold AbsorbQueue. cbn [withBits withQueue rate state dataQueue]. rewrite Hr, Hs.
    rewrite absorb_rate_ok; [|assumption|lia|rewrite Lq; unfold queue_bytes; lia|now apply absorbed_state_ok|assumption].
    cbn [rbind]. eexists. split; [reflexivity|]. split; [reflexivity|].
    assert (Ab' : absorbed B 24 (d ++ ch) = (stepf 24 B (fst (absorbed B 24 d)) (firstn B q), [])).
    { rewrite Ab. rewrite <- (app_nil_r (r ++ ch)). rewrite Blocks.absorb_block by (rewrite ?app_length; lia).
      rewrite absorb_short by (cbn [length]; lia). now rewrite <- EB, Fq, EB. }
    constructor; cbn [withBits withQueue withState rate state dataQueue bitsInQueue squeezing fixedOutputLength];
      try assumption; try (now constructor); rewrite Ab'; reflexivity.
  - eexists. split; [reflexivity|]. split; [reflexivity|].
    assert (Ab' : absorbed B 24 (d ++ ch) = (fst (absorbed B 24 d), r ++ ch)).
    { rewrite Ab. apply absorb_short; rewrite ?app_length; lia. }
    assert (Lr : length (r ++ ch) = (length r + c)%nat) by (rewrite app_length; lia).
    constructor; cbn [withBits withQueue withState rate state dataQueue bitsInQueue squeezing fixedOutputLength];
      try assumption; try (now constructor); rewrite Ab'; cbn [fst snd]; rewrite ?Lr; try assumption; reflexivity.
Qed.

Definition bits (p : list N) : N := 8 * N.of_nat (length p).
(** One turn of the loop through the queue. *)
Lemma turn_ok F fuel s B d p j c : holds F s B d -> bytes_ok p -> bits p < 2 ^ 64 -> (j < length p)%nat -> (j + c <= length p)%nat ->
  (length (rest B d) + c <= B)%nat -> (bitsInQueue s <> 0 \/ (length p < j + B)%nat) ->
  (let pb := wrap 32 (bits p - 8 * N.of_nat j) in
   if rate s <? add32 pb (bitsInQueue s) then sub32 (rate s) (bitsInQueue s) else pb) = 8 * N.of_nat c ->
  exists s', holds F s' B (d ++ firstn c (skipn j p)) /\
    absorb_while (S fuel) s p (bits p) (8 * N.of_nat j) = absorb_while fuel s' p (bits p) (8 * N.of_nat (j + c)).
Proof.
  intros H Hp H64 Hj Hc HB Hw Hpb. destruct (push_ok F s B d p j c H Hp Hc HB) as (q & s' & M & A & H').
  exists s'. split; [exact H'|]. cbn [absorb_while].
  destruct (N.ltb_spec (8 * N.of_nat j) (bits p)) as [_|K]; [|unfold bits in K; lia].
  assert (W : ((bitsInQueue s =? 0) && (rate s <=? bits p) && (8 * N.of_nat j <=? bits p - rate s))%bool = false).
  { destruct Hw as [Hw|Hw]; [destruct (N.eqb_spec (bitsInQueue s) 0); [contradiction|reflexivity]|].
    rewrite (h_rate _ _ _ _ H). unfold bits.
    destruct (N.leb_spec (8 * N.of_nat B) (8 * N.of_nat (length p))), (N.leb_spec (8 * N.of_nat j) (8 * N.of_nat (length p) - 8 * N.of_nat B)), (bitsInQueue s =? 0); cbn [andb]; try reflexivity; lia. }
  rewrite W. cbn zeta in Hpb, A. rewrite Hpb, mod8, N.sub_0_r, !div8.
  rewrite M. cbn [rbind].
  replace (add64 (8 * N.of_nat j) (8 * N.of_nat c)) with (8 * N.of_nat (j + c)).
  2:{ unfold add64, addw. rewrite wrap_small; [lia|]. unfold bits in H64. lia. }
  rewrite A. cbn [rbind]. reflexivity.
Qed.

Lemma while_end fuel s p : absorb_while (S fuel) s p (bits p) (bits p) = Ok s.
Proof. cbn [absorb_while]. destruct (N.ltb_spec (bits p) (bits p)); [lia|reflexivity]. Qed.
Lemma firstn_skipn_all (p : list N) j : firstn (length p - j) (skipn j p) = skipn j p.
Proof. apply firstn_all2. rewrite skipn_length. lia. Qed.

(** The end of the data, shorter than a block, into the empty queue. *)
Lemma tail_ok F fuel s B d p j : holds F s B d -> bytes_ok p -> bits p < 2 ^ 64 -> (j <= length p)%nat -> (length p < j + B)%nat ->
  rest B d = [] -> exists s', absorb_while (S (S fuel)) s p (bits p) (8 * N.of_nat j) = Ok s' /\ holds F s' B (d ++ skipn j p).
Proof.
  intros H Hp H64 Hj HB Hr. destruct (Nat.eq_dec j (length p)) as [E|E].
  - exists s. rewrite E. split; [apply while_end|]. rewrite skipn_all, app_nil_r. exact H.
  - pose proof (h_bits _ _ _ _ H) as Hb. rewrite Hr in Hb. cbn [length] in Hb. pose proof (ro_max _ (h_B _ _ _ _ H)) as BM.
    destruct (turn_ok F (S fuel) s B d p j (length p - j) H Hp H64) as (s' & H' & E'); try lia.
    + rewrite Hr. cbn [length]. lia.
    + cbn zeta. rewrite Hb, (h_rate _ _ _ _ H). unfold bits. rewrite wrap_small by (change (2 ^ 32) with 4294967296; lia).
      unfold add32, addw. rewrite wrap_small by (change (2 ^ 32) with 4294967296; lia).
      destruct (N.ltb_spec (8 * N.of_nat B) (8 * N.of_nat (length p) - 8 * N.of_nat j + 8 * N.of_nat 0)); lia.
    + exists s'. rewrite E'. replace (j + (length p - j))%nat with (length p) by lia. split; [apply while_end|].
      now rewrite firstn_skipn_all in H'.
Qed.
(** From the empty queue. *)
Lemma empty_ok F fuel s B d p j : holds F s B d -> bytes_ok p -> bits p < 2 ^ 64 -> (j <= length p)%nat -> rest B d = [] ->
  exists s', absorb_while (S (S (S fuel))) s p (bits p) (8 * N.of_nat j) = Ok s' /\ holds F s' B (d ++ skipn j p).
Proof.
  intros H Hp H64 Hj Hr. pose proof (h_B _ _ _ _ H) as [B0 B8 BM].
  destruct (Nat.ltb_spec (length p) (j + B)) as [HS|HS]; [now apply tail_ok|].
  pose proof (h_bits _ _ _ _ H) as Hb. rewrite Hr in Hb. cbn [length] in Hb.
  set (n := ((length p - j) / B)%nat). pose proof (Nat.div_mod (length p - j) B ltac:(lia)) as D. fold n in D.
  pose proof (Nat.mod_upper_bound (length p - j) B ltac:(lia)) as DM.
  assert (Hn : (n * B <= length p - j)%nat) by lia.
  pose proof (tail_ok F fuel) as T. remember (S (S fuel)) as f2 eqn:Ef. clear Ef.
  cbn [absorb_while]. rewrite Hb, (h_rate _ _ _ _ H). change (8 * N.of_nat 0 =? 0) with true. cbn [andb].
  destruct (N.ltb_spec (8 * N.of_nat j) (bits p)) as [_|K]; [|unfold bits in K; lia].
  destruct (N.leb_spec (8 * N.of_nat B) (bits p)) as [_|K]; [|unfold bits in K; lia].
  destruct (N.leb_spec (8 * N.of_nat j) (bits p - 8 * N.of_nat B)) as [_|K]; [|unfold bits in K; lia]. cbn [andb].
  assert (En : (bits p - 8 * N.of_nat j) / (8 * N.of_nat B) = N.of_nat n).
  { unfold bits, n. rewrite <- N.mul_sub_distr_l, N.div_mul_cancel_l by (lia || discriminate). rewrite <- Nat2N.inj_sub. now rewrite Nat2N.inj_div. }
  rewrite En, Nat2N.id, div8, Nat2N.id, (h_state _ _ _ _ H).
  rewrite whole_ok; [|assumption|lia|rewrite skipn_length; lia|apply absorbed_state_ok; [lia|apply H]|now apply bytes_ok_skipn].
  cbn [rbind]. set (ch := firstn (n * B) (skipn j p)).
  assert (Lch : length ch = (n * B)%nat) by (unfold ch; rewrite firstn_length, skipn_length; lia).
  replace (add64 (8 * N.of_nat j) (mul64 (N.of_nat n) (8 * N.of_nat B))) with (8 * N.of_nat (j + n * B)).
  2:{ unfold add64, addw, mul64, mulw. assert (8 * N.of_nat (n * B) <= bits p) by (unfold bits; lia).
      rewrite (wrap_small 64 (_ * _)) by lia. rewrite wrap_small by (unfold bits in *; lia). lia. }
  set (s1 := withState s _). assert (H1 : holds F s1 B (d ++ ch)).
  { assert (A1 : absorbed B 24 (d ++ ch) = absorb B (stepf 24 B) (fst (absorbed B 24 d)) ch) by (rewrite absorbed_app, Hr by lia; reflexivity).
    assert (R1 : rest B (d ++ ch) = []).
    { apply length_zero_iff_nil. rewrite rest_length by lia. rewrite app_length, Lch.
      assert (M0 : (length d mod B = 0)%nat) by (rewrite <- rest_length by lia; now rewrite Hr).
      rewrite Nat.add_mod, M0, Nat.mod_mul by lia. apply Nat.mod_small. lia. }
    destruct H as [RB Hr' Hq Hqo Hd Hs Hb' Hre Hsq HF].
    constructor; unfold s1; cbn [withState rate dataQueue state bitsInQueue squeezing fixedOutputLength]; try assumption.
    - apply bytes_ok_app. split; [assumption|]. apply bytes_ok_firstn. now apply bytes_ok_skipn.
    - now rewrite A1.
    - now rewrite R1.
    - now rewrite R1. }
  assert (R1 : rest B (d ++ ch) = []).
  { apply length_zero_iff_nil. rewrite rest_length by lia. rewrite app_length, Lch.
    assert (M0 : (length d mod B = 0)%nat) by (rewrite <- rest_length by lia; now rewrite Hr).
    rewrite Nat.add_mod, M0, Nat.mod_mul by lia. apply Nat.mod_small. lia. }
  destruct (T s1 B (d ++ ch) p (j + n * B)%nat H1 Hp H64) as (s' & E' & H'); try lia; [assumption|].
  exists s'. split; [exact E'|]. rewrite <- app_assoc in H'. unfold ch in H'.
  rewrite skipn_add, firstn_skipn in H'. exact H'.
Qed.

(** ** What happens to a write *)
Lemma bits_mod p : exists c, bits p mod 2 ^ 32 = 8 * N.of_nat c /\ (c <= length p)%nat.
Proof.
  exists (N.to_nat (N.of_nat (length p) mod 2 ^ 29)). unfold bits. change (2 ^ 32) with (8 * 2 ^ 29).
  rewrite N.mul_mod_distr_l by discriminate. rewrite N2Nat.id. split; [reflexivity|].
  pose proof (N.mod_le (N.of_nat (length p)) (2 ^ 29) ltac:(discriminate)). lia.
Qed.
Lemma wrap_bits p : wrap 32 (bits p - 8 * N.of_nat 0) = bits p mod 2 ^ 32.
Proof. unfold wrap. rewrite N.land_ones. f_equal. lia. Qed.
Lemma rest_full B d x : (0 < B)%nat -> (length (rest B d) + length x = B)%nat -> rest B (d ++ x) = [].
Proof.
  intros HB H. apply length_zero_iff_nil. rewrite rest_length in * by assumption. rewrite app_length, <- Nat.add_mod_idemp_l, H by lia.
  apply Nat.mod_same. lia.
Qed.
Lemma takes_ok F fuel s B d p : holds F s B d -> bytes_ok p -> bits p < 2 ^ 64 ->
  (let q := bitsInQueue s in let r := bits p mod 2 ^ 32 in q = 0 \/ (r + q < 2 ^ 32 /\ (rate s <= r + q \/ bits p < 2 ^ 32))) ->
  exists s', absorb_while (S (S (S (S fuel)))) s p (bits p) 0 = Ok s' /\ holds F s' B (d ++ p).
Proof.
  cbn zeta. intros H Hp H64 C. pose proof (h_B _ _ _ _ H) as [B0 B8 BM]. pose proof (rest_lt B d B0) as RL.
  change 0 with (8 * N.of_nat 0).
  pose proof (h_bits _ _ _ _ H) as Hb. destruct (Nat.eq_dec (length (rest B d)) 0) as [E|E].
  { apply length_zero_iff_nil in E. destruct (empty_ok F (S fuel) s B d p 0 H Hp H64 ltac:(lia) E) as (s' & E' & H').
    exists s'. rewrite skipn_O in H'. split; assumption. }
  destruct C as [C|[C1 C2]]; [lia|].
  destruct (Nat.eq_dec (length p) 0) as [EP|EP].
  { apply length_zero_iff_nil in EP. subst p. exists s. rewrite app_nil_r. split; [|assumption]. apply (while_end (S (S (S fuel))) s []). }
  destruct (bits_mod p) as (c0 & Ec0 & Lc0). pose proof (h_rate _ _ _ _ H) as Hr. rewrite Ec0, ?Hb, ?Hr in *.
  assert (Epb : forall c, (if 8 * N.of_nat B <? 8 * N.of_nat c0 + 8 * N.of_nat (length (rest B d)) then 8 * N.of_nat B - 8 * N.of_nat (length (rest B d)) else 8 * N.of_nat c0) = 8 * N.of_nat c ->
    (let pb := wrap 32 (bits p - 8 * N.of_nat 0) in if rate s <? add32 pb (bitsInQueue s) then sub32 (rate s) (bitsInQueue s) else pb) = 8 * N.of_nat c).
  { intros c Hc. cbn zeta. rewrite wrap_bits, Ec0, Hr, Hb. unfold add32, addw. rewrite wrap_small by assumption.
    rewrite <- Hc. destruct (_ <? _); [|reflexivity]. rewrite sub32_small; change (2 ^ 32) with 4294967296 in *; lia. }
  destruct (Nat.leb_spec B (c0 + length (rest B d))) as [G|G].
  - destruct (turn_ok F (S (S (S fuel))) s B d p 0 (B - length (rest B d)) H Hp H64) as (s1 & H1 & E1); try lia.
    { apply Epb. destruct (N.ltb_spec (8 * N.of_nat B) (8 * N.of_nat c0 + 8 * N.of_nat (length (rest B d)))); lia. }
    rewrite E1. rewrite skipn_O in H1. cbn [Nat.add].
    destruct (empty_ok F fuel s1 B _ p (B - length (rest B d)) H1 Hp H64) as (s2 & E2 & H2); [lia| |].
    { apply rest_full; [assumption|]. rewrite firstn_length. lia. }
    exists s2. split; [exact E2|]. now rewrite <- app_assoc, firstn_skipn in H2.
  - assert (Ef : c0 = length p).
    { destruct C2 as [C2|C2]; [lia|]. unfold bits in *. rewrite N.mod_small in Ec0 by assumption. lia. }
    destruct (turn_ok F (S (S (S fuel))) s B d p 0 (length p) H Hp H64) as (s1 & H1 & E1); try lia.
    { apply Epb. destruct (N.ltb_spec (8 * N.of_nat B) (8 * N.of_nat c0 + 8 * N.of_nat (length (rest B d)))); lia. }
    rewrite E1. rewrite skipn_O, firstn_all in H1. cbn [Nat.add]. exists s1. split; [apply while_end|assumption].
Qed.
(** Nothing left below 2^32 bits: the loop turns without doing anything. *)
Lemma stuck F B d p j : bytes_ok p -> bits p < 2 ^ 64 -> (j < length p)%nat -> rest B d <> [] -> (bits p - 8 * N.of_nat j) mod 2 ^ 32 = 0 ->
  forall fuel s, holds F s B d -> absorb_while fuel s p (bits p) (8 * N.of_nat j) = NoFuel.
Proof.
  intros Hp H64 Hj Hr Hm. induction fuel as [|fuel IH]; intros s H; [reflexivity|].
  pose proof (h_B _ _ _ _ H) as [B0 B8 BM]. pose proof (rest_lt B d B0) as RL. pose proof (h_bits _ _ _ _ H) as Hb.
  assert (RN : length (rest B d) <> 0%nat) by (rewrite length_zero_iff_nil; exact Hr).
  destruct (turn_ok F fuel s B d p j 0 H Hp H64) as (s1 & H1 & E1); try lia.
  { cbn zeta. unfold wrap at 1 2. rewrite !N.land_ones, Hm, (h_rate _ _ _ _ H), Hb. unfold add32, addw.
    rewrite wrap_small by (change (2 ^ 32) with 4294967296; lia).
    destruct (N.ltb_spec (8 * N.of_nat B) (0 + 8 * N.of_nat (length (rest B d)))); lia. }
  rewrite E1. rewrite firstn_O, app_nil_r in H1. rewrite Nat.add_0_r. now apply IH.
Qed.
Lemma hangs_ok F s B d p : holds F s B d -> bytes_ok p -> bits p < 2 ^ 64 ->
  bitsInQueue s <> 0 -> 2 ^ 32 <= bits p -> bits p mod 2 ^ 32 + bitsInQueue s < rate s ->
  forall fuel, absorb_while fuel s p (bits p) 0 = NoFuel.
Proof.
  intros H Hp H64 Hq Hl Hr fuel. pose proof (h_B _ _ _ _ H) as [B0 B8 BM]. pose proof (rest_lt B d B0) as RL. pose proof (h_bits _ _ _ _ H) as Hb.
  destruct (bits_mod p) as (c0 & Ec0 & Lc0). pose proof (h_rate _ _ _ _ H) as Hra. rewrite Ec0, Hra, Hb in Hr.
  assert (LP : (c0 < length p)%nat).
  { pose proof (N.mod_upper_bound (bits p) (2 ^ 32) ltac:(discriminate)). unfold bits in *. lia. }
  destruct fuel as [|fuel]; [reflexivity|]. change 0 with (8 * N.of_nat 0).
  destruct (turn_ok F fuel s B d p 0 c0 H Hp H64) as (s1 & H1 & E1); try lia.
  { cbn zeta. rewrite wrap_bits, Ec0, Hra, Hb. unfold add32, addw. rewrite wrap_small by (change (2 ^ 32) with 4294967296; lia).
    destruct (N.ltb_spec (8 * N.of_nat B) (8 * N.of_nat c0 + 8 * N.of_nat (length (rest B d)))); lia. }
  rewrite E1. cbn [Nat.add]. apply (stuck F B (d ++ firstn c0 (skipn 0 p))); try assumption.
  - rewrite skipn_O. intros E. apply (f_equal (@length N)) in E. cbn [length] in E. rewrite rest_length in E by assumption.
    rewrite app_length, firstn_length, Nat.min_l in E by lia.
    rewrite <- Nat.add_mod_idemp_l, <- rest_length in E by lia. rewrite Nat.mod_small in E by lia. lia.
  - rewrite <- Ec0. set (b := bits p). pose proof (N.div_mod b (2 ^ 32) ltac:(discriminate)) as D.
    rewrite D at 1. rewrite N.add_sub, N.mul_comm. now apply N.mod_mul.
Qed.
Lemma corrupts_ok F fuel s B d p : holds F s B d -> bits p < 2 ^ 64 -> bitsInQueue s <> 0 -> 2 ^ 32 <= bits p mod 2 ^ 32 + bitsInQueue s ->
  absorb_while (S fuel) s p (bits p) 0 = Overread.
Proof.
  intros H H64 Hq Hl. pose proof (h_B _ _ _ _ H) as [B0 B8 BM]. pose proof (rest_lt B d B0) as RL. pose proof (h_bits _ _ _ _ H) as Hb.
  destruct (bits_mod p) as (c0 & Ec0 & Lc0). pose proof (h_rate _ _ _ _ H) as Hra.
  pose proof (N.mod_upper_bound (bits p) (2 ^ 32) ltac:(discriminate)) as UB.
  cbn [absorb_while]. change (2 ^ 32) with 4294967296 in *. rewrite Ec0 in *.
  destruct (N.ltb_spec 0 (bits p)) as [_|K]; [|unfold bits in *; lia].
  destruct (N.eqb_spec (bitsInQueue s) 0); [contradiction|]. cbn [andb].
  assert (EP : wrap 32 (bits p - 0) = 8 * N.of_nat c0).
  { pose proof (wrap_bits p) as W. change (8 * N.of_nat 0) with 0 in W. rewrite W. exact Ec0. }
  rewrite EP.
  assert (EM : add32 (8 * N.of_nat c0) (bitsInQueue s) = 8 * N.of_nat c0 + bitsInQueue s - 4294967296).
  { unfold add32, addw, wrap. rewrite N.land_ones. change (2 ^ 32) with 4294967296. symmetry. apply N.mod_unique with 1; lia. }
  assert (EI : (rate s <? add32 (8 * N.of_nat c0) (bitsInQueue s)) = false) by (rewrite EM; apply N.ltb_ge; lia).
  rewrite EI, mod8, N.sub_0_r, Hb, !div8. unfold memcpy at 1. rewrite (h_qlen _ _ _ _ H). unfold queue_bytes.
  destruct (N.leb_spec (N.of_nat (length (rest B d)) + N.of_nat c0) (N.of_nat 192)); [lia|]. reflexivity.
Qed.
