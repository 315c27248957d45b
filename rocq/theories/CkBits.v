(** Proofs for the C interface: bit strings. *)
From Coq Require Import ZArith.
From Verif Require Import Words WordLemmas ListLemmas Mem SLP Bij Blocks Mm3Spec Mm3Proofs KeccakSpec KeccakProofs KeccakProofs2 KeccakProofs3 KeccakProofs4 CkProg CkModel CkRounds CkProofs CkProofs2 CkProofs3 CkProofs4 CkBitSpec.
From Verif Require KeccakProofs6.
Open Scope N_scope.
Strategy 1000 [rounds24].

(** ** More data behind does not matter *)
Lemma word_more data x i : (8 * i + 8 <= length data)%nat -> word (data ++ x) i = word data i.
Proof.
  intros H. unfold word. f_equal. rewrite skipn_app. rewrite firstn_app, skipn_length.
  replace (8 - (length data - 8 * i))%nat with 0%nat by lia. now rewrite firstn_O, app_nil_r.
Qed.
Lemma absorb_fast_more n pat st data x st' : pat = map (fun i => Nat.ltb i n) (seq 0 25) -> length (filter (fun b => b) pat) = n ->
  absorb_fast pat st data = Ok st' -> absorb_fast pat st (data ++ x) = Ok st'.
Proof.
  intros Ep El. unfold absorb_fast. rewrite El. destruct (Nat.leb_spec (8 * n) (length data)); [|discriminate].
  destruct (Nat.leb_spec (8 * n) (length (data ++ x))) as [_|K]; [|rewrite app_length in K; lia].
  intros <-.
  assert (E : map (fun i => if nth i pat false then xor (nth i st 0) (word (data ++ x) i) else nth i st 0) (seq 0 25) =
              map (fun i => if nth i pat false then xor (nth i st 0) (word data i) else nth i st 0) (seq 0 25)).
  { apply map_ext_in. intros i Hi. apply in_seq in Hi.
    assert (E : nth i pat false = Nat.ltb i n).
    { rewrite Ep, (nth_indep _ false ((fun i => Nat.ltb i n) 0%nat)) by (rewrite map_length, seq_length; lia).
      rewrite (map_nth (fun i => Nat.ltb i n) (seq 0 25) 0%nat i), seq_nth by lia. reflexivity. }
    rewrite E. destruct (Nat.ltb_spec i n); [|reflexivity]. now rewrite word_more by lia. }
  rewrite E. reflexivity.
Qed.
Lemma fold_more data x n : forall a st, (8 * (a + n) <= length data)%nat ->
  fold_left (fun s j => upd s j (xor (nth j s 0) (word (data ++ x) j))) (seq a n) st = fold_left (fun s j => upd s j (xor (nth j s 0) (word data j))) (seq a n) st.
Proof. induction n as [|n IH]; intros a st H; [reflexivity|]. cbn [seq fold_left]. rewrite word_more by lia. apply IH. lia. Qed.
Lemma absorb_rate_more r st data x st' : absorb_rate r st data = Ok st' -> absorb_rate r st (data ++ x) = Ok st'.
Proof.
  unfold absorb_rate.
  destruct (r =? 576); [apply (absorb_fast_more 9); reflexivity|]. destruct (r =? 832); [apply (absorb_fast_more 13); reflexivity|].
  destruct (r =? 1024); [apply (absorb_fast_more 16); reflexivity|]. destruct (r =? 1088); [apply (absorb_fast_more 17); reflexivity|].
  destruct (r =? 1152); [apply (absorb_fast_more 18); reflexivity|]. destruct (r =? 1344); [apply (absorb_fast_more 21); reflexivity|].
  unfold KeccakAbsorb. set (n := N.to_nat (r / 64)). destruct (Nat.leb_spec n 25); [|discriminate]. destruct (Nat.leb_spec (8 * n) (length data)); [|discriminate].
  destruct (Nat.leb_spec (8 * n) (length (data ++ x))) as [_|K]; [|rewrite app_length in K; lia]. cbn [andb].
  intros <-. rewrite fold_more by lia. reflexivity.
Qed.
Lemma absorb_rate_long r st data st' : absorb_rate r st data = Ok st' -> (8 * N.to_nat (r / 64) <= length data)%nat.
Proof.
  unfold absorb_rate.
  repeat match goal with |- context [if r =? ?c then _ else _] => destruct (N.eqb_spec r c) as [E|_];
    [unfold absorb_fast; match goal with |- (if ?b then _ else _) = _ -> _ => destruct b eqn:L; [|discriminate] end; intros _; apply Nat.leb_le in L; subst r; exact L|] end.
  unfold KeccakAbsorb. destruct (Nat.leb_spec (N.to_nat (r / 64)) 25); [|discriminate]. destruct (Nat.leb_spec (8 * N.to_nat (r / 64)) (length data)); [auto|discriminate].
Qed.
Lemma whole_more r n : r mod 64 = 0 -> forall st data x st', whole_blocks n r st data = Ok st' -> whole_blocks n r st (data ++ x) = Ok st'.
Proof.
  intros R. induction n as [|n IH]; intros st data x st'; [auto|]. cbn [whole_blocks].
  destruct (absorb_rate r st data) as [s1| | |] eqn:E; try discriminate. rewrite (absorb_rate_more _ _ _ x _ E). cbn [rbind].
  intros H. assert (L : (N.to_nat (r / 8) <= length data)%nat).
  { pose proof (absorb_rate_long _ _ _ _ E) as L.
    pose proof (N.div_mod r 64 ltac:(discriminate)) as D. rewrite R, N.add_0_r in D. set (a := r / 64) in *.
    rewrite D. replace (64 * a / 8) with (8 * a) by (apply N.div_unique with 0; lia). lia. }
  rewrite skipn_app. replace (N.to_nat (r / 8) - length data)%nat with 0%nat by lia. rewrite skipn_O. now apply IH.
Qed.
Lemma memcpy_more dst off src soff n x q : memcpy dst off src soff n = Ok q -> memcpy dst off (src ++ x) soff n = Ok q.
Proof.
  unfold memcpy. rewrite app_length. destruct (N.leb_spec (off + n) (N.of_nat (length dst))); [|discriminate].
  destruct (N.leb_spec (soff + n) (N.of_nat (length src))); [|discriminate].
  destruct (N.leb_spec (soff + n) (N.of_nat (length src + length x))); [|lia]. cbn [andb]. intros [= <-]. do 3 f_equal.
  rewrite skipn_app, firstn_app, skipn_length. replace (N.to_nat n - (length src - N.to_nat soff))%nat with 0%nat by lia.
  now rewrite firstn_O, app_nil_r.
Qed.
Lemma byte_at_more a i x y : byte_at a i = Ok y -> byte_at (a ++ x) i = Ok y.
Proof.
  unfold byte_at. rewrite app_length. destruct (N.ltb_spec i (N.of_nat (length a))); [|discriminate].
  destruct (N.ltb_spec i (N.of_nat (length a + length x))); [|lia]. intros [= <-]. now rewrite app_nth1 by lia.
Qed.
Lemma AbsorbQueue_rate s s' : AbsorbQueue s = Ok s' -> rate s' = rate s.
Proof. unfold AbsorbQueue. destruct (absorb_rate _ _ _); try discriminate. now intros [= <-]. Qed.
Lemma while_more fuel : forall s p db i x s', rate s mod 64 = 0 -> absorb_while fuel s p db i = Ok s' -> absorb_while fuel s (p ++ x) db i = Ok s'.
Proof.
  induction fuel as [|fuel IH]; intros s p db i x s' R; [discriminate|]. cbn [absorb_while].
  destruct (i <? db); [|auto]. destruct ((bitsInQueue s =? 0) && (rate s <=? db) && (i <=? db - rate s))%bool eqn:W.
  - destruct (whole_blocks (N.to_nat ((db - i) / rate s)) (rate s) (state s) (skipn (N.to_nat (i / 8)) p)) as [st| | |] eqn:E; try discriminate.
    assert (E' : whole_blocks (N.to_nat ((db - i) / rate s)) (rate s) (state s) (skipn (N.to_nat (i / 8)) (p ++ x)) = Ok st).
    { rewrite skipn_app. now apply whole_more. }
    rewrite E'. cbn [rbind]. now apply IH.
  - set (pb := if rate s <? _ then _ else _). destruct (memcpy (dataQueue s) (bitsInQueue s / 8) p (i / 8) ((pb - pb mod 8) / 8)) as [q| | |] eqn:E; try discriminate.
    rewrite (memcpy_more _ _ _ _ _ x _ E). cbn [rbind].
    set (s1 := withBits _ _). assert (R1 : rate s1 = rate s) by reflexivity.
    destruct (if bitsInQueue s1 =? rate s1 then AbsorbQueue s1 else Ok s1) as [s2| | |] eqn:E2; try discriminate. cbn [rbind].
    assert (R2 : rate s2 = rate s).
    { destruct (bitsInQueue s1 =? rate s1); [rewrite (AbsorbQueue_rate _ _ E2)|injection E2 as <-]; assumption. }
    destruct (0 <? pb mod 8).
    + destruct (byte_at p (add64 i (pb - pb mod 8) / 8)) as [y| | |] eqn:E3; try discriminate. rewrite (byte_at_more _ _ x _ E3). cbn [rbind].
      destruct (set_byte _ _ _) as [q'| | |]; try discriminate. cbn [rbind]. apply IH. cbn [withBits withQueue rate]. now rewrite R2.
    + apply IH. now rewrite R2.
Qed.

(** ** The last bits *)
Lemma partial_ok F fuel s B d k y : holds F s B d -> 0 < k < 8 -> y < 2 ^ k ->
  exists s', Absorb (S (S fuel)) s [y] k = Ok (s', 0) /\ holdsk F s' B d k y.
Proof.
  intros H Hk Hy. pose proof H as [RB Hr Hq Hqo Hd Hs Hb Hre Hsq HF]. pose proof RB as [B0 B8 BM].
  pose proof (rest_lt B d B0) as RL. pose proof (Nat.div_mod B 8) as DB. set (r := rest B d) in *.
  assert (T : forall s, absorb_while (S fuel) s [y] k k = Ok s).
  { intros s0. cbn [absorb_while]. destruct (N.ltb_spec k k); [lia|reflexivity]. }
  unfold Absorb. rewrite Hb, mod8, Hsq. change (negb (0 =? 0)) with false. cbn iota.
  remember (S fuel) as f1 eqn:Ef. clear Ef. cbn [absorb_while]. rewrite Hb, Hr. destruct (N.ltb_spec 0 k) as [_|]; [|lia].
  destruct (N.leb_spec (8 * N.of_nat B) k); [lia|]. rewrite andb_false_r. cbn [andb].
  rewrite N.sub_0_r. rewrite (wrap_small 32 k) by (change (2 ^ 32) with 4294967296; lia).
  assert (A1 : forall c, c < 8 -> add32 (8 * N.of_nat (length r)) c = 8 * N.of_nat (length r) + c).
  { intros c Hc. unfold add32, addw. apply wrap_small. change (2 ^ 32) with 4294967296. lia. }
  assert (A2 : add32 k (8 * N.of_nat (length r)) = 8 * N.of_nat (length r) + k).
  { unfold add32, addw. rewrite wrap_small; [lia|]. change (2 ^ 32) with 4294967296. lia. }
  rewrite A2. destruct (N.ltb_spec (8 * N.of_nat B) (8 * N.of_nat (length r) + k)); [lia|].
  rewrite (N.mod_small k 8), N.sub_diag by lia. change (0 / 8) with (N.of_nat 0). rewrite div8.
  rewrite memcpy_ok by (rewrite ?Hq; unfold queue_bytes; cbn [length]; lia). cbn [rbind].
  rewrite skipn_O, firstn_O, Nat.add_0_r. cbn [app]. rewrite firstn_skipn.
  cbn [withBits withQueue bitsInQueue rate dataQueue]. rewrite (A1 0) by lia. rewrite N.add_0_r, Hr.
  destruct (N.eqb_spec (8 * N.of_nat (length r)) (8 * N.of_nat B)); [lia|]. cbn [rbind withBits withQueue bitsInQueue dataQueue].
  destruct (N.ltb_spec 0 k) as [_|]; [|lia]. change (add64 0 0) with 0. change (0 / 8) with 0.
  unfold byte_at. cbn [length]. change (0 <? N.of_nat 1) with true. cbn [rbind nth N.to_nat].
  rewrite div8. unfold set_byte. rewrite Hq. destruct (N.ltb_spec (N.of_nat (length r)) (N.of_nat queue_bytes)) as [_|K]; [|unfold queue_bytes in K; lia].
  cbn [rbind]. rewrite Nat2N.id, A1 by lia. replace (add64 0 k) with k by (unfold add64, addw; rewrite wrap_small; [lia|change (2 ^ 64) with 18446744073709551616; lia]).
  assert (Em : N.land y (shlw 8 1 k - 1) = y).
  { rewrite bit_shl by lia. rewrite N.sub_1_r, <- N.ones_equiv, N.land_ones. now apply N.mod_small. }
  rewrite Em, T. cbn [rbind]. eexists. split; [reflexivity|].
  assert (Oy : fits 8 y) by (apply (val_byte k); [lia|exact Hy]).
  assert (Lu : (length r < length (dataQueue s))%nat) by (rewrite Hq; unfold queue_bytes; lia).
  constructor; cbn [withBits withQueue rate dataQueue state bitsInQueue squeezing fixedOutputLength]; try assumption; try reflexivity; try lia.
  - rewrite upd_length. exact Hq.
  - apply upd_Forall; assumption.
  - fold r. rewrite <- Hre at 3. apply list_ext; [rewrite !firstn_length, upd_length; lia|].
    intros i Hi. rewrite firstn_length, upd_length in Hi. rewrite !KeccakProofs6.nth_firstn. destruct (Nat.ltb_spec i (length r)); [|reflexivity].
    apply upd_other. lia.
  - right. fold r. apply upd_same. exact Lu.
Qed.
