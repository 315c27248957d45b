From Coq Require Import ZArith List Arith Lia.
From Verif Require Import Words WordLemmas ListLemmas Mem Blocks SipModel Mm3Model JenkinsModel SmallModel SpookyModel JenkinsProofs4 EndianModel EndianSpec.
Import ListNotations.
Open Scope nat_scope.

(** ** Keys with turned words *)
Lemma turned_length w n : forall k, length (turned w n k) = length k.
Proof.
  induction n as [|n IH]; intros k; [reflexivity|]. cbn [turned].
  rewrite app_length, rev_length, IH, <- app_length, firstn_skipn. reflexivity.
Qed.

Lemma turned_skip w n : forall i k, w * (i + n) <= length k -> skipn (w * i) (turned w (i + n) k) = turned w n (skipn (w * i) k).
Proof.
  intros i. induction i as [|i IH]; intros k H.
  - rewrite Nat.mul_0_r. reflexivity.
  - cbn [turned Nat.add]. replace (w * S i) with (w + w * i) by lia.
    rewrite (skipn_add w (w * i) (rev _ ++ _)), (skipn_app_exact w) by (rewrite rev_length, firstn_length; nia).
    rewrite IH by (rewrite skipn_length; nia). now rewrite (skipn_add w (w * i)).
Qed.

Lemma turned_word w n i k : i < n -> w * n <= length k ->
  firstn w (skipn (w * i) (turned w n k)) = rev (firstn w (skipn (w * i) k)).
Proof.
  intros Hi Hn. replace n with (i + S (n - i - 1)) by lia.
  rewrite turned_skip by (replace (i + S (n - i - 1)) with n by lia; assumption).
  cbn [turned]. apply firstn_app_exact. rewrite rev_length, firstn_length, skipn_length. nia.
Qed.

Lemma turned_rest w n k : w * n <= length k -> skipn (w * n) (turned w n k) = skipn (w * n) k.
Proof.
  intros H. pose proof (turned_skip w 0 n k) as E. rewrite !Nat.add_0_r in E. now apply E.
Qed.

Lemma turned_app w c n b p : length b = w * c -> turned w (c + n) (b ++ p) = turned w c b ++ turned w n p.
Proof.
  revert b. induction c as [|c IH]; intros b H.
  - destruct b; [reflexivity|cbn in H; lia].
  - cbn [turned Nat.add]. rewrite <- app_assoc. rewrite firstn_app, skipn_app.
    replace (w - length b) with 0 by nia. cbn [firstn skipn]. rewrite app_nil_r. f_equal.
    apply IH. rewrite skipn_length. nia.
Qed.

Lemma turned_all w c b : length b = w * c -> turned w c b = turned w c b ++ [].
Proof. now rewrite app_nil_r. Qed.

Lemma turned_bytes w n : forall k, bytes_ok k -> bytes_ok (turned w n k).
Proof.
  induction n as [|n IH]; intros k H; [assumption|]. cbn [turned]. apply Forall_app. split.
  - apply Forall_rev, Forall_forall. intros x Hx. unfold bytes_ok in H. rewrite Forall_forall in H. apply H.
    rewrite <- (firstn_skipn w k). apply in_or_app. now left.
  - apply IH. unfold bytes_ok in *. rewrite Forall_forall in *. intros x Hx. apply H.
    rewrite <- (firstn_skipn w k). apply in_or_app. now right.
Qed.

Lemma turned_twice w n : forall k, w * n <= length k -> turned w n (turned w n k) = k.
Proof.
  induction n as [|n IH]; intros k H; [reflexivity|]. cbn [turned].
  rewrite (firstn_app_exact w), (skipn_app_exact w) by (rewrite rev_length, firstn_length; nia).
  rewrite rev_involutive, IH by (rewrite skipn_length; nia). apply firstn_skipn.
Qed.

Lemma palindromes_turned w n : forall k, w * n <= length k -> (palindromes w n k <-> turned w n k = k).
Proof.
  intros k H. split; intros P.
  - revert k H P. induction n as [|n IH]; intros k H P; [reflexivity|]. cbn [turned].
    pose proof (P 0 ltac:(lia)) as P0. rewrite Nat.mul_0_r in P0. cbn [skipn] in P0. rewrite P0, IH.
    + apply firstn_skipn.
    + rewrite skipn_length. nia.
    + intros i Hi. rewrite <- (skipn_add w (w * i)). replace (w + w * i) with (w * S i) by lia. apply P. lia.
  - intros i Hi. rewrite <- (turned_word w n i k Hi H). now rewrite P.
Qed.

Lemma mload_little b : mload Little b = le_load b. Proof. reflexivity. Qed.
Lemma mload_big b : mload Big b = le_load (rev b). Proof. reflexivity. Qed.

(** ** The block loops *)
Lemma absorb_turned {S} w c (g1 g2 : S -> list N -> S) : 0 < w * c ->
  (forall s b, length b = w * c -> g1 s b = g2 s (turned w c b)) ->
  forall s k, absorb (w * c) g1 s k = absorb (w * c) g2 s (turned w (c * (length k / (w * c))) k).
Proof.
  intros HB Hg s k. revert s. induction k as [k Hk|b k Hb IH] using (absorb_ind (w * c) HB); intros s.
  - rewrite Nat.div_small by assumption. rewrite Nat.mul_0_r. cbn [turned].
    now rewrite !absorb_short.
  - rewrite app_length, Hb. replace (w * c + length k) with (1 * (w * c) + length k) by lia.
    rewrite Nat.div_add_l by lia. replace (c * (1 + length k / (w * c))) with (c + c * (length k / (w * c))) by lia.
    rewrite turned_app by assumption.
    rewrite !absorb_block by (try assumption; now rewrite turned_length).
    rewrite Hg by assumption. apply IH.
Qed.

Lemma firstn_all_len {A} n (l : list A) : length l = n -> firstn n l = l.
Proof. intros <-. apply firstn_all. Qed.

Lemma turned_1 w b : length b = w * 1 -> turned w 1 b = rev b.
Proof.
  intros H. cbn [turned]. rewrite Nat.mul_1_r in H. rewrite firstn_all_len, skipn_all2 by lia.
  apply app_nil_r.
Qed.
Lemma turned_2 b : length b = 16 -> firstn 8 (turned 8 2 b) = rev (firstn 8 b) /\ skipn 8 (turned 8 2 b) = rev (skipn 8 b).
Proof.
  intros H. cbn [turned]. rewrite (firstn_app_exact 8), (skipn_app_exact 8) by (rewrite rev_length, firstn_length; lia).
  split; [reflexivity|]. rewrite firstn_all_len by (rewrite skipn_length; lia).
  rewrite (skipn_all2 (n := 8) (skipn 8 b)) by (rewrite skipn_length; lia). apply app_nil_r.
Qed.

(** ** murmur3 *)
Lemma mm32_little : forall s b, mm32_block_m Little s b = mm32_block s b. Proof. reflexivity. Qed.
Lemma mm128_little : forall s b, mm128_block_m Little s b = mm128_block s b. Proof. intros [h1 h2] b. reflexivity. Qed.
Lemma mm_sum32_little k : mm_sum32_m Little k = mm_sum32 k. Proof. reflexivity. Qed.
Lemma mm_sum128_little k : mm_sum128_m Little k = mm_sum128 k.
Proof.
  unfold mm_sum128_m, mm_sum128. rewrite (absorb_ext 16 (mm128_block_m Little) mm128_block); [reflexivity|lia|].
  intros; apply mm128_little.
Qed.

Lemma mm_sum32_big k : mm_sum32_m Big k = mm_sum32 (turned 4 (length k / 4) k).
Proof.
  unfold mm_sum32_m, mm_sum32.
  pose proof (absorb_turned 4 1 (mm32_block_m Big) mm32_block ltac:(lia)) as E. cbn [Nat.mul Nat.add] in E.
  rewrite E, Nat.add_0_r, turned_length. reflexivity.
  intros s b H. change (1 + (1 + (1 + (1 + 0)))) with 4 in *. rewrite turned_1 by assumption. reflexivity.
Qed.
Lemma mm128_big s b : length b = 16 -> mm128_block_m Big s b = mm128_block s (turned 8 2 b).
Proof.
  intros H. destruct s as [h1 h2]. destruct (turned_2 b H) as [E1 E2]. unfold mm128_block_m, mm128_block.
  rewrite E1, E2, !mload_big. reflexivity.
Qed.
Lemma mm_sum128_big k : mm_sum128_m Big k = mm_sum128 (turned 8 (2 * (length k / 16)) k).
Proof.
  unfold mm_sum128_m, mm_sum128.
  pose proof (absorb_turned 8 2 (mm128_block_m Big) mm128_block ltac:(lia)) as E. change (8 * 2) with 16 in E.
  rewrite E, turned_length. reflexivity. apply mm128_big.
Qed.

(** ** siphashpg *)
Lemma pg_little inp k cr dr dbl : pg_siphash_m Little inp k cr dr dbl = pg_siphash inp k cr dr dbl.
Proof. reflexivity. Qed.
Lemma pg_big inp k cr dr dbl : pg_siphash_m Big inp k cr dr dbl = pg_siphash (turned 8 (length inp / 8) inp) k cr dr dbl.
Proof.
  unfold pg_siphash_m, pg_siphash, len64. rewrite turned_length.
  pose proof (absorb_turned 8 1 (pg_block_m Big cr) (pg_block cr) ltac:(lia)) as E.
  change (8 * 1) with 8 in E. assert (E' : forall s, absorb 8 (pg_block_m Big cr) s inp = absorb 8 (pg_block cr) s (turned 8 (length inp / 8) inp)).
  { intros s. rewrite E, Nat.mul_1_l; [reflexivity|]. intros s' b H. rewrite turned_1 by assumption. reflexivity. }
  destruct (negb (length k =? 16) || (cr <=? 0)%Z || (dr <=? 0)%Z); [reflexivity|].
  destruct (u8tou64le k) as [k0|]; [|reflexivity]. cbn [obind].
  destruct (u8tou64le (skipn 8 k)) as [k1|]; [|reflexivity]. cbn [obind].
  now rewrite E'.
Qed.

(** ** jenkins: lookup2 *)
Lemma word32_turned n k i : i < n -> 4 * n <= length k -> word32_m Big k i = word32 (turned 4 n k) i.
Proof.
  intros Hi Hn. unfold word32_m, word32. rewrite turned_length, turned_word by assumption. reflexivity.
Qed.
Lemma word64_turned n k i : i < n -> 8 * n <= length k -> word64_m Big k i = word64 (turned 8 n k) i.
Proof.
  intros Hi Hn. unfold word64_m, word64. rewrite turned_length, turned_word by assumption. reflexivity.
Qed.
Lemma word32_in m k i : 4 * (i + 1) <= length k -> exists x, word32_m m k i = Ok x.
Proof.
  intros H. unfold word32_m. assert (L : i < length k / 4) by (apply Nat.div_le_lower_bound; lia).
  apply Nat.ltb_lt in L. rewrite L. eauto.
Qed.
Lemma word64_in m k i : 8 * (i + 1) <= length k -> exists x, word64_m m k i = Ok x.
Proof.
  intros H. unfold word64_m. assert (L : i < length k / 8) by (apply Nat.div_le_lower_bound; lia).
  apply Nat.ltb_lt in L. rewrite L. eauto.
Qed.

Lemma h232_fast_little fuel : forall k0 k cnt l s, h232_fast_m Little fuel k0 k cnt l s = h232_fast fuel k0 k cnt l s.
Proof.
  induction fuel as [|fuel IH]; intros k0 k cnt l [[a b] c]; cbn [h232_fast_m h232_fast]; [reflexivity|].
  destruct (12 <=? l)%N; [|reflexivity].
  change (word32_m Little) with word32.
  repeat (match goal with |- rbind ?e _ = rbind ?e _ => destruct e; cbn [rbind]; try reflexivity end). apply IH.
Qed.
Lemma h264_fast_little fuel : forall k0 k cnt i l s, h264_fast_m Little fuel k0 k cnt i l s = h264_fast fuel k0 k cnt i l s.
Proof.
  induction fuel as [|fuel IH]; intros k0 k cnt i l [[a b] c]; cbn [h264_fast_m h264_fast]; [reflexivity|].
  destruct (24 <=? i)%N; [|reflexivity].
  change (word64_m Little) with word64.
  repeat (match goal with |- rbind ?e _ = rbind ?e _ => destruct e; cbn [rbind]; try reflexivity end). apply IH.
Qed.
Lemma hash232_little fast k seed : hash232_m Little fast k seed = hash232_with fast k seed.
Proof. unfold hash232_m, hash232_with. rewrite h232_fast_little. reflexivity. Qed.
Lemma hash264_little fast k seed : hash264_m Little fast k seed = hash264_with fast k seed.
Proof. unfold hash264_m, hash264_with. rewrite h264_fast_little. reflexivity. Qed.

Lemma h232_fast_big k0 n : 4 * n <= length k0 -> forall fuel cnt l s,
  cnt + 3 * (l / 12) = n -> (N.of_nat l < 2 ^ 32)%N ->
  h232_fast_m Big fuel k0 (skipn (4 * cnt) k0) cnt (N.of_nat l) s =
  h232_fast fuel (turned 4 n k0) (skipn (4 * cnt) (turned 4 n k0)) cnt (N.of_nat l) s.
Proof.
  intros Hn fuel. induction fuel as [|fuel IH]; intros cnt l [[a b] c] Hc Hl; cbn [h232_fast_m h232_fast].
  - destruct (N.leb_spec 12 (N.of_nat l)); [reflexivity|].
    rewrite Nat.div_small in Hc by lia. replace cnt with n by lia. now rewrite turned_rest.
  - destruct (N.leb_spec 12 (N.of_nat l)) as [L|L].
    + assert (D : l / 12 = 1 + (l - 12) / 12) by (replace l with (1 * 12 + (l - 12)) at 1 by lia; now rewrite Nat.div_add_l by lia).
      rewrite !(word32_turned n) by lia.
      destruct (word32 _ (0 + cnt)); cbn [rbind]; try reflexivity.
      destruct (word32 _ (1 + cnt)); cbn [rbind]; try reflexivity.
      destruct (word32 _ (2 + cnt)); cbn [rbind]; try reflexivity.
      rewrite !tail_from_ok by (rewrite skipn_length; rewrite ?turned_length; lia). cbn [rbind].
      rewrite <- !skipn_add. replace (4 * cnt + 12) with (4 * (cnt + 3)) by lia.
      replace (sub32 (N.of_nat l) 12) with (N.of_nat (l - 12)).
      2:{ unfold sub32. change 12%N with (N.of_nat 12). now rewrite sub_ge by (auto; lia). }
      apply IH; [lia|lia].
    + rewrite Nat.div_small in Hc by lia. replace cnt with n by lia. now rewrite turned_rest.
Qed.

Lemma h264_fast_big k0 n : 8 * n <= length k0 -> forall fuel cnt l s,
  cnt + 3 * (l / 24) = n -> (N.of_nat l < 2 ^ 64)%N ->
  h264_fast_m Big fuel k0 (skipn (8 * cnt) k0) cnt (N.of_nat l) (N.of_nat l) s =
  h264_fast fuel (turned 8 n k0) (skipn (8 * cnt) (turned 8 n k0)) cnt (N.of_nat l) (N.of_nat l) s.
Proof.
  intros Hn fuel. induction fuel as [|fuel IH]; intros cnt l [[a b] c] Hc Hl; cbn [h264_fast_m h264_fast].
  - destruct (N.leb_spec 24 (N.of_nat l)); [reflexivity|].
    rewrite Nat.div_small in Hc by lia. replace cnt with n by lia. now rewrite turned_rest.
  - destruct (N.leb_spec 24 (N.of_nat l)) as [L|L].
    + assert (D : l / 24 = 1 + (l - 24) / 24) by (replace l with (1 * 24 + (l - 24)) at 1 by lia; now rewrite Nat.div_add_l by lia).
      rewrite !(word64_turned n) by lia.
      destruct (word64 _ (0 + cnt)); cbn [rbind]; try reflexivity.
      destruct (word64 _ (1 + cnt)); cbn [rbind]; try reflexivity.
      destruct (word64 _ (2 + cnt)); cbn [rbind]; try reflexivity.
      rewrite !tail_from_ok by (rewrite skipn_length; rewrite ?turned_length; lia). cbn [rbind].
      rewrite <- !skipn_add. replace (8 * cnt + 24) with (8 * (cnt + 3)) by lia.
      replace (sub64 (N.of_nat l) 24) with (N.of_nat (l - 24)).
      2:{ unfold sub64. change 24%N with (N.of_nat 24). now rewrite sub_ge by (auto; lia). }
      apply IH; [lia|lia].
    + rewrite Nat.div_small in Hc by lia. replace cnt with n by lia. now rewrite turned_rest.
Qed.

Lemma wrapped_len w (k : list N) : exists l, wrap w (N.of_nat (length k)) = N.of_nat l /\ l <= length k /\ (N.of_nat l < 2 ^ w)%N.
Proof.
  exists (N.to_nat (wrap w (N.of_nat (length k)))). rewrite N2Nat.id. split; [reflexivity|].
  rewrite wrap_mod. pose proof (N.mod_le (N.of_nat (length k)) (2 ^ w) ltac:(apply N.pow_nonzero; discriminate)).
  pose proof (N.mod_lt (N.of_nat (length k)) (2 ^ w) ltac:(apply N.pow_nonzero; discriminate)). split; [lia|assumption].
Qed.

Lemma hash232_big k seed :
  hash232_m Big true k seed = hash232 (turned 4 (3 * (N.to_nat (wrap 32 (N.of_nat (length k))) / 12)) k) seed.
Proof.
  unfold hash232, hash232_m, hash232_with. rewrite turned_length.
  destruct (wrapped_len 32 k) as (l & -> & Hl & Hw). rewrite Nat2N.id.
  pose proof (Nat.mul_div_le l 12 ltac:(lia)) as M.
  pose proof (h232_fast_big k (3 * (l / 12)) ltac:(lia) (S (length k)) 0 l (0x9e3779b9%N, 0x9e3779b9%N, seed) ltac:(lia) Hw) as E.
  rewrite Nat.mul_0_r in E. cbn [skipn] in E. rewrite E. reflexivity.
Qed.
Lemma hash264_big k seed :
  hash264_m Big true k seed = hash264 (turned 8 (3 * (N.to_nat (wrap 64 (N.of_nat (length k))) / 24)) k) seed.
Proof.
  unfold hash264, hash264_m, hash264_with. rewrite turned_length.
  destruct (wrapped_len 64 k) as (l & -> & Hl & Hw). rewrite Nat2N.id.
  pose proof (Nat.mul_div_le l 24 ltac:(lia)) as M.
  pose proof (h264_fast_big k (3 * (l / 24)) ltac:(lia) (S (length k)) 0 l (0x9e3779b97f4a7c13%N, 0x9e3779b97f4a7c13%N, seed) ltac:(lia) Hw) as E.
  rewrite Nat.mul_0_r in E. cbn [skipn] in E. rewrite E. reflexivity.
Qed.

(** ** jenkins: lookup3 *)
Lemma peek_little k i n : peek_m Little k i n = peek_le k i n. Proof. reflexivity. Qed.
Lemma j364_loop_little fuel : forall k z s, j364_loop_m Little fuel k z s = j364_loop fuel k z s.
Proof.
  induction fuel as [|fuel IH]; intros k z [[a b] c]; cbn [j364_loop_m j364_loop]; [reflexivity|].
  destruct (12 <? z)%Z; [|reflexivity]. change (peek_m Little) with peek_le.
  repeat (match goal with |- rbind ?e _ = rbind ?e _ => destruct e; cbn [rbind]; try reflexivity end). apply IH.
Qed.
Lemma jenkins364_little k z pc pb : jenkins364_m Little k z pc pb = jenkins364 k z pc pb.
Proof. unfold jenkins364_m, jenkins364. rewrite j364_loop_little. reflexivity. Qed.

Lemma peek_turned n k i : i < n -> 4 * n <= length k -> peek_m Big k (4 * i) 4 = peek_le (turned 4 n k) (4 * i) 4.
Proof.
  intros Hi Hn. unfold peek_m, peek_le. rewrite !peek_ok by (rewrite ?turned_length; lia). cbn [rbind].
  rewrite turned_word by assumption. reflexivity.
Qed.
Lemma j364_loop_big fuel : forall k l s, l <= length k ->
  exists r, match r with
    | Ok (k1, l1, s1) => l1 <= length k1 /\ l1 <= 12 /\
        j364_loop_m Big fuel k (Z.of_nat l) s = Ok (k1, Z.of_nat l1, s1) /\
        j364_loop fuel (turned 4 (l / 4) k) (Z.of_nat l) s = Ok (turned 4 (l1 / 4) k1, Z.of_nat l1, s1)
    | _ => j364_loop_m Big fuel k (Z.of_nat l) s = NoFuel /\ j364_loop fuel (turned 4 (l / 4) k) (Z.of_nat l) s = NoFuel
    end.
Proof.
  induction fuel as [|fuel IH]; intros k l [[a b] c] Hl; cbn [j364_loop_m j364_loop];
    destruct (Z.ltb_spec 12 (Z.of_nat l)) as [L|L].
  - exists NoFuel. auto.
  - exists (Ok (k, l, (a, b, c))). repeat split; lia.
  - pose proof (Nat.mul_div_le l 4 ltac:(lia)) as M.
    assert (D : l / 4 = 3 + (l - 12) / 4) by (replace l with (3 * 4 + (l - 12)) at 1 by lia; now rewrite Nat.div_add_l by lia).
    rewrite (peek_turned (l / 4) k 0 ltac:(lia) ltac:(lia) : peek_m Big k 0 4 = peek_le _ 0 4).
    rewrite (peek_turned (l / 4) k 1 ltac:(lia) ltac:(lia) : peek_m Big k 4 4 = peek_le _ 4 4).
    rewrite (peek_turned (l / 4) k 2 ltac:(lia) ltac:(lia) : peek_m Big k 8 4 = peek_le _ 8 4).
    rewrite !peek_le_ok by (rewrite turned_length; lia). cbn [rbind].
    rewrite !tail_from_ok by (rewrite ?turned_length; lia). cbn [rbind].
    replace (Z.of_nat l - 12)%Z with (Z.of_nat (l - 12)) by lia.
    set (s' := mix2 _). specialize (IH (skipn 12 k) (l - 12) s' ltac:(rewrite skipn_length; lia)).
    replace (skipn 12 (turned 4 (l / 4) k)) with (turned 4 ((l - 12) / 4) (skipn 12 k)); [exact IH|].
    rewrite D. symmetry. apply (turned_skip 4 ((l - 12) / 4) 3 k). lia.
  - exists (Ok (k, l, (a, b, c))). repeat split; lia.
Qed.

Lemma j364_tail_big k l s : l <= length k -> l <= 12 ->
  j364_tail_m Big k (Z.of_nat l) s = j364_tail (turned 4 (l / 4) k) (Z.of_nat l) s.
Proof.
  intros Hk Hl. destruct s as [[a b] c].
  do 13 (destruct l as [|l]; [
    first [reflexivity |
      destruct k as [|x0 [|x1 [|x2 [|x3 k]]]]; cbn [length] in Hk; try lia; try reflexivity;
      destruct k as [|x4 [|x5 [|x6 [|x7 k]]]]; cbn [length] in Hk; try lia; try reflexivity;
      destruct k as [|x8 [|x9 [|x10 [|x11 k]]]]; cbn [length] in Hk; try lia; try reflexivity ] |]). lia.
Qed.

Lemma jenkins364_big k n pc pb : 1 <= n <= length k ->
  jenkins364_m Big k (Z.of_nat n) pc pb = jenkins364 (turned 4 (n / 4) k) (Z.of_nat n) pc pb.
Proof.
  intros H. unfold jenkins364_m, jenkins364. rewrite turned_length.
  destruct (Z.eqb_spec (Z.of_nat n) 0); [lia|].
  match goal with |- context [j364_loop ?f _ _ ?s] => destruct (j364_loop_big f k n s ltac:(lia)) as (r & E) end.
  destruct r as [[[k1 l1] s1]| | |].
  - destruct E as (H1 & H2 & -> & ->). cbn [rbind]. now rewrite j364_tail_big.
  - destruct E as (-> & ->). reflexivity.
  - destruct E as (-> & ->). reflexivity.
  - destruct E as (-> & ->). reflexivity.
Qed.
Lemma jenkins364_big_all k pc pb : jenkins364_m Big k 0 pc pb = jenkins364 (turned 4 (length k / 4) k) 0 pc pb.
Proof.
  destruct (Nat.eq_dec (length k) 0) as [E|E].
  - destruct k; [reflexivity|discriminate].
  - pose proof (jenkins364_big k (length k) pc pb ltac:(lia)) as H. unfold jenkins364_m, jenkins364 in *.
    rewrite turned_length in *. change (0 =? 0)%Z with true. cbn iota.
    destruct (Z.eqb_spec (Z.of_nat (length k)) 0); [lia|]. exact H.
Qed.

(** ** crapwow *)
Lemma slice_turned k : sliceUI32_m Big k = sliceUI32 (turned 4 (length k / 4) k).
Proof.
  unfold sliceUI32_m, sliceUI32. rewrite turned_length. apply map_ext_in. intros i Hi. apply in_seq in Hi.
  rewrite turned_word; [reflexivity|lia|]. apply Nat.mul_div_le. lia.
Qed.
Lemma cw_loop_big fuel : forall l k4 k hk, l <= length k ->
  match cw_loop fuel l k4 k hk with
  | Ok (l1, k41, k1, hk1) => cw_loop fuel l k4 (turned 4 (l / 4) k) hk = Ok (l1, k41, turned 4 (l1 / 4) k1, hk1) /\ l1 <= length k1 /\ l1 < 8
  | e => cw_loop fuel l k4 (turned 4 (l / 4) k) hk = e
  end.
Proof.
  induction fuel as [|fuel IH]; intros l k4 k hk Hl; cbn [cw_loop]; [reflexivity|].
  destruct (Nat.leb_spec 8 l) as [L|L]; [|repeat split; lia].
  destruct (idx k4 0) as [x| | |]; cbn [rbind]; try reflexivity.
  destruct (idx k4 1) as [y| | |]; cbn [rbind]; try reflexivity.
  destruct (tail_from k4 2) as [k4'| | |]; cbn [rbind]; try reflexivity.
  pose proof (Nat.mul_div_le l 4 ltac:(lia)) as M.
  assert (D : l / 4 = 2 + (l - 8) / 4) by (replace l with (2 * 4 + (l - 8)) at 1 by lia; now rewrite Nat.div_add_l by lia).
  rewrite !tail_from_ok by (rewrite ?turned_length; lia). cbn [rbind].
  replace (skipn 8 (turned 4 (l / 4) k)) with (turned 4 ((l - 8) / 4) (skipn 8 k)).
  - apply IH. rewrite skipn_length. lia.
  - rewrite D. symmetry. apply (turned_skip 4 ((l - 8) / 4) 2 k). lia.
Qed.
Lemma crapwow_little k seed : CrapWow_m Little k seed = CrapWow k seed. Proof. reflexivity. Qed.
Lemma crapwow_big k seed : CrapWow_m Big k seed = CrapWow (turned 4 (length k / 4) k) seed.
Proof.
  unfold CrapWow_m, CrapWow. rewrite slice_turned, turned_length. set (k4 := sliceUI32 _). clearbody k4.
  match goal with |- context [cw_loop ?f ?l k4 k ?s] => pose proof (cw_loop_big f l k4 k s ltac:(lia)) as E;
    destruct (cw_loop f l k4 k s) as [[[[l1 k41] k1] hk1]| | |] end;
  [destruct E as (-> & E1 & E2)|rewrite E; reflexivity|rewrite E; reflexivity|rewrite E; reflexivity].
  cbn [rbind]. destruct (Nat.leb_spec 4 l1) as [L|L].
  - destruct (idx k41 0); cbn [rbind]; try reflexivity. destruct (tail_from k41 1); cbn [rbind]; try reflexivity.
    assert (D : l1 / 4 = 1) by (replace l1 with (1 * 4 + (l1 - 4)) by lia; rewrite Nat.div_add_l by lia; rewrite Nat.div_small by lia; lia).
    rewrite !tail_from_ok by (rewrite ?turned_length; lia). rewrite D.
    rewrite (turned_rest 4 1 k1 ltac:(lia) : skipn 4 (turned 4 1 k1) = skipn 4 k1). reflexivity.
  - rewrite (Nat.div_small l1) by assumption. reflexivity.
Qed.

(** ** spooky *)
Lemma words_of_little n : forall s, words_of_m Little n s = words_of n s.
Proof. induction n as [|n IH]; intros s; [reflexivity|]. cbn [words_of_m words_of]. now rewrite IH. Qed.
Lemma slice64_little s : sliceUI64_m Little s = sliceUI64 s. Proof. apply words_of_little. Qed.
Lemma long_loop_little fuel : forall s l h, long_loop_m Little fuel s l h = long_loop fuel s l h.
Proof.
  induction fuel as [|fuel IH]; intros s l h; cbn [long_loop_m long_loop]; [reflexivity|].
  rewrite slice64_little. destruct (96 <=? l); [|reflexivity].
  repeat (match goal with |- rbind ?e _ = rbind ?e _ => destruct e; cbn [rbind]; try reflexivity end). apply IH.
Qed.
Lemma spooky_little s h1 h2 : SpookyHash128_m Little s h1 h2 = SpookyHash128 s h1 h2.
Proof.
  unfold SpookyHash128_m, SpookyHash128. rewrite long_loop_little. destruct (length s <? 192); [reflexivity|].
  repeat (match goal with |- rbind ?e _ = rbind ?e _ => destruct e as [[? ?]| | |]; cbn [rbind]; try reflexivity end).
  destruct (negb _); [reflexivity|]. destruct (last_block _ _); cbn [rbind]; try reflexivity.
  now rewrite slice64_little.
Qed.
Lemma spooky_short m s h1 h2 : length s < 192 -> SpookyHash128_m m s h1 h2 = SpookyHash128 s h1 h2.
Proof. intros H. unfold SpookyHash128_m, SpookyHash128. apply Nat.ltb_lt in H. now rewrite H. Qed.

Lemma words_of_prefix n : forall a t, 8 * n <= length a -> words_of n (a ++ t) = words_of n a.
Proof.
  induction n as [|n IH]; intros a t H; [reflexivity|]. cbn [words_of].
  rewrite firstn_app, skipn_app. replace (8 - length a) with 0 by lia. change (firstn 0 t) with (@nil N). change (skipn 0 t) with t. rewrite app_nil_r.
  rewrite IH; [reflexivity|rewrite skipn_length; lia].
Qed.
Lemma words_of_length n : forall s, length (words_of n s) = n.
Proof. induction n as [|n IH]; intros s; [reflexivity|]. cbn. now rewrite IH. Qed.
Lemma words_of_firstn n : forall r s, firstn n (words_of (n + r) s) = words_of n s.
Proof. induction n as [|n IH]; intros r s; [reflexivity|]. cbn [Nat.add words_of firstn]. now rewrite IH. Qed.
Lemma twelve_words s : 96 <= length s -> twelve (sliceUI64 s) = Ok (words_of 12 s).
Proof.
  intros H. unfold twelve, sliceUI64. rewrite words_of_length.
  assert (L : 12 <= length s / 8) by (apply Nat.div_le_lower_bound; lia).
  replace (length s / 8) with (12 + (length s / 8 - 12)) by lia. rewrite words_of_firstn. reflexivity.
Qed.
Lemma words_of_big n : forall s r, 8 * n <= length s -> words_of_m Big n s = words_of n (turned 8 (n + r) s).
Proof.
  induction n as [|n IH]; intros s r H; [reflexivity|]. cbn [words_of_m words_of turned Nat.add].
  rewrite (firstn_app_exact 8), (skipn_app_exact 8) by (rewrite rev_length, firstn_length; lia).
  rewrite (IH _ r) by (rewrite skipn_length; lia). reflexivity.
Qed.
Lemma words_of_m_length m n : forall s, length (words_of_m m n s) = n.
Proof. induction n as [|n IH]; intros s; [reflexivity|]. cbn. now rewrite IH. Qed.
Lemma words_of_m_firstn m n : forall r s, firstn n (words_of_m m (n + r) s) = words_of_m m n s.
Proof. induction n as [|n IH]; intros r s; [reflexivity|]. cbn [Nat.add words_of_m firstn]. now rewrite IH. Qed.
Lemma twelve_words_m m s : 96 <= length s -> twelve (sliceUI64_m m s) = Ok (words_of_m m 12 s).
Proof.
  intros H. unfold twelve, sliceUI64_m. rewrite words_of_m_length.
  assert (L : 12 <= length s / 8) by (apply Nat.div_le_lower_bound; lia).
  replace (length s / 8) with (12 + (length s / 8 - 12)) by lia. rewrite words_of_m_firstn. reflexivity.
Qed.

Lemma long_loop_big fuel : forall s h, long_loop_m Big fuel s (length s) h =
  long_loop fuel (turned 8 (12 * (length s / 96)) s) (length s) h.
Proof.
  induction fuel as [|fuel IH]; intros s h; cbn [long_loop_m long_loop];
    destruct (Nat.leb_spec 96 (length s)) as [L|L]; try reflexivity;
    try (rewrite (Nat.div_small (length s) 96) by assumption; reflexivity).
  assert (D : length s / 96 = 1 + (length s - 96) / 96)
    by (replace (length s) with (1 * 96 + (length s - 96)) at 1 by lia; now rewrite Nat.div_add_l by lia).
  pose proof (Nat.mul_div_le (length s) 96 ltac:(lia)) as M.
  unfold Mix. rewrite twelve_words_m by assumption. rewrite twelve_words by (now rewrite turned_length).
  cbn [rbind]. rewrite !tail_from_ok by (rewrite ?turned_length; assumption). cbn [rbind].
  rewrite D. replace (12 * (1 + (length s - 96) / 96)) with (12 + 12 * ((length s - 96) / 96)) by lia.
  rewrite (words_of_big 12 s (12 * ((length s - 96) / 96))) by lia.
  rewrite (turned_skip 8 (12 * ((length s - 96) / 96)) 12 s : _ -> skipn 96 _ = _) by lia.
  change (8 * 12) with 96.
  replace (length s - 96) with (length (skipn 96 s)) by (rewrite skipn_length; reflexivity).
  apply IH.
Qed.
Lemma long_split q : forall a t h f1 f2, length a = 96 * q -> length t < 96 -> q <= f1 -> q <= f2 ->
  exists h', long_loop f1 (a ++ t) (length (a ++ t)) h = Ok (t, h') /\ long_loop f2 a (length a) h = Ok ([], h').
Proof.
  induction q as [|q IH]; intros a t h f1 f2 Ha Ht H1 H2.
  - destruct a; [|cbn in Ha; lia]. exists h. cbn [app length]. split; [|destruct f2; reflexivity].
    destruct f1; cbn [long_loop]; (destruct (Nat.leb_spec 96 (length t)); [lia|reflexivity]).
  - destruct f1 as [|f1]; [lia|]. destruct f2 as [|f2]; [lia|]. cbn [long_loop].
    rewrite app_length. destruct (Nat.leb_spec 96 (length a + length t)); [|lia].
    destruct (Nat.leb_spec 96 (length a)); [|lia]. unfold Mix.
    rewrite !twelve_words by (rewrite ?app_length; lia). cbn [rbind].
    rewrite !tail_from_ok by (rewrite ?app_length; lia). cbn [rbind].
    rewrite words_of_prefix by lia. rewrite skipn_app. replace (96 - length a) with 0 by lia. change (skipn 0 t) with t.
    destruct (IH (skipn 96 a) t (firstn 12 (SLP.exec 64 mix_prog (h ++ words_of 12 a))) f1 f2) as (h' & E1 & E2);
      [rewrite skipn_length; lia|assumption|lia|lia|].
    exists h'. rewrite app_length, !skipn_length in E1. rewrite skipn_length in E2.
    replace (length a + length t - 96) with (length a - 96 + length t) by lia. auto.
Qed.

(** The hash of a padded key on a little-endian machine. *)
Definition spooky_blocks (p : list N) (h1 h2 : N) : res (N * N) :=
  let n := length p - 96 in
  '(_, h) <~ long_loop n (firstn n p) n [h1; h2; sc_const; h1; h2; sc_const; h1; h2; sc_const; h1; h2; sc_const] ;;
  h <~ End_ (sliceUI64 (skipn n p)) h ;;
  Ok (nth 0 h 0%N, nth 1 h 0%N).

Lemma last_block_is t : length t < 96 ->
  last_block t (length t) = Ok (t ++ repeat 0%N (95 - length t) ++ [N.of_nat (length t)]).
Proof.
  intros H. unfold last_block. destruct (Nat.ltb_spec 96 (length t)); [lia|].
  rewrite N.mod_small by lia. rewrite firstn_app, (firstn_all2 t) by lia.
  replace (96 - length t) with (95 - length t + 1) by lia. rewrite repeat_app.
  rewrite firstn_app, (firstn_all2 (repeat _ _)) by (rewrite repeat_length; lia).
  rewrite repeat_length. replace (95 - length t - (95 - length t)) with 0 by lia. cbn [firstn].
  rewrite app_nil_r, <- app_assoc. reflexivity.
Qed.
Lemma spooky_blocks_split a b h1 h2 : length b = 96 ->
  spooky_blocks (a ++ b) h1 h2 =
  ('(_, h) <~ long_loop (length a) a (length a) [h1; h2; sc_const; h1; h2; sc_const; h1; h2; sc_const; h1; h2; sc_const] ;;
   h <~ End_ (sliceUI64 b) h ;; Ok (nth 0 h 0%N, nth 1 h 0%N)).
Proof.
  intros H. unfold spooky_blocks. rewrite app_length, H. replace (length a + 96 - 96) with (length a) by lia.
  rewrite (firstn_app_exact (length a)), (skipn_app_exact (length a)) by reflexivity. reflexivity.
Qed.
Lemma slice64_big b : length b = 96 -> sliceUI64_m Big b = sliceUI64 (turned 8 12 b).
Proof.
  intros H. unfold sliceUI64_m, sliceUI64. rewrite turned_length, H. change (96 / 8) with 12.
  apply (words_of_big 12 b 0). lia.
Qed.

Lemma spooky_long s h1 h2 : 192 <= length s ->
  SpookyHash128 s h1 h2 = spooky_blocks (padded s) h1 h2 /\
  SpookyHash128_m Big s h1 h2 = spooky_blocks (turned 8 (length (padded s) / 8) (padded s)) h1 h2.
Proof.
  intros H. set (q := length s / 96). set (a := firstn (96 * q) s). set (t := skipn (96 * q) s).
  pose proof (Nat.mul_div_le (length s) 96 ltac:(lia)) as M. fold q in M.
  pose proof (Nat.div_mod (length s) 96 ltac:(lia)) as DM. fold q in DM.
  pose proof (Nat.mod_upper_bound (length s) 96 ltac:(lia)) as UB.
  assert (Es : s = a ++ t) by (symmetry; apply firstn_skipn).
  assert (La : length a = 96 * q) by (unfold a; rewrite firstn_length; lia).
  assert (Lt : length t = length s mod 96) by (unfold t; rewrite skipn_length; lia).
  set (b := t ++ repeat 0%N (95 - length t) ++ [N.of_nat (length t)]).
  assert (Lb : length b = 96) by (unfold b; rewrite !app_length, repeat_length; cbn [length]; lia).
  assert (Ep : padded s = a ++ b) by (unfold padded, b; rewrite <- Lt, (app_assoc a t); f_equal; exact Es).
  assert (L2 : (length s <? 192) = false) by (now apply Nat.ltb_ge).
  assert (Q : turned 8 (length (padded s) / 8) (padded s) = turned 8 (12 * q) a ++ turned 8 12 b).
  { rewrite Ep, app_length, La, Lb. replace (96 * q + 96) with ((12 * q + 12) * 8) by lia.
    rewrite Nat.div_mul by lia. apply turned_app. lia. }
  split.
  - rewrite Ep, spooky_blocks_split by assumption. unfold SpookyHash128. rewrite L2. cbv zeta.
    destruct (long_split q a t [h1; h2; sc_const; h1; h2; sc_const; h1; h2; sc_const; h1; h2; sc_const]
      (length s) (length a) La ltac:(lia) ltac:(lia) ltac:(lia)) as (h' & E1 & E2).
    rewrite <- Es in E1. rewrite E1, E2. cbn [rbind]. rewrite <- Lt, Nat.eqb_refl. cbn [negb].
    rewrite last_block_is by lia. cbn [rbind]. fold b. reflexivity.
  - rewrite Q, spooky_blocks_split by (now rewrite turned_length). unfold SpookyHash128_m. rewrite L2. cbv zeta.
    rewrite long_loop_big. fold q.
    assert (Et : turned 8 (12 * q) s = turned 8 (12 * q) a ++ t).
    { rewrite Es at 1. pose proof (turned_app 8 (12 * q) 0 a t ltac:(lia)) as E. rewrite Nat.add_0_r in E. exact E. }
    destruct (long_split q (turned 8 (12 * q) a) t [h1; h2; sc_const; h1; h2; sc_const; h1; h2; sc_const; h1; h2; sc_const]
      (length s) (length a)) as (h' & E1 & E2);
      [now rewrite turned_length|lia|lia|lia|].
    rewrite <- Et, turned_length in E1. rewrite turned_length in *. rewrite E1, E2. cbn [rbind]. rewrite <- Lt, Nat.eqb_refl. cbn [negb].
    rewrite last_block_is by lia. cbn [rbind]. fold b. rewrite slice64_big by assumption. reflexivity.
Qed.

Lemma nth_skipn (l : list N) n i : nth i (skipn n l) 0%N = nth (n + i) l 0%N.
Proof. revert l. induction n as [|n IH]; intros [|x l]; cbn [skipn Nat.add nth]; auto. now destruct i. Qed.
Lemma nth_firstn_lt (l : list N) n i : i < n -> nth i (firstn n l) 0%N = nth i l 0%N.
Proof. revert l i. induction n as [|n IH]; intros [|x l] [|i] H; cbn [firstn nth]; auto; try lia. apply IH. lia. Qed.
