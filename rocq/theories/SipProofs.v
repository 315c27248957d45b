(** Proofs about SipModel.v. *)
From Coq Require Import ZArith Btauto.
From Verif Require Import Words WordLemmas ListLemmas Blocks DigestSpec SipModel SipSpec.
Open Scope N_scope.

(** ** Word helpers *)
Lemma shl64_byte b k : byte_ok b -> k <= 56 -> shl64 b k = N.shiftl b k.
Proof.
  intros Hb Hk. unfold shl64, shlw. apply wrap_small. unfold fits.
  rewrite N.shiftl_mul_pow2. unfold byte_ok in Hb.
  apply N.lt_le_trans with (2 ^ 8 * 2 ^ k).
  - apply N.mul_lt_mono_pos_r; [apply pow2_pos|exact Hb].
  - rewrite <- N.pow_add_r. apply N.pow_le_mono_r; lia.
Qed.

Lemma shl64_len L : shl64 (wrap 64 L) 56 = N.shiftl (L mod 256) 56.
Proof.
  change 256 with (2 ^ 8). rewrite <- wrap_mod.
  apply N.bits_inj. intro i. unfold shl64. rewrite shlw_testbit, wrap_testbit.
  destruct (N.leb_spec 56 i).
  - rewrite N.shiftl_spec_high' by assumption. rewrite wrap_testbit.
    destruct (N.ltb_spec i 64), (N.ltb_spec (i - 56) 64), (N.ltb_spec (i - 56) 8); cbn; auto; lia.
  - rewrite N.shiftl_spec_low by assumption. now rewrite andb_false_r.
Qed.

Lemma len64_256 p : len64 p mod 256 = N.of_nat (length p) mod 256.
Proof.
  unfold len64. rewrite wrap_mod. change (2 ^ 64) with (256 * 2 ^ 56).
  rewrite N.mod_mul_r by (try apply pow2_nz; discriminate).
  rewrite (N.mul_comm 256), N.mod_add by discriminate. now rewrite N.mod_mod.
Qed.

Lemma sip_tail_correct L r : (length r < 8)%nat -> bytes_ok r ->
  sip_tail (N.shiftl (L mod 256) 56) r = le_load (r ++ repeat 0 (7 - length r) ++ [L mod 256]).
Proof.
  intros Hl Hr. set (l := L mod 256). clearbody l.
  unfold sip_tail.
  do 8 (destruct r as [|? r]; [cbn [length Nat.sub repeat app nth];
    repeat match goal with H : bytes_ok (_ :: _) |- _ => inversion H; clear H; subst end;
    repeat match goal with H : Forall byte_ok (_ :: _) |- _ => inversion H; clear H; subst end;
    cbn [le_load];
    rewrite ?shl64_byte by (assumption || lia);
    repeat (progress rewrite ?N.shiftl_0_l, ?N.lor_0_r, ?N.lor_0_l, ?N.shiftl_lor, ?N.shiftl_shiftl);
    apply N.bits_inj; intro; rewrite ?N.lor_spec; cbn [N.add Pos.add Pos.succ Pos.add_carry]; solve [reflexivity | btauto] |]).
  cbn in Hl. lia.
Qed.

(** ** The buffer *)
Lemma copy_at_fill x off p : (off <= length x)%nat -> (length x - off <= length p)%nat ->
  copy_at x off p = (firstn off x ++ firstn (length x - off) p, (length x - off)%nat).
Proof.
  intros Ho Hp. unfold copy_at. rewrite Nat.min_l by assumption.
  rewrite (skipn_all2 x) by lia. now rewrite app_nil_r.
Qed.
Lemma copy_at_part x off p x' c : (off + length p <= length x)%nat -> copy_at x off p = (x', c) ->
  c = length p /\ length x' = length x /\ firstn (off + length p) x' = firstn off x ++ p.
Proof.
  intros Ho. unfold copy_at. rewrite Nat.min_r by lia. intros E; injection E as <- <-.
  rewrite firstn_all. split; [reflexivity|]. split.
  - rewrite !app_length, firstn_length, skipn_length. lia.
  - rewrite app_assoc. rewrite firstn_app.
    rewrite !app_length, firstn_length, Nat.min_l by lia.
    rewrite Nat.sub_diag. cbn [firstn]. rewrite app_nil_r.
    apply firstn_all2. rewrite app_length, firstn_length. lia.
Qed.

Lemma ldiff7 n : N.to_nat (N.ldiff (N.of_nat n) 7) = (8 * (n / 8))%nat.
Proof.
  rewrite <- (Nat2N.id (8 * (n / 8))). f_equal.
  change 7 with (N.ones 3). rewrite N.ldiff_ones_r, N.shiftl_mul_pow2, N.shiftr_div_pow2.
  change (2 ^ 3) with 8. rewrite Nat2N.inj_mul, N.mul_comm. f_equal.
  change 8 with (N.of_nat 8). now rewrite Nat2N.inj_div.
Qed.

Lemma pos8 : (0 < 8)%nat. Proof. lia. Qed.

(** The effect of Write on state and buffer, for any block function state. *)
Lemma sip_write_effect d p :
  length (dx d) = 8%nat -> (dnx d < 8)%nat ->
  let d' := sip_write_d d p in
  length (dx d') = 8%nat /\ (dnx d' < 8)%nat /\ dk0 d' = dk0 d /\ dk1 d' = dk1 d /\ dsize d' = dsize d /\
  dt d' = addw 8 (dt d) (wrap 8 (N.of_nat (length p))) /\
  (dv d', firstn (dnx d') (dx d')) = absorb 8 sip_block (dv d) (firstn (dnx d) (dx d) ++ p).
Proof.
  intros Hx Hn d'. subst d'. unfold sip_write_d.
  set (t := addw 8 _ _).
  cbn [dnx dv dx dk0 dk1 dsize dt].
  (* the middle and last part, from a digest with an empty buffer *)
  assert (Tail : forall v x q, length x = 8%nat ->
    let r :=
      (let '(d1, q1) :=
         if (8 <=? length q)%nat then
           let n := N.to_nat (N.ldiff (N.of_nat (length q)) 7) in
           (mkSip (sip_blocks v (firstn n q)) (dk0 d) (dk1 d) t 0 x (dsize d), skipn n q)
         else (mkSip v (dk0 d) (dk1 d) t 0 x (dsize d), q) in
       if (0 <? length q1)%nat then
         let '(x', c) := copy_at (dx d1) 0 q1 in
         mkSip (dv d1) (dk0 d1) (dk1 d1) t c x' (dsize d1)
       else d1) in
    length (dx r) = 8%nat /\ (dnx r < 8)%nat /\ dk0 r = dk0 d /\ dk1 r = dk1 d /\ dsize r = dsize d /\
    dt r = t /\ (dv r, firstn (dnx r) (dx r)) = absorb 8 sip_block v q).
  { intros v x q Hlx.
    assert (Last : forall v1 q1, (length q1 < 8)%nat ->
      let r := (if (0 <? length q1)%nat then
         let '(x', c) := copy_at x 0 q1 in
         mkSip v1 (dk0 d) (dk1 d) t c x' (dsize d)
       else mkSip v1 (dk0 d) (dk1 d) t 0 x (dsize d)) in
      length (dx r) = 8%nat /\ (dnx r < 8)%nat /\ dk0 r = dk0 d /\ dk1 r = dk1 d /\ dsize r = dsize d /\
      dt r = t /\ (dv r, firstn (dnx r) (dx r)) = (v1, q1)).
    { intros v1 q1 Hq1. destruct (Nat.ltb_spec 0 (length q1)).
      - destruct (copy_at x 0 q1) as [x' c] eqn:E.
        apply copy_at_part in E; [|lia]. destruct E as (-> & E1 & E2). cbn in E2.
        cbn. repeat split; try congruence; lia.
      - destruct q1; [|cbn in *; lia]. cbn. repeat split; auto; lia. }
    destruct (Nat.leb_spec 8 (length q)) as [H8|H8]; cbv zeta.
    - rewrite ldiff7. cbn [dnx dv dx dk0 dk1 dsize dt].
      specialize (Last (sip_blocks v (firstn (8 * (length q / 8)) q)) (skipn (8 * (length q / 8)) q)).
      cbv zeta in Last.
      assert (HH : (length (skipn (8 * (length q / 8)) q) < 8)%nat).
      { rewrite <- (absorb_rest 8 sip_block pos8 v q). apply absorb_rest_lt, pos8. }
      specialize (Last HH). destruct Last as (L1 & L2 & L3 & L4 & L5 & L6 & L7).
      repeat split; auto. rewrite L7.
      rewrite (surjective_pairing (absorb 8 sip_block v q)), (absorb_rest 8 _ pos8).
      unfold sip_blocks. rewrite (absorb_full 8 _ pos8). reflexivity.
    - cbn [dnx dv dx dk0 dk1 dsize dt].
      specialize (Last v q H8). cbv zeta in Last.
      destruct Last as (L1 & L2 & L3 & L4 & L5 & L6 & L7).
      repeat split; auto. rewrite L7. now rewrite (absorb_short 8 sip_block pos8). }
  destruct (Nat.ltb_spec 0 (dnx d)) as [H0|H0].
  2:{ replace (dnx d) with 0%nat by lia. cbn [firstn app].
      exact (Tail (dv d) (dx d) p Hx). }
  destruct (Nat.ltb_spec (8 - dnx d) (length p)) as [Hp|Hp].
  - (* the buffer is filled and more follows *)
    rewrite copy_at_fill by lia. rewrite Hx.
    replace (dnx d + (8 - dnx d))%nat with 8%nat by lia. cbn [Nat.eqb].
    cbn [dnx dv dx dk0 dk1 dsize dt].
    set (x1 := firstn (dnx d) (dx d) ++ firstn (8 - dnx d) p).
    assert (Hx1 : length x1 = 8%nat) by (unfold x1; rewrite app_length, !firstn_length; lia).
    specialize (Tail (sip_blocks (dv d) x1) x1 (skipn (8 - dnx d) p) Hx1). cbv zeta in Tail.
    destruct Tail as (L1 & L2 & L3 & L4 & L5 & L6 & L7).
    repeat split; auto. rewrite L7.
    replace (firstn (dnx d) (dx d) ++ p) with (x1 ++ skipn (8 - dnx d) p).
    2:{ unfold x1. rewrite <- app_assoc. now rewrite firstn_skipn. }
    rewrite (absorb_block 8 _ pos8) by assumption. f_equal.
    unfold sip_blocks. rewrite <- (app_nil_r x1) at 1.
    rewrite (absorb_block 8 _ pos8) by assumption. now rewrite absorb_short by (cbn; lia).
  - rewrite skipn_all.
    destruct (Nat.eq_dec (dnx d + length p) 8) as [E8|N8].
    + rewrite copy_at_fill by lia. rewrite Hx.
      replace (dnx d + (8 - dnx d))%nat with 8%nat by lia. cbn [Nat.eqb length Nat.leb Nat.ltb].
      cbn [dnx dv dx dk0 dk1 dsize dt].
      replace (8 - dnx d)%nat with (length p) by lia. rewrite firstn_all.
      set (x1 := firstn (dnx d) (dx d) ++ p).
      assert (Hx1 : length x1 = 8%nat) by (unfold x1; rewrite app_length, !firstn_length; lia).
      repeat split; auto; try lia. cbn [firstn].
      unfold sip_blocks. rewrite <- (app_nil_r x1).
      rewrite (absorb_block 8 _ pos8) by assumption. now rewrite absorb_short by (cbn; lia).
    + destruct (copy_at (dx d) (dnx d) p) as [x' c] eqn:E.
      apply copy_at_part in E; [|lia]. destruct E as (-> & E1 & E2).
      destruct (Nat.eqb_spec (dnx d + length p) 8); [lia|].
      cbn [dnx dv dx dk0 dk1 dsize dt length Nat.leb Nat.ltb].
      repeat split; auto; try lia. rewrite E2.
      rewrite (absorb_short 8 _ pos8); auto. rewrite app_length, firstn_length. lia.
Qed.

(** ** The digest invariant *)
Definition sip_start (size : nat) (k0 k1 : N) : sst :=
  if Nat.eqb size 16 then xor_v1_ee (sip_iv k0 k1) else sip_iv k0 k1.
Definition SipInv (size : nat) (k0 k1 : N) (d : sip_digest) (data : list N) : Prop :=
  dk0 d = k0 /\ dk1 d = k1 /\ dsize d = size /\ length (dx d) = 8%nat /\ (dnx d < 8)%nat /\
  dt d = N.of_nat (length data) mod 256 /\ bytes_ok data /\
  (dv d, firstn (dnx d) (dx d)) = absorb 8 sip_block (sip_start size k0 k1) data.

Lemma sip_inv_write size k0 k1 d x p : SipInv size k0 k1 d x -> bytes_ok p ->
  SipInv size k0 k1 (fst (sip_write d p)) (x ++ p) /\ snd (sip_write d p) = length p.
Proof.
  intros (H1 & H2 & H3 & H4 & H5 & H6 & H7 & H8) Hp. split; [|reflexivity].
  unfold sip_write; cbn [fst].
  destruct (sip_write_effect d p H4 H5) as (E1 & E2 & E3 & E4 & E5 & E6 & E7).
  unfold SipInv. rewrite E3, E4, E5, E6, E7. repeat split; auto.
  - rewrite H6. rewrite addw_mod, wrap_mod. change (2 ^ 8) with 256.
    rewrite <- N.add_mod by discriminate. now rewrite app_length, Nat2N.inj_add.
  - apply bytes_ok_app; auto.
  - rewrite (absorb_app 8 _ pos8 _ x p), <- H8. reflexivity.
Qed.

Lemma sip_inv_reset size k0 k1 d x : SipInv size k0 k1 d x -> SipInv size k0 k1 (sip_reset d) [].
Proof.
  intros (H1 & H2 & H3 & H4 & H5 & H6 & H7 & H8).
  unfold SipInv, sip_reset. cbn [dnx dv dx dk0 dk1 dsize dt length firstn].
  rewrite H1, H2, H3. repeat split; auto; try lia.
  - constructor.
Qed.

Lemma sip_last_block size k0 k1 d x : SipInv size k0 k1 d x ->
  let '(s, r) := absorb 8 sip_block (sip_start size k0 k1) x in
  sip_blocks (dv d) (sip_last d) = sip_compress s (sip_tail (shl64 (len64 x) 56) r).
Proof.
  intros (H1 & H2 & H3 & H4 & H5 & H6 & H7 & H8).
  destruct (absorb 8 sip_block (sip_start size k0 k1) x) as [s r] eqn:E.
  injection H8 as Hv Hr.
  assert (Hlr : length r = dnx d).
  { rewrite <- Hr, firstn_length. lia. }
  assert (Hb : bytes_ok r).
  { pose proof (absorb_rest 8 sip_block pos8 (sip_start size k0 k1) x) as R.
    rewrite E in R; cbn in R. rewrite R. now apply bytes_ok_skipn. }
  assert (Hlast : length (sip_last d) = 8%nat).
  { unfold sip_last. rewrite !app_length, Hr, Hlr, repeat_length. cbn [length]; lia. }
  unfold sip_blocks. rewrite <- (app_nil_r (sip_last d)).
  rewrite (absorb_block 8 _ pos8) by assumption. rewrite absorb_short by (cbn; lia).
  cbn [fst]. unfold sip_block. rewrite Hv. f_equal.
  unfold len64. rewrite shl64_len, sip_tail_correct by (try assumption; lia).
  unfold sip_last. rewrite Hr, Hlr. now rewrite H6.
Qed.

Lemma sip_sum64_correct k0 k1 d x : SipInv 8 k0 k1 d x -> sip_sum64 d = sip_hash k0 k1 x.
Proof.
  intros H. pose proof (sip_last_block _ _ _ _ _ H) as L.
  unfold sip_sum64, sip_hash, sip_start in *. cbn [Nat.eqb] in L.
  destruct (absorb 8 sip_block (sip_iv k0 k1) x). now rewrite L.
Qed.
Lemma sip_sum128_correct k0 k1 d x : SipInv 16 k0 k1 d x -> sip_sum128 d = sip_hash128 k0 k1 x.
Proof.
  intros H. pose proof (sip_last_block _ _ _ _ _ H) as L.
  unfold sip_sum128, sip_hash128, sip_start in *. cbn [Nat.eqb] in L.
  destruct (absorb 8 sip_block (xor_v1_ee (sip_iv k0 k1)) x). now rewrite L.
Qed.

Lemma sip_new_inv size key d : sip_new_digest size key = Some d ->
  (size = 8%nat \/ size = 16%nat) /\ (16 <= length key)%nat /\
  SipInv size (le_load (firstn 8 key)) (le_load (firstn 8 (skipn 8 key))) d [].
Proof.
  unfold sip_new_digest. intros H.
  assert (Hs : size = 8%nat \/ size = 16%nat).
  { destruct (Nat.eqb_spec size 8); auto. destruct (Nat.eqb_spec size 16); auto. discriminate. }
  destruct (negb (size =? 8)%nat && negb (size =? 16)%nat); [discriminate|].
  destruct (Nat.le_gt_cases 16 (length key)) as [Hk|Hk].
  - rewrite !load64_some in H by lia. cbn [obind] in H. injection H as <-.
    split; [assumption|split; [assumption|]].
    unfold SipInv, sip_reset. cbn [dnx dv dx dk0 dk1 dsize dt length firstn skipn].
    repeat split; auto; try lia. constructor.
  - unfold load64 in H. rewrite (slice_none key 8 8) in H by lia.
    destruct (slice key 0 8); discriminate.
Qed.
Lemma sip_new_panics size key :
  sip_new_digest size key = None <-> ~ (size = 8%nat \/ size = 16%nat) \/ (length key < 16)%nat.
Proof.
  split.
  - intros H. destruct (Nat.le_gt_cases 16 (length key)) as [Hk|Hk]; [|now right]. left.
    intros Hs. unfold sip_new_digest in H. rewrite !load64_some in H by lia.
    destruct Hs as [-> | ->]; discriminate.
  - intros H. destruct (sip_new_digest size key) as [d|] eqn:E; auto.
    apply sip_new_inv in E. destruct E as (E1 & E2 & _). destruct H; [tauto|lia].
Qed.

(** Any history of calls on a new digest shows exactly the hash of what was
    written since the last Reset. *)
Definition sip_history := run_history sip_write (fun d i => (d, sip_sum d i)) (fun d => (d, sip_sum64 d)) sip_reset.

Lemma sip_history64 key d ops : sip_new key = Some d -> Forall dop_ok ops ->
  sip_history d ops =
  (let k0 := le_load (firstn 8 key) in let k1 := le_load (firstn 8 (skipn 8 key)) in
   spec_history (fun m => le_store 8 (sip_hash k0 k1 m)) (sip_hash k0 k1) [] ops).
Proof.
  intros Hn Hops. apply sip_new_inv in Hn. destruct Hn as (_ & _ & Hi). cbv zeta.
  unfold sip_history.
  apply (run_history_correct _ _ _ _ _ _
     (SipInv 8 (le_load (firstn 8 key)) (le_load (firstn 8 (skipn 8 key)))) true); auto.
  - intros. now apply sip_inv_write.
  - intros d0 x i H. cbn. split; auto. unfold sip_sum.
    rewrite (sip_sum64_correct _ _ _ _ H). destruct H as (_ & _ & -> & _). reflexivity.
  - intros _ d0 x H. cbn. split; auto. now apply sip_sum64_correct.
  - intros. eapply sip_inv_reset; eauto.
Qed.
Lemma sip_history128 key d ops : sip_new128 key = Some d -> Forall dop_ok ops -> ~ In DSum64 ops ->
  sip_history d ops =
  (let k0 := le_load (firstn 8 key) in let k1 := le_load (firstn 8 (skipn 8 key)) in
   spec_history (fun m => le_store 8 (fst (sip_hash128 k0 k1 m)) ++ le_store 8 (snd (sip_hash128 k0 k1 m)))
                (fun _ => 0) [] ops).
Proof.
  intros Hn Hops H64. apply sip_new_inv in Hn. destruct Hn as (_ & _ & Hi). cbv zeta.
  unfold sip_history.
  apply (run_history_correct _ _ _ _ _ _
     (SipInv 16 (le_load (firstn 8 key)) (le_load (firstn 8 (skipn 8 key)))) false); auto.
  - intros. now apply sip_inv_write.
  - intros d0 x i H. cbn. split; auto. unfold sip_sum.
    rewrite (sip_sum128_correct _ _ _ _ H).
    destruct H as (_ & _ & -> & _). cbn [Nat.eqb].
    now destruct (sip_hash128 _ _ x).
  - discriminate.
  - intros. eapply sip_inv_reset; eauto.
Qed.

(** ** The one-shot functions are SipHash-2-4 *)
Definition tosv (s : sst) : sipv := let '(a, b, c, d) := s in SV a b c d.

Lemma spec_round_eq s : spec_round (tosv s) = tosv (sip_round s).
Proof.
  destruct s as [[[a b] c] d]. unfold spec_round, sip_round, tosv. cbn [s0 s1 s2 s3].
  unfold add64. rewrite !addw_mod. reflexivity.
Qed.
Lemma iter_succ {A} (f : A -> A) n x : Nat.iter (S n) f x = f (Nat.iter n f x).
Proof. reflexivity. Qed.
Lemma spec_rounds_eq n s : Nat.iter n spec_round (tosv s) = tosv (Nat.iter n sip_round s).
Proof. induction n as [|n IH]; [reflexivity|]. rewrite !iter_succ. now rewrite IH, spec_round_eq. Qed.
Definition compress_n (c : nat) (s : sst) (m : N) : sst :=
  let '(v0, v1, v2, v3) := s in
  let '(v0, v1, v2, v3) := Nat.iter c sip_round (v0, v1, v2, xor v3 m) in
  (xor v0 m, v1, v2, v3).
Lemma compress_2 s m : compress_n 2 s m = sip_compress s m.
Proof. destruct s as [[[a b] c] d]. reflexivity. Qed.
Lemma spec_compress_eq c s m : spec_compress c (tosv s) m = tosv (compress_n c s m).
Proof.
  destruct s as [[[v0 v1] v2] v3]. unfold spec_compress, compress_n.
  change (SV (s0 (tosv (v0, v1, v2, v3))) (s1 (tosv (v0, v1, v2, v3))) (s2 (tosv (v0, v1, v2, v3)))
        (N.lxor (s3 (tosv (v0, v1, v2, v3))) m)) with (tosv (v0, v1, v2, xor v3 m)).
  rewrite spec_rounds_eq.
  destruct (Nat.iter c sip_round (v0, v1, v2, xor v3 m)) as [[[a' b'] c'] d']. reflexivity.
Qed.

Lemma le_load8 b0 b1 b2 b3 b4 b5 b6 b7 : bytes_ok [b0;b1;b2;b3;b4;b5;b6;b7] ->
  le_load [b0;b1;b2;b3;b4;b5;b6;b7] =
  b0 + 256 * (b1 + 256 * (b2 + 256 * (b3 + 256 * (b4 + 256 * (b5 + 256 * (b6 + 256 * b7)))))).
Proof.
  intros H.
  repeat match goal with
  | H : bytes_ok (_ :: _) |- _ =>
      rewrite (le_load_cons _ _ H);
      let H' := fresh in pose proof (Forall_inv_tail H) as H'; clear H; fold bytes_ok in H'; change (Forall byte_ok) with bytes_ok in H'
  end.
  cbn [le_load]. lia.
Qed.

Lemma spec_words_block fuel b r : length b = 8%nat -> bytes_ok b ->
  spec_words (S fuel) (b ++ r) = le_load b :: spec_words fuel r.
Proof.
  intros Hb Hok.
  do 8 (destruct b as [|? b]; [discriminate Hb|]).
  destruct b; [|discriminate Hb]. rewrite le_load8 by assumption. reflexivity.
Qed.

(** Folding over the parsed words is the block loop, for whole numbers of blocks. *)
Lemma fold_words {A} (c : A -> N -> A) fuel s m : (length m mod 8 = 0)%nat -> (length m <= fuel)%nat -> bytes_ok m ->
  fold_left c (spec_words fuel m) s = fst (absorb 8 (fun s b => c s (le_load b)) s m).
Proof.
  revert fuel s. induction m as [m Hm|b m Hb IH] using (absorb_ind 8 pos8); intros fuel s Hlen Hf Hok.
  - rewrite Nat.mod_small in Hlen by assumption. destruct m; [|discriminate].
    destruct fuel; reflexivity.
  - rewrite app_length, Hb in Hlen, Hf. destruct fuel as [|fuel]; [lia|].
    apply bytes_ok_app in Hok. destruct Hok as [Hok1 Hok2].
    rewrite spec_words_block by assumption. cbn [fold_left].
    rewrite (absorb_block 8 _ pos8) by assumption. apply IH; auto; [|lia].
    replace (8 + length m)%nat with (length m + 1 * 8)%nat in Hlen by lia.
    rewrite Nat.mod_add in Hlen by lia. exact Hlen.
Qed.

Lemma spec_pad_length m : length (spec_pad m) = (8 * (length m / 8) + 8)%nat.
Proof.
  unfold spec_pad. rewrite !app_length, repeat_length. cbn [length].
  pose proof (Nat.mod_upper_bound (length m) 8). pose proof (Nat.div_mod (length m) 8). lia.
Qed.
Lemma repeat0_ok n : bytes_ok (repeat 0 n).
Proof. apply Forall_forall. intros x Hx. apply repeat_spec in Hx. subst. unfold byte_ok. lia. Qed.
Lemma spec_pad_ok m : bytes_ok m -> bytes_ok (spec_pad m).
Proof.
  intros H. unfold spec_pad. apply bytes_ok_app; split; auto. apply bytes_ok_app; split.
  - apply repeat0_ok.
  - constructor; [|constructor]. unfold byte_ok. apply N.mod_lt. discriminate.
Qed.

Lemma absorb_map {A B : Type} (g : A -> B) (f : A -> list N -> A) (h : B -> list N -> B) n : (0 < n)%nat ->
  (forall s b, h (g s) b = g (f s b)) -> forall s p,
  absorb n h (g s) p = (let '(s', r) := absorb n f s p in (g s', r)).
Proof.
  intros Hn H s p. revert s. induction p as [p Hp|b p Hb IH] using (absorb_ind n Hn); intros s.
  - now rewrite !absorb_short.
  - rewrite !absorb_block, H by assumption. apply IH.
Qed.

Lemma spec_absorb_eq c s m : bytes_ok m ->
  let '(s', r) := absorb 8 (fun s b => compress_n c s (le_load b)) s m in
  spec_absorb c (tosv s) m = tosv (compress_n c s' (sip_tail (shl64 (len64 m) 56) r)).
Proof.
  intros Hok. set (blk := fun (s : sst) b => compress_n c s (le_load b)).
  destruct (absorb 8 blk s m) as [s' r] eqn:E.
  pose proof (absorb_rest 8 blk pos8 s m) as R. rewrite E in R; cbn in R.
  assert (Hlr : length r = (length m mod 8)%nat).
  { pose proof (absorb_rest_length 8 blk pos8 s m) as R'. now rewrite E in R'. }
  assert (Hlr8 : (length r < 8)%nat) by (rewrite Hlr; apply Nat.mod_upper_bound; lia).
  assert (Hb : bytes_ok r) by (rewrite R; now apply bytes_ok_skipn).
  unfold spec_absorb. rewrite fold_words.
  - rewrite (absorb_map tosv blk) by (try lia; intros; apply spec_compress_eq).
    unfold spec_pad. rewrite (absorb_app 8 _ pos8), E.
    rewrite (absorb_step 8 blk pos8).
    2:{ rewrite !app_length, repeat_length, <- Hlr. cbn [length]. lia. }
    rewrite firstn_all2, skipn_all2.
    2,3: rewrite !app_length, repeat_length, <- Hlr; cbn [length]; lia.
    rewrite absorb_short by (cbn; lia). cbn [fst]. f_equal. unfold blk. f_equal.
    unfold len64. rewrite shl64_len, sip_tail_correct by assumption. now rewrite Hlr.
  - rewrite spec_pad_length. rewrite (Nat.mul_comm 8), Nat.add_mod, Nat.mod_mul by lia. reflexivity.
  - rewrite spec_pad_length. pose proof (Nat.div_mod (length m) 8). lia.
  - now apply spec_pad_ok.
Qed.
Lemma spec_absorb_eq2 s m : bytes_ok m ->
  let '(s', r) := absorb 8 sip_block s m in
  spec_absorb 2 (tosv s) m = tosv (sip_compress s' (sip_tail (shl64 (len64 m) 56) r)).
Proof.
  intros H. pose proof (spec_absorb_eq 2 s m H) as E.
  rewrite (absorb_ext 8 _ sip_block pos8) in E by (intros; apply compress_2).
  destruct (absorb 8 sip_block s m). now rewrite compress_2 in E.
Qed.

Lemma spec_out_eq s : spec_out (tosv s) = sip_fold s.
Proof.
  destruct s as [[[a b] c] d]. unfold spec_out, sip_fold, tosv, xor; cbn.
  now rewrite !N.lxor_assoc.
Qed.

Theorem sip_hash_spec k0 k1 m : bytes_ok m -> sip_hash k0 k1 m = sip_spec 2 4 k0 k1 m.
Proof.
  intros H. unfold sip_hash, sip_spec.
  change (spec_init k0 k1) with (tosv (sip_iv k0 k1)).
  pose proof (spec_absorb_eq2 (sip_iv k0 k1) m H) as E.
  destruct (absorb 8 sip_block (sip_iv k0 k1) m) as [s r]. rewrite E.
  destruct (sip_compress s _) as [[[a b] c] d]. cbn [tosv s0 s1 s2 s3].
  change (SV a b (N.lxor c 255) d) with (tosv (a, b, xor c 255, d)).
  rewrite spec_rounds_eq, spec_out_eq. reflexivity.
Qed.
Theorem sip_hash128_spec k0 k1 m : bytes_ok m -> sip_hash128 k0 k1 m = sip_spec128 2 4 k0 k1 m.
Proof.
  intros H. unfold sip_hash128, sip_spec128.
  change (SV (s0 (spec_init k0 k1)) (N.lxor (s1 (spec_init k0 k1)) 238) (s2 (spec_init k0 k1))
     (s3 (spec_init k0 k1))) with (tosv (xor_v1_ee (sip_iv k0 k1))).
  pose proof (spec_absorb_eq2 (xor_v1_ee (sip_iv k0 k1)) m H) as E.
  destruct (absorb 8 sip_block (xor_v1_ee (sip_iv k0 k1)) m) as [s r]. rewrite E.
  destruct (sip_compress s _) as [[[a b] c] d]. cbn [tosv s0 s1 s2 s3].
  change (SV a b (N.lxor c 238) d) with (tosv (a, b, xor c 238, d)).
  rewrite spec_rounds_eq, spec_out_eq. unfold sip_final128.
  change (Nat.iter 4 sip_round ?x) with (sip_round (sip_round (sip_round (sip_round x)))).
  destruct (sip_round (sip_round (sip_round (sip_round (a, b, xor c 238, d))))) as [[[a' b'] c'] d'].
  cbn [tosv s0 s1 s2 s3]. change (SV a' (N.lxor b' 221) c' d') with (tosv (a', xor b' 221, c', d')).
  rewrite spec_rounds_eq, spec_out_eq. reflexivity.
Qed.

(** ** siphashpg *)
Lemma pg_rotl_eq x b : b <= 64 -> pg_rotl x b = rotl64 x b.
Proof.
  intros H. unfold pg_rotl, rotl64, rotlw, shl64. f_equal. f_equal.
  unfold sub64. rewrite subw_mod.
  destruct (N.eq_dec b 0) as [->|]; [reflexivity|].
  rewrite (N.mod_small b) by (change (2^64) with 18446744073709551616; lia).
  change (2^64) with 18446744073709551616.
  replace (64 + (18446744073709551616 - b)) with ((64 - b) + 1 * 18446744073709551616) by lia.
  rewrite N.mod_add by discriminate. apply N.mod_small. lia.
Qed.
Lemma pg_sipround_eq s : pg_sipround s = sip_round s.
Proof.
  destruct s as [[[a b] c] d]. unfold pg_sipround. rewrite !pg_rotl_eq by lia. reflexivity.
Qed.
Lemma pg_halves s : pg_siproundb (pg_siprounda s) = pg_sipround s.
Proof. destruct s as [[[a b] c] d]. reflexivity. Qed.
Lemma iter_ext {A} (f g : A -> A) n x : (forall y, f y = g y) -> Nat.iter n f x = Nat.iter n g x.
Proof. intros H. induction n; [reflexivity|]. rewrite !iter_succ. now rewrite IHn, H. Qed.
Lemma pg_rounds_eq n s : pg_rounds n s = Nat.iter (Z.to_nat n) sip_round s.
Proof. apply iter_ext, pg_sipround_eq. Qed.

Lemma pg_panics inp k cr dr dbl :
  pg_siphash inp k cr dr dbl = None <-> length k <> 16%nat \/ (cr <= 0)%Z \/ (dr <= 0)%Z.
Proof.
  unfold pg_siphash.
  destruct (Nat.eqb_spec (length k) 16); cbn [negb orb].
  2:{ split; auto. }
  destruct (Z.leb_spec cr 0); cbn [orb]; [split; auto|].
  destruct (Z.leb_spec dr 0); [split; auto|].
  unfold u8tou64le. rewrite !load64_some by (rewrite ?skipn_length; lia). cbn [obind].
  destruct (absorb 8 _ _ _) as [[[[? ?] ?] ?] ?].
  destruct (pg_rounds cr _) as [[[? ?] ?] ?].
  destruct (pg_rounds dr _) as [[[? ?] ?] ?].
  split; [|intros [?|[?|?]]; lia].
  destruct dbl; [destruct (pg_rounds dr _) as [[[? ?] ?] ?]|]; discriminate.
Qed.

Lemma pg_block_eq cr s b : pg_block cr s b = compress_n (Z.to_nat cr) s (le_load b).
Proof. destruct s as [[[v0 v1] v2] v3]. unfold pg_block, compress_n. now rewrite pg_rounds_eq. Qed.

(** For every number of rounds Siphash is SipHash-cr-dr. *)
Lemma pg_spec inp k cr dr dbl : length k = 16%nat -> (0 < cr)%Z -> (0 < dr)%Z -> bytes_ok inp ->
  let k0 := le_load (firstn 8 k) in let k1 := le_load (firstn 8 (skipn 8 k)) in
  pg_siphash inp k cr dr dbl =
  Some (if dbl then sip_spec128 (Z.to_nat cr) (Z.to_nat dr) k0 k1 inp
        else (sip_spec (Z.to_nat cr) (Z.to_nat dr) k0 k1 inp, 0)).
Proof.
  intros Hk Hcr Hdr Hok k0 k1. unfold pg_siphash.
  rewrite Hk. cbn [Nat.eqb negb orb].
  destruct (Z.leb_spec cr 0); [lia|]. destruct (Z.leb_spec dr 0); [lia|]. cbn [orb].
  unfold u8tou64le. rewrite !load64_some by (rewrite ?skipn_length; lia). cbn [obind].
  change (skipn 0 k) with k. change (skipn 0 (skipn 8 k)) with (skipn 8 k).
  fold k0 k1. set (c := Z.to_nat cr). set (d := Z.to_nat dr).
  rewrite (absorb_ext 8 (pg_block cr) (fun s b => compress_n c s (le_load b)) pos8)
    by (intros; apply pg_block_eq).
  destruct dbl.
  - unfold sip_spec128.
    change (SV (s0 (spec_init k0 k1)) (N.lxor (s1 (spec_init k0 k1)) 238) (s2 (spec_init k0 k1))
     (s3 (spec_init k0 k1))) with (tosv (xor_v1_ee (sip_iv k0 k1))).
    pose proof (spec_absorb_eq c (xor_v1_ee (sip_iv k0 k1)) inp Hok) as E.
    replace (xor 8317987319222330741 k0, xor (xor 7237128888997146477 k1) 238,
       xor 7816392313619706465 k0, xor 8387220255154660723 k1) with (xor_v1_ee (sip_iv k0 k1)).
    2:{ unfold xor_v1_ee, sip_iv, xor. rewrite !(N.lxor_comm k0), !(N.lxor_comm k1). reflexivity. }
    destruct (absorb 8 _ (xor_v1_ee (sip_iv k0 k1)) inp) as [[[[v0 v1] v2] v3] r]. rewrite E.
    unfold compress_n. rewrite !pg_rounds_eq. fold c d.
    destruct (Nat.iter c sip_round _) as [[[a' b'] c'] d']. cbn [tosv s0 s1 s2 s3].
    change (SV ?a ?b (N.lxor ?c 238) ?d) with (tosv (a, b, xor c 238, d)).
    rewrite spec_rounds_eq, spec_out_eq, pg_rounds_eq. fold d.
    destruct (Nat.iter d sip_round _) as [[[a2 b2] c2] d2]. cbn [tosv s0 s1 s2 s3].
    change (SV ?a (N.lxor ?b 221) ?c ?d) with (tosv (a, xor b 221, c, d)).
    rewrite spec_rounds_eq, spec_out_eq, pg_rounds_eq. fold d.
    destruct (Nat.iter d sip_round (a2, _, c2, d2)) as [[[a3 b3] c3] d3]. reflexivity.
  - unfold sip_spec.
    change (spec_init k0 k1) with (tosv (sip_iv k0 k1)).
    pose proof (spec_absorb_eq c (sip_iv k0 k1) inp Hok) as E.
    replace (xor 8317987319222330741 k0, xor 7237128888997146477 k1,
       xor 7816392313619706465 k0, xor 8387220255154660723 k1) with (sip_iv k0 k1).
    2:{ unfold sip_iv, xor. rewrite !(N.lxor_comm k0), !(N.lxor_comm k1). reflexivity. }
    destruct (absorb 8 _ (sip_iv k0 k1) inp) as [[[[v0 v1] v2] v3] r]. rewrite E.
    unfold compress_n. rewrite !pg_rounds_eq. fold c d.
    destruct (Nat.iter c sip_round _) as [[[a' b'] c'] d']. cbn [tosv s0 s1 s2 s3].
    change (SV ?a ?b (N.lxor ?c 255) ?d) with (tosv (a, b, xor c 255, d)).
    rewrite spec_rounds_eq, spec_out_eq, pg_rounds_eq. fold d.
    destruct (Nat.iter d sip_round _) as [[[a2 b2] c2] d2]. reflexivity.
Qed.
