(** Proofs about package murmur3. *)
From Coq Require Import Btauto.
From Verif Require Import Words WordLemmas ListLemmas Blocks DigestSpec SLP Bij SipModel SipProofs BlockInj Mm3Model Mm3Spec.
Open Scope N_scope.

(** ** The buffer *)
Lemma mm_write_effect {S} B (f : S -> list N -> S) d p :
  (0 < B <= 16)%nat -> (mnt d < B)%nat -> length (mbuf d) = 16%nat ->
  let '(h, tail) := absorb B f (mh d) (mtail d ++ p) in
  exists buf, length buf = 16%nat /\ firstn (length tail) buf = tail /\
  mm_write B f d p = (mkMm (mclen d + N.of_nat (length p)) (length tail) buf h, length p).
Proof.
  intros [Bpos HB] Hnt Hbuf.
  assert (Htl : length (mtail d) = mnt d) by (unfold mtail; rewrite firstn_length; lia).
  (* the second half of Write *)
  assert (K : forall buf h q, length buf = 16%nat ->
    absorb B f (mh d) (mtail d ++ p) = absorb B f h q ->
    let '(h', tail) := absorb B f (mh d) (mtail d ++ p) in
    exists buf', length buf' = 16%nat /\ firstn (length tail) buf' = tail /\
    (let '(h, tail) := absorb B f h q in
     let '(buf, nn) := copy_at buf 0 tail in
     (mkMm (mclen d + N.of_nat (length p)) nn buf h, length p)) =
    (mkMm (mclen d + N.of_nat (length p)) (length tail) buf' h', length p)).
  { intros buf h q Hb ->. pose proof (absorb_rest_lt B f Bpos h q) as Hr.
    destruct (absorb B f h q) as [h' tail]. cbn [snd] in Hr.
    destruct (copy_at buf 0 tail) as [buf' nn] eqn:E.
    destruct (copy_at_part buf 0 tail buf' nn ltac:(lia) E) as (-> & H1 & H2).
    exists buf'. rewrite H1, Hb. split; [reflexivity|]. split; [exact H2|reflexivity]. }
  unfold mm_write. destruct (Nat.ltb_spec 0 (mnt d)) as [H0|H0].
  - destruct (Nat.ltb_spec (B - mnt d) (length p)) as [H1|H1].
    + assert (Hq : length (firstn (B - mnt d) p) = (B - mnt d)%nat) by (rewrite firstn_length; lia).
      destruct (copy_at (mbuf d) (mnt d) (firstn (B - mnt d) p)) as [buf c] eqn:E.
      destruct (copy_at_part (mbuf d) (mnt d) (firstn (B - mnt d) p) buf c ltac:(rewrite Hq; lia) E) as (_ & L1 & L2).
      rewrite Hq in L2. rewrite L2. fold (mtail d).
      rewrite (absorb_step B f Bpos (mh d) (mtail d ++ firstn (B - mnt d) p))
        by (rewrite app_length, Htl, Hq; lia).
      assert (Hbl : length (mtail d ++ firstn (B - mnt d) p) = B) by (rewrite app_length, Htl, Hq; lia).
      rewrite (firstn_all2 (mtail d ++ _)), (skipn_all2 (mtail d ++ _)) by lia.
      rewrite (absorb_short B f Bpos _ []) by (cbn; lia).
      apply K; [lia|].
      rewrite <- (firstn_skipn (B - mnt d) p) at 1. rewrite app_assoc.
      now rewrite (absorb_block B f Bpos).
    + destruct (copy_at (mbuf d) (mnt d) p) as [buf c] eqn:E.
      destruct (copy_at_part (mbuf d) (mnt d) p buf c ltac:(lia) E) as (_ & L1 & L2).
      rewrite L2. apply K; [lia|reflexivity].
  - apply K; auto. f_equal. unfold mtail. replace (mnt d) with 0%nat by lia. reflexivity.
Qed.

Definition MmInv {S} (B : nat) (f : S -> list N -> S) (h0 : S) (d : mdigest S) (x : list N) : Prop :=
  mclen d = N.of_nat (length x) /\ length (mbuf d) = 16%nat /\ (mnt d < B)%nat /\
  absorb B f h0 x = (mh d, mtail d).

Lemma mm_new_inv {S} B f (h0 : S) : (0 < B)%nat -> MmInv B f h0 (mm_new h0) [].
Proof. intros HB. repeat split; auto. Qed.
Lemma mm_reset_inv {S} B f (h0 : S) d x : (0 < B)%nat -> MmInv B f h0 d x -> MmInv B f h0 (mm_reset h0 d) [].
Proof. intros HB (_ & H & _). repeat split; auto. Qed.
Lemma mm_write_inv {S} B f (h0 : S) d x p : (0 < B <= 16)%nat -> MmInv B f h0 d x ->
  MmInv B f h0 (fst (mm_write B f d p)) (x ++ p) /\ snd (mm_write B f d p) = length p.
Proof.
  intros HB (H1 & H2 & H3 & H4).
  pose proof (mm_write_effect B f d p HB H3 H2) as E.
  pose proof (absorb_rest_lt B f (proj1 HB) (mh d) (mtail d ++ p)) as Hlt.
  pose proof (absorb_app B f (proj1 HB) h0 x p) as A. rewrite H4 in A.
  destruct (absorb B f (mh d) (mtail d ++ p)) as [h tail]. cbn [snd] in Hlt.
  destruct E as (buf & B1 & B2 & ->). cbn [fst snd]. split; [|reflexivity].
  repeat split; cbn [mclen mbuf mnt mh]; auto.
  - rewrite H1, app_length. lia.
  - rewrite A. unfold mtail. cbn [mnt mbuf]. now rewrite B2.
Qed.

Lemma mm_sum32_inv d x : MmInv 4 mm32_block 0 d x -> mm_dsum32 d = mm_sum32 x.
Proof. intros (H1 & _ & _ & H4). unfold mm_dsum32, mm_sum32. now rewrite H4, H1. Qed.
Lemma mm_sum128_inv d x : MmInv 16 mm128_block (0, 0) d x -> mm_dsum128 d = mm_sum128 x.
Proof. intros (H1 & _ & _ & H4). unfold mm_dsum128, mm_sum128. now rewrite H4, H1. Qed.

(** The three digests as objects. *)
Definition mm_history32 := run_history mm_write32 (fun d i => (d, mm_sum_bytes32 d i)) (fun d => (d, mm_dsum32 d)) (mm_reset 0).
Definition mm_history64 := run_history mm_write128 (fun d i => (d, mm_sum_bytes64 d i)) (fun d => (d, mm_dsum64 d)) (mm_reset (0, 0)).
Definition mm_history128 := run_history mm_write128 (fun d i => (d, mm_sum_bytes128 d i)) (fun d => (d, mm_dsum128 d)) (mm_reset (0, 0)).

(** The registers after the full blocks of a message. *)
Definition mm_regs32 (m : list N) : N := fst (absorb 4 mm32_block 0 m).
Definition mm_regs128 (m : list N) : N * N := fst (absorb 16 mm128_block (0, 0) m).

Lemma mm_history32_correct ops : Forall dop_ok ops ->
  mm_history32 mm_new32 ops = spec_history (fun m => be_store 4 (mm_regs32 m)) mm_sum32 [] ops.
Proof.
  intros H. unfold mm_history32.
  apply (run_history_correct _ _ _ _ _ _ (MmInv 4 mm32_block 0) true); auto.
  - intros. apply mm_write_inv; [lia|assumption].
  - intros d x i Hi. cbn. split; [assumption|]. unfold mm_sum_bytes32, mm_regs32.
    destruct Hi as (_ & _ & _ & ->). reflexivity.
  - intros _ d x Hi. cbn. split; [assumption|now apply mm_sum32_inv].
  - intros. eapply mm_reset_inv; eauto; lia.
  - apply mm_new_inv. lia.
Qed.
Lemma mm_history128_correct ops : Forall dop_ok ops ->
  mm_history128 mm_new128 ops =
  spec_history (fun m => be_store 8 (fst (mm_regs128 m)) ++ be_store 8 (snd (mm_regs128 m))) mm_sum128 [] ops.
Proof.
  intros H. unfold mm_history128.
  apply (run_history_correct _ _ _ _ _ _ (MmInv 16 mm128_block (0, 0)) true); auto.
  - intros. apply mm_write_inv; [lia|assumption].
  - intros d x i Hi. cbn [fst snd]. split; [assumption|]. unfold mm_sum_bytes128, mm_regs128.
    destruct Hi as (_ & _ & _ & ->). cbn [fst]. now destruct (mh d).
  - intros _ d x Hi. cbn [fst snd]. split; [assumption|now apply mm_sum128_inv].
  - intros. eapply mm_reset_inv; eauto; lia.
  - apply mm_new_inv. lia.
Qed.
Lemma mm_history64_correct ops : Forall dop_ok ops ->
  mm_history64 mm_new64 ops = spec_history (fun m => be_store 8 (fst (mm_regs128 m))) mm_sum64 [] ops.
Proof.
  intros H. unfold mm_history64.
  apply (run_history_correct _ _ _ _ _ _ (MmInv 16 mm128_block (0, 0)) true); auto.
  - intros. apply mm_write_inv; [lia|assumption].
  - intros d x i Hi. cbn [fst snd]. split; [assumption|]. unfold mm_sum_bytes64, mm_regs128.
    destruct Hi as (_ & _ & _ & ->). cbn [fst]. now destruct (mh d).
  - intros _ d x Hi. cbn [fst snd]. split; [assumption|]. unfold mm_dsum64, mm_sum64.
    now rewrite (mm_sum128_inv _ _ Hi).
  - intros. eapply mm_reset_inv; eauto; lia.
  - apply mm_new_inv. lia.
Qed.

(** ** Equality with the reference *)
Lemma land_disjoint_add a b : N.land a b = 0 -> N.lor a b = a + b.
Proof. intros H. rewrite <- N.lxor_lor by assumption. symmetry. now apply N.add_nocarry_lxor. Qed.
Lemma rol_rotl w x k : fits w x -> k <= w -> rol w x k = rotlw w x k.
Proof.
  intros Hx Hk. unfold rol, rotlw. rewrite land_disjoint_add.
  - unfold shlw, shr. now rewrite wrap_mod, N.shiftl_mul_pow2, N.shiftr_div_pow2.
  - apply N.bits_inj. intro i. rewrite N.bits_0, N.land_spec, shlw_testbit, shr_testbit.
    destruct (N.ltb_spec i w); cbn [andb]; auto. destruct (N.leb_spec k i); cbn [andb]; auto.
    rewrite (fits_high w x (i + (w - k)) Hx) by lia. apply andb_false_r.
Qed.
Lemma xsr_eq k x : xsr k x = xor x (shr x k).
Proof. unfold xsr, xor, shr. now rewrite N.shiftr_div_pow2. Qed.
Lemma le_int_load l : bytes_ok l -> le_int l = le_load l.
Proof.
  induction l as [|b l IH]; intros H; auto. pose proof H as H'. inversion H; subst.
  rewrite (le_load_cons b l H'). cbn [le_int]. now rewrite IH.
Qed.

Lemma fold_blocks {S} (f : S -> list N -> S) B m s : (0 < B)%nat ->
  (let '(bs, r) := blocks B m in (fold_left f bs s, r)) = absorb B f s m.
Proof.
  intros HB. unfold blocks.
  assert (G : forall n s m, (length m <= n)%nat -> (let '(bs, r) := cut n B m in (fold_left f bs s, r)) = absorb B f s m).
  { clear s m. induction n as [|n IH]; intros s m Hn; cbn [cut].
    - rewrite (absorb_short B f HB) by lia. reflexivity.
    - destruct (Nat.ltb_spec (length m) B).
      + now rewrite (absorb_short B f HB).
      + rewrite (absorb_step B f HB) by assumption.
        rewrite <- (IH _ (skipn B m)) by (rewrite skipn_length; lia).
        now destruct (cut n B (skipn B m)). }
  apply G. lia.
Qed.
Lemma blocks_ok B m : (0 < B)%nat -> bytes_ok m ->
  Forall (fun b => bytes_ok b /\ length b = B) (fst (blocks B m)) /\ bytes_ok (snd (blocks B m)) /\ (length (snd (blocks B m)) < B)%nat.
Proof.
  intros HB. unfold blocks.
  assert (G : forall n m, (length m <= n)%nat -> bytes_ok m ->
    Forall (fun b => bytes_ok b /\ length b = B) (fst (cut n B m)) /\ bytes_ok (snd (cut n B m)) /\ (length (snd (cut n B m)) < B)%nat).
  { clear m. induction n as [|n IH]; intros m Hn Hok; cbn [cut].
    - cbn. repeat split; auto. lia.
    - destruct (Nat.ltb_spec (length m) B); [cbn; auto|].
      specialize (IH (skipn B m) ltac:(rewrite skipn_length; lia) (bytes_ok_skipn _ _ Hok)).
      destruct (cut n B (skipn B m)) as [bs r]. cbn [fst snd] in *. destruct IH as (I1 & I2 & I3).
      repeat split; auto. constructor; auto. split; [now apply bytes_ok_firstn|rewrite firstn_length; lia]. }
  intros Hok. apply G; auto.
Qed.

Lemma le_load_xor b r : byte_ok b -> le_load (b :: r) = N.lxor b (N.shiftl (le_load r) 8).
Proof.
  intros Hb. cbn [le_load]. symmetry. apply N.lxor_lor.
  apply N.bits_inj. intro i. rewrite N.bits_0, N.land_spec.
  destruct (N.lt_ge_cases i 8).
  - rewrite N.shiftl_spec_low by assumption. apply andb_false_r.
  - rewrite (fits_high 8 b i) by assumption. reflexivity.
Qed.
Lemma shl32_byte b k : byte_ok b -> k <= 24 -> shl32 b k = N.shiftl b k.
Proof.
  intros Hb Hk. apply wrap_small. unfold fits. rewrite N.shiftl_mul_pow2.
  apply N.lt_le_trans with (256 * 2 ^ k); [apply N.mul_lt_mono_pos_r; [apply pow2_pos|exact Hb]|].
  change 256 with (2 ^ 8). rewrite <- N.pow_add_r. apply N.pow_le_mono_r; lia.
Qed.

Lemma mm32_k1_0 : mm32_k1 0 = 0. Proof. reflexivity. Qed.
Lemma mm128_k_0 : mm128_k1 0 = 0 /\ mm128_k2 0 = 0. Proof. split; reflexivity. Qed.

Ltac inv_bytes2 := repeat match goal with
  | H : bytes_ok (?b :: ?q) |- _ => let H1 := fresh in assert (H1 : byte_ok b) by exact (Forall_inv H);
      apply Forall_inv_tail in H; change (bytes_ok q) in H end.

(** Proves that xors of shifted bytes are the little-endian load of the bytes. *)
Ltac xor_load :=
  unfold xor, shl32, shl64 in *; rewrite ?le_load_xor by (assumption || reflexivity); cbn [le_load];
  rewrite ?N.shiftl_lxor, ?N.shiftl_shiftl, ?N.shiftl_0_l, ?N.shiftl_0_r, ?N.lxor_0_l, ?N.lxor_0_r;
  cbn [N.add Pos.add Pos.succ Pos.add_carry];
  apply N.bits_inj; intro; rewrite ?N.lxor_spec; try reflexivity; btauto.

Ltac case_label := match goal with
  | |- context [N.land ?a ?b] => let v := eval vm_compute in (N.land a b) in change (N.land a b) with v end; cbv iota.

Lemma shl64_byte' b k : byte_ok b -> k <= 56 -> shl64 b k = N.shiftl b k.
Proof.
  intros Hb Hk. apply wrap_small. unfold fits. rewrite N.shiftl_mul_pow2.
  apply N.lt_le_trans with (256 * 2 ^ k); [apply N.mul_lt_mono_pos_r; [apply pow2_pos|exact Hb]|].
  change 256 with (2 ^ 8). rewrite <- N.pow_add_r. apply N.pow_le_mono_r; lia.
Qed.

Lemma mm32_tail_correct h1 r : (length r < 4)%nat -> bytes_ok r ->
  mm32_tail h1 r = xor h1 (mm32_k1 (le_load (pad0 4 r))).
Proof.
  intros Hl Hr. unfold mm32_tail, pad0.
  destruct r as [|b0 r].
  { cbn. now rewrite N.lxor_0_r. }
  destruct r as [|b1 r]; [|destruct r as [|b2 r]; [|destruct r as [|b3 r]; [|cbn in Hl; lia]]];
    inv_bytes2; cbn [length Nat.sub repeat app nth]; case_label;
    rewrite ?shl32_byte by (assumption || lia); f_equal; f_equal; xor_load.
Qed.

Lemma mm128_tail_correct h1 h2 r : (length r < 16)%nat -> bytes_ok r ->
  mm128_tail (h1, h2) r =
  (xor h1 (mm128_k1 (le_load (firstn 8 (pad0 16 r)))), xor h2 (mm128_k2 (le_load (skipn 8 (pad0 16 r))))).
Proof.
  intros Hl Hr. unfold mm128_tail, pad0.
  assert (Z : forall h, xor h (mm128_k2 0) = h) by (intros; apply N.lxor_0_r).
  do 16 (let b := fresh "b" in destruct r as [|b r];
   [inv_bytes2; cbn [length Nat.sub repeat app nth firstn skipn]; case_label;
    rewrite ?shl64_byte' by (assumption || lia); (apply f_equal2;
    [first [ f_equal; f_equal; solve [xor_load] | cbn; now rewrite N.lxor_0_r ]
    |first [ symmetry; apply Z | f_equal; f_equal; solve [xor_load] ]])|]).
  cbn in Hl. lia.
Qed.

(** Ranges. *)
Ltac fits_tac := unfold add32, mul32, sub32, add64, mul64, sub64, shl32, shl64 in *;
  repeat first [ assumption | apply wrap_fits | apply addw_fits | apply mulw_fits | apply subw_fits | apply shlw_fits
  | apply xor_fits' | apply xor_fits | apply lor_fits | apply rotlw_fits | apply rotrw_fits | apply shr_fits | apply fits_0 ].
Lemma mm32_block_fits h b : fits 32 (mm32_block h b). Proof. apply addw_fits. Qed.
Lemma mm32_k1_fits k : fits 32 (mm32_k1 k). Proof. apply mulw_fits. Qed.
Lemma mm128_k1_fits k : fits 64 (mm128_k1 k). Proof. apply mulw_fits. Qed.
Lemma mm128_k2_fits k : fits 64 (mm128_k2 k). Proof. apply mulw_fits. Qed.
Definition pair_ok (h : N * N) : Prop := fits 64 (fst h) /\ fits 64 (snd h).
Lemma mm128_block_fits h b : pair_ok (mm128_block h b).
Proof. destruct h. split; apply addw_fits. Qed.

(** Pieces of the specification. *)
Lemma spec32_k_eq k : spec32_k k = mm32_k1 k.
Proof.
  unfold spec32_k, mm32_k1. rewrite rol_rotl.
  - unfold mul32. now rewrite !mulw_mod.
  - rewrite <- mulw_mod. apply mulw_fits.
  - lia.
Qed.
Lemma spec128_k1_eq k : spec128_k1 k = mm128_k1 k.
Proof.
  unfold spec128_k1, mm128_k1. rewrite rol_rotl.
  - unfold mul64. now rewrite !mulw_mod.
  - rewrite <- mulw_mod. apply mulw_fits.
  - lia.
Qed.
Lemma spec128_k2_eq k : spec128_k2 k = mm128_k2 k.
Proof.
  unfold spec128_k2, mm128_k2. rewrite rol_rotl.
  - unfold mul64. now rewrite !mulw_mod.
  - rewrite <- mulw_mod. apply mulw_fits.
  - lia.
Qed.
Lemma spec32_body_eq h b : fits 32 h -> bytes_ok b -> spec32_body h b = mm32_block h b.
Proof.
  intros Hh Hb. unfold spec32_body, mm32_block. rewrite le_int_load, spec32_k_eq by assumption.
  assert (F : fits 32 (N.lxor h (mm32_k1 (le_load b)))) by (apply xor_fits; auto using mm32_k1_fits).
  rewrite rol_rotl by (assumption || lia).
  unfold add32, mul32. rewrite addw_mod, mulw_mod. rewrite N.mul_comm.
  rewrite N.add_mod_idemp_l by apply pow2_nz. reflexivity.
Qed.
Lemma spec128_body_eq h b : pair_ok h -> bytes_ok b -> spec128_body h b = mm128_block h b.
Proof.
  destruct h as [h1 h2]. intros [H1 H2] Hb. cbn [fst snd] in H1, H2. unfold spec128_body, mm128_block. cbn [fst snd].
  rewrite !le_int_load by auto using bytes_ok_firstn, bytes_ok_skipn.
  rewrite spec128_k1_eq, spec128_k2_eq.
  assert (F1 : fits 64 (N.lxor h1 (mm128_k1 (le_load (firstn 8 b))))) by (apply xor_fits; auto using mm128_k1_fits).
  assert (F2 : fits 64 (N.lxor h2 (mm128_k2 (le_load (skipn 8 b))))) by (apply xor_fits; auto using mm128_k2_fits).
  rewrite !rol_rotl by (assumption || lia).
  unfold rotlw, add64, mul64, xor, shl64. rewrite !addw_mod, !mulw_mod.
  rewrite !(N.mul_comm 5). rewrite !N.add_mod_idemp_l by apply pow2_nz. reflexivity.
Qed.
Lemma spec32_fmix_eq h : spec32_fmix h = mm32_fmix h.
Proof. unfold spec32_fmix, mm32_fmix, mul32. now rewrite !xsr_eq, !mulw_mod. Qed.
Lemma spec128_fmix_eq h : spec128_fmix h = fmix64 h.
Proof. unfold spec128_fmix, fmix64, mul64. now rewrite !xsr_eq, !mulw_mod. Qed.

Lemma fold_body_eq {S} (P : S -> Prop) (Q : list N -> Prop) (f g : S -> list N -> S) l :
  (forall s b, P s -> Q b -> f s b = g s b) -> (forall s b, P s -> Q b -> P (g s b)) ->
  Forall Q l -> forall s, P s -> fold_left f l s = fold_left g l s /\ P (fold_left g l s).
Proof.
  intros H1 H2. induction 1 as [|b l Hb _ IH]; intros s Hs; cbn [fold_left]; auto.
  rewrite H1 by assumption. apply IH. auto.
Qed.

Lemma pad0_ok B r : bytes_ok r -> bytes_ok (pad0 B r).
Proof. intros H. unfold pad0. apply bytes_ok_app. split; auto. apply repeat0_ok. Qed.

Lemma mm_sum32_reference m : bytes_ok m -> mm_sum32 m = murmur3_x86_32 m.
Proof.
  intros Hm. unfold mm_sum32, murmur3_x86_32. rewrite <- fold_blocks by lia.
  destruct (blocks_ok 4 m ltac:(lia) Hm) as (B1 & B2 & B3).
  destruct (blocks 4 m) as [bs r]. cbn [fst snd] in *.
  destruct (fold_body_eq (fits 32) (fun b => bytes_ok b /\ length b = 4%nat) spec32_body mm32_block bs) with (s := 0) as [E F]; auto.
  - intros s b Hs [Hb _]. now apply spec32_body_eq.
  - intros. apply mm32_block_fits.
  - apply fits_0.
  - rewrite E, mm32_tail_correct, spec32_fmix_eq, spec32_k_eq, le_int_load by auto using pad0_ok.
    unfold xor. now rewrite wrap_mod.
Qed.
Lemma mm_sum128_reference m : bytes_ok m -> mm_sum128 m = murmur3_x64_128 m.
Proof.
  intros Hm. unfold mm_sum128, murmur3_x64_128. rewrite <- fold_blocks by lia.
  destruct (blocks_ok 16 m ltac:(lia) Hm) as (B1 & B2 & B3).
  destruct (blocks 16 m) as [bs r]. cbn [fst snd] in *.
  destruct (fold_body_eq pair_ok (fun b => bytes_ok b /\ length b = 16%nat) spec128_body mm128_block bs) with (s := (0, 0)) as [E F]; auto.
  - intros s b Hs [Hb _]. now apply spec128_body_eq.
  - intros. apply mm128_block_fits.
  - split; apply fits_0.
  - rewrite E. destruct (fold_left mm128_block bs (0, 0)) as [h1 h2].
    rewrite mm128_tail_correct, !spec128_fmix_eq, !spec128_k1_eq, !spec128_k2_eq, !le_int_load
      by auto using pad0_ok, bytes_ok_firstn, bytes_ok_skipn.
    unfold mm128_final, xor, add64. now rewrite !addw_mod, !wrap_mod.
Qed.

(** ** Bijections *)
Lemma exec_inj w n p st st' : reversible w n p = true -> regs_ok w n st -> regs_ok w n st' ->
  exec w p st = exec w p st' -> st = st'.
Proof. intros H H1 H2. exact (bij_inj _ _ (exec_bijection w n p H) st st' H1 H2). Qed.
Lemma bij_1reg w p f : reversible w 1 p = true -> (forall x, exec w p [x] = [f x]) -> bijection_on (fits w) f.
Proof.
  intros R E. apply (bij_transfer (fits w) (regs_ok w 1) (fun x => [x]) (fun l => nth 0 l 0) f (exec w p)).
  - intros x Hx. split; auto.
  - intros l [Hl Hf]. destruct l as [|x [|]]; try discriminate. inversion Hf; subst. auto.
  - reflexivity.
  - intros. now rewrite E.
  - intros x Hx. destruct (proj1 (exec_bijection w 1 p R) [x]) as [_ F].
    + split; auto.
    + rewrite E in F. now inversion F.
  - now apply exec_bijection.
Qed.

Definition xs0 k := Set_ 0 (E2 BXor (EV 0) (E1 (UShr k) (EV 0))).
Definition mu0 c := Set_ 0 (E2 BMul (EV 0) (EC c)).
Definition ad0 c := Set_ 0 (E2 BAdd (EV 0) (EC c)).
Definition ro0 k := Set_ 0 (E1 (URotl k) (EV 0)).
Lemma mm32_fmix_bij : bijection_on (fits 32) mm32_fmix.
Proof. apply (bij_1reg 32 [xs0 16; mu0 0x85ebca6b; xs0 13; mu0 0xc2b2ae35; xs0 16]); [vm_compute; reflexivity|reflexivity]. Qed.
Lemma fmix64_bij : bijection_on (fits 64) fmix64.
Proof. apply (bij_1reg 64 [xs0 33; mu0 0xff51afd7ed558ccd; xs0 33; mu0 0xc4ceb9fe1a85ec53; xs0 33]); [vm_compute; reflexivity|reflexivity]. Qed.
Lemma mm32_k1_bij : bijection_on (fits 32) mm32_k1.
Proof. apply (bij_1reg 32 [mu0 c1_32; ro0 15; mu0 c2_32]); [vm_compute; reflexivity|reflexivity]. Qed.
Lemma mm128_k1_bij : bijection_on (fits 64) mm128_k1.
Proof. apply (bij_1reg 64 [mu0 c1_128; ro0 31; mu0 c2_128]); [vm_compute; reflexivity|reflexivity]. Qed.
Lemma mm128_k2_bij : bijection_on (fits 64) mm128_k2.
Proof. apply (bij_1reg 64 [mu0 c2_128; ro0 33; mu0 c1_128]); [vm_compute; reflexivity|reflexivity]. Qed.

(** The 32-bit block step as a bijection [mm32_g] of [h1 ^ k1]. *)
Definition mm32_g (x : N) : N := add32 (mul32 (N.lor (shl32 x 13) (shr x 19)) 5) 0xe6546b64.
Lemma mm32_g_bij : bijection_on (fits 32) mm32_g.
Proof. apply (bij_1reg 32 [ro0 13; mu0 5; ad0 0xe6546b64]); [vm_compute; reflexivity|reflexivity]. Qed.
Lemma mm32_block_g h b : mm32_block h b = mm32_g (xor h (mm32_k1 (le_load b))).
Proof. reflexivity. Qed.

Lemma le_load4_fits b : bytes_ok b -> length b = 4%nat -> fits 32 (le_load b).
Proof. intros H L. apply le_load_fits; auto. rewrite L. reflexivity. Qed.
Lemma le_load8_fits b : bytes_ok b -> length b = 8%nat -> fits 64 (le_load b).
Proof. intros H L. apply le_load_fits; auto. rewrite L. reflexivity. Qed.
Lemma xor_inj_l a b c : xor c a = xor c b -> a = b.
Proof. unfold xor. rewrite !(N.lxor_comm c). apply lxor_inj_r. Qed.
Lemma xor_inj_r a b c : xor a c = xor b c -> a = b.
Proof. apply lxor_inj_r. Qed.
Lemma pad0_length B r : (length r <= B)%nat -> length (pad0 B r) = B.
Proof. intros H. unfold pad0. rewrite app_length, repeat_length. lia. Qed.
Lemma pad0_inj B r r' : length r = length r' -> pad0 B r = pad0 B r' -> r = r'.
Proof.
  unfold pad0. intros L E. rewrite L in E. apply (f_equal (firstn (length r))) in E.
  rewrite !firstn_app, L, Nat.sub_diag in E. cbn [firstn] in E. rewrite !app_nil_r in E.
  rewrite <- L, firstn_all in E. now rewrite L, firstn_all in E.
Qed.

(** Sum32 of equal-length messages differing inside one aligned 4-byte block. *)
Lemma mm_sum32_no_collision m m' i : bytes_ok m -> bytes_ok m' -> differ_in_block 4 i m m' -> mm_sum32 m <> mm_sum32 m'.
Proof.
  intros Hm Hm' D.
  assert (L : length m = length m') by apply D.
  pose (fin := fun h r => mm32_fmix (xor (mm32_tail h r) (wrap 32 (N.of_nat (length m))))).
  assert (E : forall x, length x = length m -> mm_sum32 x = block_hash 4 mm32_block fin 0 x).
  { intros x Hx. unfold mm_sum32, block_hash, fin. rewrite Hx. reflexivity. }
  rewrite !E by auto.
  assert (FI : forall x y, fits 32 x -> fits 32 y ->
     mm32_fmix (xor x (wrap 32 (N.of_nat (length m)))) = mm32_fmix (xor y (wrap 32 (N.of_nat (length m)))) -> x = y).
  { intros x y Hx Hy K. apply (bij_inj _ _ mm32_fmix_bij) in K; [|apply xor_fits'; auto using wrap_fits..].
    now apply xor_inj_r in K. }
  apply (block_hash_no_collision 4 ltac:(lia) (fits 32) mm32_block fin) with (i := i); auto.
  - intros. apply mm32_block_fits.
  - intros s s' b Hs Hs' Hb Lb K. rewrite !mm32_block_g in K.
    apply (bij_inj _ _ mm32_g_bij) in K; [|apply xor_fits'; auto using mm32_k1_fits..].
    now apply xor_inj_r in K.
  - intros s b b' Hs Hb Hb' Lb Lb' K. rewrite !mm32_block_g in K.
    apply (bij_inj _ _ mm32_g_bij) in K; [|apply xor_fits'; auto using mm32_k1_fits..].
    apply xor_inj_l in K. apply (bij_inj _ _ mm32_k1_bij) in K; auto using le_load4_fits.
    apply le_load_inj in K; congruence.
  - intros s s' r Hs Hs' Hr Lr K. unfold fin in K. rewrite !mm32_tail_correct in K by assumption.
    apply FI in K; try (apply xor_fits'; auto using mm32_k1_fits). now apply xor_inj_r in K.
  - intros s r r' Hs Hr Hr' Lr Lb K. unfold fin in K. rewrite !mm32_tail_correct in K by (assumption || lia).
    apply FI in K; try (apply xor_fits'; auto using mm32_k1_fits). apply xor_inj_l in K.
    assert (PL : length (pad0 4 r) = 4%nat /\ length (pad0 4 r') = 4%nat) by (split; apply pad0_length; lia).
    destruct PL as [P1 P2].
    apply (bij_inj _ _ mm32_k1_bij) in K; auto using le_load4_fits, pad0_ok.
    apply le_load_inj in K; auto using pad0_ok; try congruence. now apply pad0_inj in K.
  - apply fits_0.
Qed.

(** The 128-bit block step: registers h1 h2 k1 k2, where k1, k2 are scrambled. *)
Definition rxor d s := Set_ d (E2 BXor (EV d) (EV s)).
Definition radd d s := Set_ d (E2 BAdd (EV d) (EV s)).
Definition rrol d k := Set_ d (E1 (URotl k) (EV d)).
Definition rmul d c := Set_ d (E2 BMul (EV d) (EC c)).
Definition radc d c := Set_ d (E2 BAdd (EV d) (EC c)).
Definition rxsr d k := Set_ d (E2 BXor (EV d) (E1 (UShr k) (EV d))).
Definition mm128_prog : prog :=
  [rxor 0 2; rrol 0 27; radd 0 1; rmul 0 5; radc 0 0x52dce729;
   rxor 1 3; rrol 1 31; radd 1 0; rmul 1 5; radc 1 0x38495ab5].
Lemma mm128_block_prog h1 h2 b :
  exec 64 mm128_prog [h1; h2; mm128_k1 (le_load (firstn 8 b)); mm128_k2 (le_load (skipn 8 b))] =
  [fst (mm128_block (h1, h2) b); snd (mm128_block (h1, h2) b); mm128_k1 (le_load (firstn 8 b)); mm128_k2 (le_load (skipn 8 b))].
Proof. reflexivity. Qed.
(** The same with the roles exchanged: registers k1 k2 h1 h2. *)
Definition mm128_prog' : prog :=
  [rxor 0 2; rrol 0 27; radd 0 3; rmul 0 5; radc 0 0x52dce729;
   rxor 1 3; rrol 1 31; radd 1 0; rmul 1 5; radc 1 0x38495ab5].
Lemma mm128_block_prog' h1 h2 b :
  exec 64 mm128_prog' [mm128_k1 (le_load (firstn 8 b)); mm128_k2 (le_load (skipn 8 b)); h1; h2] =
  [fst (mm128_block (h1, h2) b); snd (mm128_block (h1, h2) b); h1; h2].
Proof.
  unfold mm128_prog', exec, mm128_block. cbn [fold_left step upd eval sem2 sem1 nth rxor rrol radd rmul radc fst snd].
  unfold xor at 1 3. rewrite !(N.lxor_comm (mm128_k1 _)), !(N.lxor_comm (mm128_k2 _)). reflexivity.
Qed.
Lemma mm128_block_inj_s h h' b : pair_ok h -> pair_ok h' -> mm128_block h b = mm128_block h' b -> h = h'.
Proof.
  destruct h as [h1 h2], h' as [h1' h2']. intros [H1 H2] [H1' H2'] E. cbn [fst snd] in *.
  pose proof (mm128_block_prog h1 h2 b) as P1. pose proof (mm128_block_prog h1' h2' b) as P2. rewrite E, <- P2 in P1.
  apply (exec_inj 64 4) in P1; [congruence|vm_compute; reflexivity|..]; (split; [reflexivity|]);
    repeat constructor; auto using mm128_k1_fits, mm128_k2_fits.
Qed.
Lemma mm128_block_inj_b h b b' : pair_ok h -> bytes_ok b -> bytes_ok b' -> length b = 16%nat -> length b' = 16%nat ->
  mm128_block h b = mm128_block h b' -> b = b'.
Proof.
  destruct h as [h1 h2]. intros [H1 H2] Hb Hb' L L' E. cbn [fst snd] in *.
  pose proof (mm128_block_prog' h1 h2 b) as P1. pose proof (mm128_block_prog' h1 h2 b') as P2. rewrite E, <- P2 in P1.
  apply (exec_inj 64 4) in P1; [|vm_compute; reflexivity|..].
  2,3: (split; [reflexivity|]); repeat constructor; auto using mm128_k1_fits, mm128_k2_fits.
  assert (K1 : mm128_k1 (le_load (firstn 8 b)) = mm128_k1 (le_load (firstn 8 b'))) by congruence.
  assert (K2 : mm128_k2 (le_load (skipn 8 b)) = mm128_k2 (le_load (skipn 8 b'))) by congruence.
  apply (bij_inj _ _ mm128_k1_bij) in K1; [|apply le_load8_fits; [now apply bytes_ok_firstn|rewrite firstn_length; lia]..].
  apply (bij_inj _ _ mm128_k2_bij) in K2; [|apply le_load8_fits; [now apply bytes_ok_skipn|rewrite skipn_length; lia]..].
  apply le_load_inj in K1; auto using bytes_ok_firstn; [|rewrite !firstn_length; lia].
  apply le_load_inj in K2; auto using bytes_ok_skipn; [|rewrite !skipn_length; lia].
  rewrite <- (firstn_skipn 8 b), <- (firstn_skipn 8 b'). congruence.
Qed.
(** The end of Sum128 as a program on h1, h2 and the length. *)
Definition mm128_final_prog : prog :=
  let fm d := [rxsr d 33; rmul d 0xff51afd7ed558ccd; rxsr d 33; rmul d 0xc4ceb9fe1a85ec53; rxsr d 33] in
  [rxor 0 2; rxor 1 2; radd 0 1; radd 1 0] ++ fm 0%nat ++ fm 1%nat ++ [radd 0 1; radd 1 0].
Lemma mm128_final_inj h h' n : pair_ok h -> pair_ok h' -> mm128_final h n = mm128_final h' n -> h = h'.
Proof.
  destruct h as [h1 h2], h' as [h1' h2']. intros [H1 H2] [H1' H2'] E. cbn [fst snd] in *.
  assert (P : forall a b, exec 64 mm128_final_prog [a; b; wrap 64 n] = [fst (mm128_final (a, b) n); snd (mm128_final (a, b) n); wrap 64 n])
    by reflexivity.
  pose proof (P h1 h2) as P1. rewrite E, <- P in P1.
  apply (exec_inj 64 3) in P1; [congruence|vm_compute; reflexivity|..]; (split; [reflexivity|]);
    repeat constructor; auto using wrap_fits.
Qed.
Lemma mm_sum128_no_collision m m' i : bytes_ok m -> bytes_ok m' -> differ_in_block 16 i m m' -> mm_sum128 m <> mm_sum128 m'.
Proof.
  intros Hm Hm' D.
  assert (L : length m = length m') by apply D.
  pose (fin := fun h r => mm128_final (mm128_tail h r) (N.of_nat (length m))).
  assert (E : forall x, length x = length m -> mm_sum128 x = block_hash 16 mm128_block fin (0, 0) x).
  { intros x Hx. unfold mm_sum128, block_hash, fin. rewrite Hx. reflexivity. }
  rewrite !E by auto.
  assert (TF : forall h r, pair_ok h -> (length r < 16)%nat -> bytes_ok r -> pair_ok (mm128_tail h r)).
  { intros [h1 h2] r [F1 F2] Lr Hr. rewrite mm128_tail_correct by assumption. split; cbn [fst snd] in *;
      apply xor_fits'; auto using mm128_k1_fits, mm128_k2_fits. }
  apply (block_hash_no_collision 16 ltac:(lia) pair_ok mm128_block fin) with (i := i); auto.
  - intros. apply mm128_block_fits.
  - intros. eapply mm128_block_inj_s; eauto.
  - intros s b b' Hs Hb Hb' Lb Lb' K. eapply mm128_block_inj_b; eauto.
  - intros s s' r Hs Hs' Hr Lr K. unfold fin in K. apply mm128_final_inj in K; auto.
    destruct s as [h1 h2], s' as [h1' h2']. rewrite !mm128_tail_correct in K by assumption.
    apply pair_equal_spec in K; destruct K as [K1 K2]. apply xor_inj_r in K1, K2. congruence.
  - intros s r r' Hs Hr Hr' Lr Lb K. unfold fin in K. apply mm128_final_inj in K; auto; [|apply TF; auto; lia].
    destruct s as [h1 h2]. rewrite !mm128_tail_correct in K by (assumption || lia).
    apply pair_equal_spec in K; destruct K as [K1 K2]. apply xor_inj_l in K1, K2.
    assert (P1 : length (pad0 16 r) = 16%nat) by (apply pad0_length; lia).
    assert (P2 : length (pad0 16 r') = 16%nat) by (apply pad0_length; lia).
    apply (bij_inj _ _ mm128_k1_bij) in K1;
      [|apply le_load8_fits; [now apply bytes_ok_firstn, pad0_ok|rewrite firstn_length; lia]..].
    apply (bij_inj _ _ mm128_k2_bij) in K2;
      [|apply le_load8_fits; [now apply bytes_ok_skipn, pad0_ok|rewrite skipn_length; lia]..].
    apply le_load_inj in K1; auto using bytes_ok_firstn, pad0_ok; [|rewrite !firstn_length; lia].
    apply le_load_inj in K2; auto using bytes_ok_skipn, pad0_ok; [|rewrite !skipn_length; lia].
    apply (pad0_inj 16); auto. rewrite <- (firstn_skipn 8 (pad0 16 r)), <- (firstn_skipn 8 (pad0 16 r')). congruence.
  - split; apply fits_0.
Qed.
