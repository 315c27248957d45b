(** Lemmas about Words.v (no model content here). *)
From Verif Require Import Words.

Lemma wrap_mod w x : wrap w x = x mod 2 ^ w.
Proof. unfold wrap. apply N.land_ones. Qed.

Lemma pow2_pos w : 0 < 2 ^ w.
Proof. apply N.neq_0_lt_0, N.pow_nonzero; discriminate. Qed.
Lemma pow2_nz w : 2 ^ w <> 0.
Proof. apply N.pow_nonzero; discriminate. Qed.

Lemma wrap_fits w x : fits w (wrap w x).
Proof. unfold fits. rewrite wrap_mod. apply N.mod_lt, pow2_nz. Qed.
Lemma wrap_small w x : fits w x -> wrap w x = x.
Proof. unfold fits. intros. rewrite wrap_mod. now apply N.mod_small. Qed.
Lemma wrap_wrap w x : wrap w (wrap w x) = wrap w x.
Proof. apply wrap_small, wrap_fits. Qed.

Lemma ones_pred w : N.ones w = 2 ^ w - 1.
Proof. rewrite N.ones_equiv. lia. Qed.
Lemma succ_ones w : N.succ (N.ones w) = 2 ^ w.
Proof. rewrite ones_pred. pose proof (pow2_pos w). lia. Qed.

Lemma subw_mod w a b : subw w a b = (a + (2 ^ w - b mod 2 ^ w)) mod 2 ^ w.
Proof.
  unfold subw. rewrite wrap_mod. f_equal. f_equal. rewrite wrap_mod.
  pose proof (N.mod_lt b (2^w) (pow2_nz w)). rewrite ones_pred. lia.
Qed.
Lemma addw_mod w a b : addw w a b = (a + b) mod 2 ^ w.
Proof. unfold addw. apply wrap_mod. Qed.
Lemma mulw_mod w a b : mulw w a b = (a * b) mod 2 ^ w.
Proof. unfold mulw. apply wrap_mod. Qed.

Lemma addw_fits w a b : fits w (addw w a b). Proof. apply wrap_fits. Qed.
Lemma subw_fits w a b : fits w (subw w a b). Proof. apply wrap_fits. Qed.
Lemma mulw_fits w a b : fits w (mulw w a b). Proof. apply wrap_fits. Qed.
Lemma shlw_fits w a b : fits w (shlw w a b). Proof. apply wrap_fits. Qed.

Lemma fits_testbit w x : fits w x <-> (forall i, w <= i -> N.testbit x i = false).
Proof.
  split.
  - intros H i Hi. rewrite <- (wrap_small _ _ H). unfold wrap.
    rewrite N.land_spec, N.ones_spec_high by lia. apply andb_false_r.
  - intros H. unfold fits. replace x with (wrap w x); [apply wrap_fits|].
    apply N.bits_inj. intro i. unfold wrap. rewrite N.land_spec.
    destruct (N.lt_ge_cases i w).
    + rewrite N.ones_spec_low by lia. apply andb_true_r.
    + rewrite N.ones_spec_high by lia. rewrite H by lia. reflexivity.
Qed.
Lemma fits_high w x i : fits w x -> w <= i -> N.testbit x i = false.
Proof. intros H; apply (proj1 (fits_testbit w x) H). Qed.
Lemma wrap_testbit w x i : N.testbit (wrap w x) i = (i <? w) && N.testbit x i.
Proof.
  unfold wrap. rewrite N.land_spec. destruct (N.ltb_spec i w).
  - rewrite N.ones_spec_low by lia. now rewrite andb_comm.
  - rewrite N.ones_spec_high by lia. apply andb_false_r.
Qed.

Lemma xor_fits w a b : fits w a -> fits w b -> fits w (N.lxor a b).
Proof. rewrite !fits_testbit. intros Ha Hb i Hi. rewrite N.lxor_spec, Ha, Hb by lia. reflexivity. Qed.
Lemma lor_fits w a b : fits w a -> fits w b -> fits w (N.lor a b).
Proof. rewrite !fits_testbit. intros Ha Hb i Hi. rewrite N.lor_spec, Ha, Hb by lia. reflexivity. Qed.
Lemma land_fits_l w a b : fits w a -> fits w (N.land a b).
Proof. rewrite !fits_testbit. intros Ha i Hi. rewrite N.land_spec, Ha by lia. reflexivity. Qed.
Lemma land_fits_r w a b : fits w b -> fits w (N.land a b).
Proof. rewrite !fits_testbit. intros Ha i Hi. rewrite N.land_spec, (Ha i) by lia. apply andb_false_r. Qed.
Lemma shr_fits w a k : fits w a -> fits w (shr a k).
Proof. rewrite !fits_testbit. intros Ha i Hi. unfold shr. rewrite N.shiftr_spec by lia. apply Ha. lia. Qed.
Lemma shr_fits' w a k : fits (w + k) a -> fits w (shr a k).
Proof. rewrite !fits_testbit. intros Ha i Hi. unfold shr. rewrite N.shiftr_spec by lia. apply Ha. lia. Qed.
Lemma ones_fits w : fits w (N.ones w).
Proof. rewrite fits_testbit. intros. apply N.ones_spec_high. lia. Qed.
Lemma notw_fits w a : fits w a -> fits w (notw w a).
Proof. intros. apply xor_fits; auto using ones_fits. Qed.
Lemma rotlw_fits w a k : fits w a -> fits w (rotlw w a k).
Proof. intros. apply lor_fits; auto using shlw_fits, shr_fits. Qed.
Lemma rotrw_fits w a k : fits w a -> fits w (rotrw w a k).
Proof. intros. apply lor_fits; auto using shlw_fits, shr_fits. Qed.
Lemma fits_le w w' x : w <= w' -> fits w x -> fits w' x.
Proof. unfold fits. intros H Hx. eapply N.lt_le_trans; [exact Hx|]. apply N.pow_le_mono_r; lia. Qed.
Lemma fits_0 w : fits w 0.
Proof. unfold fits. apply pow2_pos. Qed.

Create HintDb fits discriminated.
#[export] Hint Resolve wrap_fits addw_fits subw_fits mulw_fits shlw_fits xor_fits lor_fits
  land_fits_l shr_fits notw_fits rotlw_fits rotrw_fits fits_0 : fits.
Lemma add64_fits a b : fits 64 (add64 a b). Proof. apply wrap_fits. Qed.
Lemma sub64_fits a b : fits 64 (sub64 a b). Proof. apply wrap_fits. Qed.
Lemma mul64_fits a b : fits 64 (mul64 a b). Proof. apply wrap_fits. Qed.
Lemma shl64_fits a b : fits 64 (shl64 a b). Proof. apply wrap_fits. Qed.
Lemma add32_fits a b : fits 32 (add32 a b). Proof. apply wrap_fits. Qed.
Lemma sub32_fits a b : fits 32 (sub32 a b). Proof. apply wrap_fits. Qed.
Lemma mul32_fits a b : fits 32 (mul32 a b). Proof. apply wrap_fits. Qed.
Lemma shl32_fits a b : fits 32 (shl32 a b). Proof. apply wrap_fits. Qed.
Lemma rotl64_fits a k : fits 64 a -> fits 64 (rotl64 a k). Proof. apply rotlw_fits. Qed.
Lemma rotr64_fits a k : fits 64 a -> fits 64 (rotr64 a k). Proof. apply rotrw_fits. Qed.
Lemma rotl32_fits a k : fits 32 a -> fits 32 (rotl32 a k). Proof. apply rotlw_fits. Qed.
Lemma rotr32_fits a k : fits 32 a -> fits 32 (rotr32 a k). Proof. apply rotrw_fits. Qed.
Lemma not64_fits a : fits 64 a -> fits 64 (not64 a). Proof. apply notw_fits. Qed.
Lemma not32_fits a : fits 32 a -> fits 32 (not32 a). Proof. apply notw_fits. Qed.
Lemma xor_fits' w a b : fits w a -> fits w b -> fits w (xor a b). Proof. apply xor_fits. Qed.
#[export] Hint Resolve add64_fits sub64_fits mul64_fits shl64_fits add32_fits sub32_fits mul32_fits
  shl32_fits rotl64_fits rotr64_fits rotl32_fits rotr32_fits not64_fits not32_fits xor_fits' : fits.

(** Closed constants. *)
Ltac fits_const := unfold fits; vm_compute; reflexivity.

(** ** The additive group *)
Lemma addw_comm w a b : addw w a b = addw w b a.
Proof. unfold addw. now rewrite N.add_comm. Qed.
Lemma addw_assoc w a b c : addw w a (addw w b c) = addw w (addw w a b) c.
Proof.
  rewrite !addw_mod. rewrite N.add_mod_idemp_r, N.add_mod_idemp_l by apply pow2_nz.
  now rewrite N.add_assoc.
Qed.
Lemma addw_0_r w a : fits w a -> addw w a 0 = a.
Proof. intros. unfold addw. rewrite N.add_0_r. now apply wrap_small. Qed.
Lemma addw_0_l w a : fits w a -> addw w 0 a = a.
Proof. intros. rewrite addw_comm. now apply addw_0_r. Qed.
Lemma addw_wrap_l w a b : addw w (wrap w a) b = addw w a b.
Proof. rewrite !addw_mod, wrap_mod. apply N.add_mod_idemp_l, pow2_nz. Qed.
Lemma addw_wrap_r w a b : addw w a (wrap w b) = addw w a b.
Proof. rewrite !addw_mod, wrap_mod. apply N.add_mod_idemp_r, pow2_nz. Qed.
Lemma subw_wrap_r w a b : subw w a (wrap w b) = subw w a b.
Proof. unfold subw. now rewrite wrap_wrap. Qed.
Lemma subw_wrap_l w a b : subw w (wrap w a) b = subw w a b.
Proof. rewrite !subw_mod, wrap_mod. apply N.add_mod_idemp_l, pow2_nz. Qed.

Lemma sub_add_w w a b : fits w a -> subw w (addw w a b) b = a.
Proof.
  intros Ha. rewrite subw_mod, addw_mod.
  rewrite <- (N.mod_small a (2^w) Ha) at 2.
  rewrite N.add_mod_idemp_l by apply pow2_nz.
  pose proof (N.mod_lt b (2^w) (pow2_nz w)) as Hb.
  pose proof (N.div_mod' b (2^w)) as Hd.
  replace (a + b + (2^w - b mod 2^w)) with (a + (b / 2^w + 1) * 2^w).
  - apply N.mod_add, pow2_nz.
  - rewrite N.mul_add_distr_r. set (q := b / 2^w) in *.
    replace (q * 2^w) with (b - b mod 2^w); [lia|]. rewrite Hd at 1. lia.
Qed.
Lemma add_sub_w w a b : fits w a -> addw w (subw w a b) b = a.
Proof.
  intros Ha. rewrite subw_mod, addw_mod.
  rewrite <- (N.mod_small a (2^w) Ha) at 2.
  rewrite N.add_mod_idemp_l by apply pow2_nz.
  pose proof (N.mod_lt b (2^w) (pow2_nz w)) as Hb.
  pose proof (N.div_mod' b (2^w)) as Hd.
  replace (a + (2^w - b mod 2^w) + b) with (a + (b / 2^w + 1) * 2^w).
  - apply N.mod_add, pow2_nz.
  - rewrite N.mul_add_distr_r. set (q := b / 2^w) in *.
    replace (q * 2^w) with (b - b mod 2^w); [lia|]. rewrite Hd at 1. lia.
Qed.
Lemma sub_add_w' w a b : fits w a -> subw w (addw w b a) b = a.
Proof. rewrite addw_comm. apply sub_add_w. Qed.
Lemma addw_cancel_r w a b c : fits w a -> fits w b -> addw w a c = addw w b c -> a = b.
Proof. intros Ha Hb H. rewrite <- (sub_add_w w a c Ha), H. now apply sub_add_w. Qed.
Lemma addw_cancel_l w a b c : fits w a -> fits w b -> addw w c a = addw w c b -> a = b.
Proof. rewrite !(addw_comm w c). apply addw_cancel_r. Qed.
Lemma subw_addw_distr w a b c : fits w a -> subw w a (addw w b c) = subw w (subw w a b) c.
Proof.
  intros Ha.
  apply (addw_cancel_r w _ _ (addw w b c)); auto with fits.
  rewrite add_sub_w by auto.
  rewrite (addw_comm w b c), addw_assoc, add_sub_w by auto with fits.
  now rewrite add_sub_w.
Qed.

Lemma sub_add_64 a b : fits 64 a -> sub64 (add64 a b) b = a. Proof. apply sub_add_w. Qed.
Lemma add_sub_64 a b : fits 64 a -> add64 (sub64 a b) b = a. Proof. apply add_sub_w. Qed.
Lemma sub_add_32 a b : fits 32 a -> sub32 (add32 a b) b = a. Proof. apply sub_add_w. Qed.
Lemma add_sub_32 a b : fits 32 a -> add32 (sub32 a b) b = a. Proof. apply add_sub_w. Qed.

(** ** Multiplication *)
Lemma mulw_comm w a b : mulw w a b = mulw w b a.
Proof. unfold mulw. now rewrite N.mul_comm. Qed.
Lemma mulw_assoc w a b c : mulw w a (mulw w b c) = mulw w (mulw w a b) c.
Proof.
  rewrite !mulw_mod. rewrite N.mul_mod_idemp_r, N.mul_mod_idemp_l by apply pow2_nz.
  now rewrite N.mul_assoc.
Qed.
Lemma mulw_1_r w a : fits w a -> mulw w a 1 = a.
Proof. intros. unfold mulw. rewrite N.mul_1_r. now apply wrap_small. Qed.
Lemma mulw_inv w a c d : fits w a -> mulw w c d = 1 -> mulw w (mulw w a c) d = a.
Proof. intros Ha H. rewrite <- mulw_assoc, H. now apply mulw_1_r. Qed.
Lemma mulw_inj w a b c d : fits w a -> fits w b -> mulw w c d = 1 ->
  mulw w a c = mulw w b c -> a = b.
Proof. intros Ha Hb H E. rewrite <- (mulw_inv w a c d Ha H), E. now apply mulw_inv. Qed.

(** ** Exclusive or *)
Lemma lxor_cancel a b : N.lxor (N.lxor a b) b = a.
Proof. now rewrite N.lxor_assoc, N.lxor_nilpotent, N.lxor_0_r. Qed.
Lemma lxor_cancel' a b : N.lxor b (N.lxor b a) = a.
Proof. now rewrite <- N.lxor_assoc, N.lxor_nilpotent, N.lxor_0_l. Qed.
Lemma lxor_cancel'' a b : N.lxor (N.lxor b a) b = a.
Proof. rewrite N.lxor_comm. apply lxor_cancel'. Qed.
Lemma lxor_inj_r a b c : N.lxor a c = N.lxor b c -> a = b.
Proof. intros H. rewrite <- (lxor_cancel a c), H. apply lxor_cancel. Qed.
Lemma xor_cancel a b : xor (xor a b) b = a. Proof. apply lxor_cancel. Qed.
Lemma xor_cancel' a b : xor b (xor b a) = a. Proof. apply lxor_cancel'. Qed.
Lemma xor_cancel'' a b : xor (xor b a) b = a. Proof. apply lxor_cancel''. Qed.

(** ** Rotations *)
Lemma shlw_testbit w x k i : N.testbit (shlw w x k) i = (i <? w) && (k <=? i) && N.testbit x (i - k).
Proof.
  unfold shlw. rewrite wrap_testbit, <- andb_assoc. f_equal.
  destruct (N.leb_spec k i).
  - now rewrite N.shiftl_spec_high' by lia.
  - now rewrite N.shiftl_spec_low by lia.
Qed.
Lemma shr_testbit x k i : N.testbit (shr x k) i = N.testbit x (i + k).
Proof. apply N.shiftr_spec'. Qed.

Lemma rotlw_testbit w x k i : fits w x -> k <= w ->
  N.testbit (rotlw w x k) i =
  (i <? w) && (if k <=? i then N.testbit x (i - k) else N.testbit x (i + (w - k))).
Proof.
  intros Hx Hk. unfold rotlw. rewrite N.lor_spec, shlw_testbit, shr_testbit.
  destruct (N.ltb_spec i w); cbn [andb].
  - destruct (N.leb_spec k i); cbn [andb orb]; [|reflexivity].
    destruct (N.eq_dec (i - k) (i + (w-k))) as [E|E]; [rewrite <- E; apply orb_diag|].
    rewrite (fits_high w x (i + (w-k))) by (auto; lia). apply orb_false_r.
  - cbn [orb]. apply (fits_high w); auto. lia.
Qed.
Lemma rotrw_testbit w x k i : fits w x -> k <= w ->
  N.testbit (rotrw w x k) i =
  (i <? w) && (if i + k <? w then N.testbit x (i + k) else N.testbit x (i + k - w)).
Proof.
  intros Hx Hk. unfold rotrw. rewrite N.lor_spec, shlw_testbit, shr_testbit.
  destruct (N.ltb_spec i w); cbn [andb].
  - destruct (N.ltb_spec (i+k) w).
    + destruct (N.leb_spec (w-k) i); [lia|]. apply orb_false_r.
    + rewrite (fits_high w x (i+k)) by (auto; lia).
      destruct (N.leb_spec (w-k) i); [|lia]. cbn [andb orb]. f_equal. lia.
  - cbn [orb]. rewrite (fits_high w) by (auto; lia). reflexivity.
Qed.
Lemma rotr_rotl w x k : fits w x -> k <= w -> rotrw w (rotlw w x k) k = x.
Proof.
  intros Hx Hk. apply N.bits_inj. intro i.
  rewrite rotrw_testbit by auto with fits.
  rewrite !rotlw_testbit by auto.
  destruct (N.ltb_spec i w); cbn [andb].
  2:{ symmetry. apply (fits_high w); auto. }
  destruct (N.ltb_spec (i+k) w).
  - destruct (N.leb_spec k (i+k)); [|lia]. cbn [andb]. f_equal. lia.
  - destruct (N.ltb_spec (i+k-w) w); [|lia]. cbn [andb].
    destruct (N.leb_spec k (i+k-w)).
    + assert (i = w) by lia. lia.
    + f_equal. lia.
Qed.
Lemma rotl_rotr w x k : fits w x -> k <= w -> rotlw w (rotrw w x k) k = x.
Proof.
  intros Hx Hk. apply N.bits_inj. intro i.
  rewrite rotlw_testbit by auto with fits.
  rewrite !rotrw_testbit by auto.
  destruct (N.ltb_spec i w); cbn [andb].
  2:{ symmetry. apply (fits_high w); auto. }
  destruct (N.leb_spec k i).
  - destruct (N.ltb_spec (i-k) w); [|lia]. cbn [andb].
    destruct (N.ltb_spec (i-k+k) w); [|lia]. f_equal. lia.
  - destruct (N.ltb_spec (i+(w-k)) w); [|lia]. cbn [andb].
    destruct (N.ltb_spec (i+(w-k)+k) w); [lia|]. f_equal. lia.
Qed.
Lemma rotl_as_rotr w x k : k <= w -> rotlw w x k = rotrw w x (w - k).
Proof.
  intros. unfold rotlw, rotrw. rewrite N.lor_comm. f_equal. f_equal. lia.
Qed.
Lemma rotlw_inj w x y k : fits w x -> fits w y -> k <= w -> rotlw w x k = rotlw w y k -> x = y.
Proof. intros Hx Hy Hk H. rewrite <- (rotr_rotl w x k Hx Hk), H. now apply rotr_rotl. Qed.
Lemma rotrw_inj w x y k : fits w x -> fits w y -> k <= w -> rotrw w x k = rotrw w y k -> x = y.
Proof. intros Hx Hy Hk H. rewrite <- (rotl_rotr w x k Hx Hk), H. now apply rotl_rotr. Qed.

(** ** Inverting [x ^ (x >> s)] and [x ^ (x << s)] *)
(** [unxsr n s y]: [n] rounds of [x := y ^ (x >> s)] from [x = 0]. *)
Fixpoint unxsr (n : nat) (s y : N) : N :=
  match n with O => 0 | S m => N.lxor y (shr (unxsr m s y) s) end.
Fixpoint unxsl (w : N) (n : nat) (s y : N) : N :=
  match n with O => 0 | S m => N.lxor y (shlw w (unxsl w m s y) s) end.

Lemma unxsr_err n s x :
  N.lxor (unxsr n s (N.lxor x (shr x s))) x = shr x (N.of_nat n * s).
Proof.
  induction n as [|n IH].
  - cbn [unxsr]. rewrite N.lxor_0_l. now rewrite N.mul_0_l; unfold shr; rewrite N.shiftr_0_r.
  - cbn [unxsr]. set (u := unxsr n s _) in *.
    rewrite (N.lxor_comm (N.lxor _ _) x), <- N.lxor_assoc, lxor_cancel'.
    unfold shr in *. rewrite <- N.shiftr_lxor, (N.lxor_comm x u), IH, N.shiftr_shiftr.
    f_equal. lia.
Qed.
Lemma unxsr_left w n s x : fits w x -> w <= N.of_nat n * s ->
  unxsr n s (N.lxor x (shr x s)) = x.
Proof.
  intros Hx Hn. pose proof (unxsr_err n s x) as E.
  replace (shr x (N.of_nat n * s)) with 0 in E.
  - apply N.lxor_eq in E. exact E.
  - symmetry. apply N.bits_inj. intro i. rewrite shr_testbit, N.bits_0.
    apply (fits_high w); auto. lia.
Qed.
Lemma unxsr_fits w n s y : fits w y -> fits w (unxsr n s y).
Proof. intros; induction n; cbn [unxsr]; auto with fits. Qed.
Lemma unxsr_fix_err n s y :
  N.lxor (unxsr (S n) s y) (unxsr n s y) = shr y (N.of_nat n * s).
Proof.
  induction n as [|n IH].
  - cbn [unxsr]. unfold shr. now rewrite N.shiftr_0_l, !N.lxor_0_r, N.mul_0_l, N.shiftr_0_r.
  - set (a := unxsr (S n) s y) in *.
    change (unxsr (S (S n)) s y) with (N.lxor y (shr a s)).
    unfold a at 2. cbn [unxsr]. fold a.
    set (b := unxsr n s y) in *.
    rewrite N.lxor_assoc, (N.lxor_comm (shr a s)), <- N.lxor_assoc.
    rewrite (N.lxor_comm y (N.lxor _ _)).
    replace (N.lxor (N.lxor y (N.lxor y (shr b s))) (shr a s)) with (N.lxor (shr b s) (shr a s))
      by now rewrite lxor_cancel'.
    rewrite <- ?N.lxor_assoc. 
    replace (N.lxor (N.lxor (N.lxor y (shr b s)) y) (shr a s)) with (N.lxor (shr b s) (shr a s)).
    2:{ f_equal. rewrite (N.lxor_comm y), lxor_cancel. reflexivity. }
    unfold shr in *. rewrite <- N.shiftr_lxor, (N.lxor_comm b a), IH, N.shiftr_shiftr.
    f_equal. lia.
Qed.
Lemma unxsr_right w n s y : fits w y -> w <= N.of_nat n * s ->
  N.lxor (unxsr n s y) (shr (unxsr n s y) s) = y.
Proof.
  intros Hy Hn. pose proof (unxsr_fix_err n s y) as E.
  replace (shr y (N.of_nat n * s)) with 0 in E.
  - apply N.lxor_eq in E. cbn [unxsr] in E. rewrite <- E at 1.
    apply lxor_cancel.
  - symmetry. apply N.bits_inj. intro i. rewrite shr_testbit, N.bits_0.
    apply (fits_high w); auto. lia.
Qed.

Lemma shlw_lxor w a b k : N.lxor (shlw w a k) (shlw w b k) = shlw w (N.lxor a b) k.
Proof.
  apply N.bits_inj. intro i. rewrite N.lxor_spec, !shlw_testbit, N.lxor_spec.
  destruct (i <? w), (k <=? i); reflexivity.
Qed.
Lemma shlw_shlw w a j k : shlw w (shlw w a j) k = shlw w a (j + k).
Proof.
  apply N.bits_inj. intro i. rewrite !shlw_testbit.
  destruct (N.ltb_spec i w), (N.leb_spec k i), (N.ltb_spec (i-k) w), (N.leb_spec j (i-k)),
    (N.leb_spec (j+k) i); cbn [andb]; try lia; auto. f_equal. lia.
Qed.
Lemma shlw_0 w a : fits w a -> shlw w a 0 = a.
Proof. intros. unfold shlw. rewrite N.shiftl_0_r. now apply wrap_small. Qed.
Lemma shlw_big w a k : w <= k -> shlw w a k = 0.
Proof.
  intros. apply N.bits_inj. intro i. rewrite shlw_testbit, N.bits_0.
  destruct (N.ltb_spec i w), (N.leb_spec k i); cbn [andb]; try lia; reflexivity.
Qed.
Lemma unxsl_fits w n s y : fits w y -> fits w (unxsl w n s y).
Proof. intros; induction n; cbn [unxsl]; auto with fits. Qed.
Lemma unxsl_err w n s x : fits w x ->
  N.lxor (unxsl w n s (N.lxor x (shlw w x s))) x = shlw w x (N.of_nat n * s).
Proof.
  intros Hx. induction n as [|n IH].
  - cbn [unxsl]. rewrite N.lxor_0_l. now rewrite N.mul_0_l, shlw_0.
  - cbn [unxsl]. set (u := unxsl w n s _) in *.
    rewrite (N.lxor_comm (N.lxor _ _) x), <- N.lxor_assoc, lxor_cancel'.
    rewrite shlw_lxor, (N.lxor_comm x u), IH, shlw_shlw.
    f_equal. lia.
Qed.
Lemma unxsl_left w n s x : fits w x -> w <= N.of_nat n * s ->
  unxsl w n s (N.lxor x (shlw w x s)) = x.
Proof.
  intros Hx Hn. pose proof (unxsl_err w n s x Hx) as E.
  rewrite (shlw_big w _ (N.of_nat n * s)) in E by auto. apply N.lxor_eq in E. exact E.
Qed.
Lemma unxsl_fix_err w n s y : fits w y ->
  N.lxor (unxsl w (S n) s y) (unxsl w n s y) = shlw w y (N.of_nat n * s).
Proof.
  intros Hy. induction n as [|n IH].
  - cbn [unxsl]. rewrite N.mul_0_l, shlw_0 by auto. rewrite N.lxor_0_r.
    unfold shlw. rewrite N.shiftl_0_l. unfold wrap. rewrite N.land_0_l. apply N.lxor_0_r.
  - set (a := unxsl w (S n) s y) in *.
    change (unxsl w (S (S n)) s y) with (N.lxor y (shlw w a s)).
    unfold a at 2. cbn [unxsl]. fold a.
    set (b := unxsl w n s y) in *.
    replace (N.lxor (N.lxor y (shlw w a s)) (N.lxor y (shlw w b s)))
      with (N.lxor (shlw w a s) (shlw w b s)).
    2:{ apply N.bits_inj; intro i. rewrite !N.lxor_spec.
        destruct (N.testbit y i), (N.testbit (shlw w a s) i), (N.testbit (shlw w b s) i); reflexivity. }
    rewrite shlw_lxor, IH, shlw_shlw. f_equal. lia.
Qed.
Lemma unxsl_right w n s y : fits w y -> w <= N.of_nat n * s ->
  N.lxor (unxsl w n s y) (shlw w (unxsl w n s y) s) = y.
Proof.
  intros Hy Hn. pose proof (unxsl_fix_err w n s y Hy) as E.
  rewrite (shlw_big w _ (N.of_nat n * s)) in E by auto. apply N.lxor_eq in E. cbn [unxsl] in E. rewrite <- E at 1.
  apply lxor_cancel.
Qed.

(** ** Little-endian loads and stores *)
Lemma le_load_cons b r : bytes_ok (b :: r) -> le_load (b :: r) = b + 256 * le_load r.
Proof.
  intros H. inversion H as [|? ? Hb Hr]; subst. cbn [le_load].
  rewrite N.shiftl_mul_pow2. change (2^8) with 256.
  rewrite N.mul_comm. rewrite <- N.lxor_lor, <- N.add_nocarry_lxor; auto;
    apply N.bits_inj; intro i; rewrite N.land_spec, N.bits_0;
    (destruct (N.lt_ge_cases i 8) as [Hi|Hi];
     [ change 256 with (2^8); rewrite N.mul_comm, N.mul_pow2_bits_low by auto; apply andb_false_r
     | rewrite (fits_high 8 b i) by (auto; exact Hb); reflexivity ]).
Qed.
Lemma le_load_bound l : bytes_ok l -> le_load l < 256 ^ N.of_nat (length l).
Proof.
  induction l as [|b r IH]; intros H.
  - cbn. lia.
  - rewrite le_load_cons by auto. inversion H as [|? ? Hb Hr]; subst. specialize (IH Hr).
    cbn [length]. rewrite Nat2N.inj_succ, N.pow_succ_r'. unfold byte_ok in Hb. nia.
Qed.
Lemma le_load_fits l w : bytes_ok l -> 8 * N.of_nat (length l) <= w -> fits w (le_load l).
Proof.
  intros H Hw. unfold fits. eapply N.lt_le_trans; [apply le_load_bound; auto|].
  change 256 with (2^8). rewrite <- N.pow_mul_r. apply N.pow_le_mono_r; lia.
Qed.
Lemma le_store_length n x : length (le_store n x) = n.
Proof. revert x; induction n; intros; cbn [le_store length]; auto. Qed.
Lemma le_store_ok n x : bytes_ok (le_store n x).
Proof.
  revert x; induction n; intros; cbn [le_store]; constructor; [|apply IHn].
  apply (wrap_fits 8).
Qed.
Lemma le_load_store n x : fits (8 * N.of_nat n) x -> le_load (le_store n x) = x.
Proof.
  revert x; induction n; intros x Hx.
  - cbn. unfold fits in Hx. change (8 * N.of_nat 0) with 0 in Hx. cbn in Hx. lia.
  - cbn [le_store]. rewrite le_load_cons by apply (le_store_ok (S n)).
    rewrite IHn.
    + rewrite wrap_mod. unfold shr. rewrite N.shiftr_div_pow2. change (2^8) with 256.
      pose proof (N.div_mod' x 256). lia.
    + apply shr_fits'. replace (8 * N.of_nat n + 8) with (8 * N.of_nat (S n)) by lia. exact Hx.
Qed.
Lemma le_store_load l : bytes_ok l -> le_store (length l) (le_load l) = l.
Proof.
  induction l as [|b r IH]; intros H; [reflexivity|].
  rewrite le_load_cons by auto. inversion H as [|? ? Hb Hr]; subst.
  cbn [length le_store]. unfold byte_ok in Hb. f_equal.
  - rewrite wrap_mod. change (2^8) with 256. rewrite N.mul_comm, N.mod_add by discriminate.
    now apply N.mod_small.
  - unfold shr. rewrite N.shiftr_div_pow2. change (2^8) with 256.
    rewrite N.mul_comm, N.div_add by discriminate. rewrite N.div_small by auto.
    rewrite N.add_0_l. auto.
Qed.
Lemma le_load_inj l1 l2 : bytes_ok l1 -> bytes_ok l2 -> length l1 = length l2 ->
  le_load l1 = le_load l2 -> l1 = l2.
Proof. intros H1 H2 HL E. rewrite <- (le_store_load l1 H1), <- (le_store_load l2 H2), HL, E. reflexivity. Qed.

(** ** Slices *)
Lemma slice_some s i n : (i + n <= length s)%nat -> slice s i n = Some (firstn n (skipn i s)).
Proof. intros. unfold slice. now rewrite (proj2 (Nat.leb_le _ _)). Qed.
Lemma slice_none s i n : (length s < i + n)%nat -> slice s i n = None.
Proof. intros. unfold slice. now rewrite (proj2 (Nat.leb_gt _ _)). Qed.
Lemma bytes_ok_app l1 l2 : bytes_ok (l1 ++ l2) <-> bytes_ok l1 /\ bytes_ok l2.
Proof. apply Forall_app. Qed.
Lemma bytes_ok_firstn n l : bytes_ok l -> bytes_ok (firstn n l).
Proof. intros H. rewrite <- (firstn_skipn n l) in H. apply bytes_ok_app in H. apply H. Qed.
Lemma bytes_ok_skipn n l : bytes_ok l -> bytes_ok (skipn n l).
Proof. intros H. rewrite <- (firstn_skipn n l) in H. apply bytes_ok_app in H. apply H. Qed.
#[export] Hint Resolve bytes_ok_firstn bytes_ok_skipn : fits.
Lemma load64_some s i : (i + 8 <= length s)%nat -> load64 s i = Some (le_load (firstn 8 (skipn i s))).
Proof. intros. unfold load64. now rewrite slice_some. Qed.
Lemma load32_some s i : (i + 4 <= length s)%nat -> load32 s i = Some (le_load (firstn 4 (skipn i s))).
Proof. intros. unfold load32. now rewrite slice_some. Qed.
Lemma load16_some s i : (i + 2 <= length s)%nat -> load16 s i = Some (le_load (firstn 2 (skipn i s))).
Proof. intros. unfold load16. now rewrite slice_some. Qed.
Lemma le_load_firstn_fits n l w : bytes_ok l -> 8 * N.of_nat n <= w -> fits w (le_load (firstn n l)).
Proof.
  intros H Hw. apply le_load_fits; auto with fits.
  pose proof (firstn_le_length n l). lia.
Qed.
