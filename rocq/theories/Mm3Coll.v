(** Murmur3: differences that cancel in the next block, whatever the state. *)
From Verif Require Import Words WordLemmas ListLemmas Blocks SipModel Mm3Model Mm3Spec Mm3Proofs BlockInj CollSpec.
Open Scope N_scope.

Lemma msb w x : 1 <= w -> fits w x -> N.lxor x (2 ^ (w - 1)) = (x + 2 ^ (w - 1)) mod 2 ^ w.
Proof.
  intros Hw Hx. set (M := 2 ^ (w - 1)). assert (E : 2 ^ w = 2 * M) by (unfold M; rewrite <- N.pow_succ_r'; f_equal; lia).
  assert (M0 : M <> 0) by (apply N.pow_nonzero; lia).
  assert (X : x < 2 * M) by (rewrite <- E; exact Hx). rewrite E. clear Hx E.
  assert (low : forall y, y < M -> N.lxor y M = y + M).
  { intros y Hy. symmetry. apply N.add_nocarry_lxor. apply N.bits_inj. intros i. rewrite N.land_spec, N.bits_0.
    unfold M. rewrite N.pow2_bits_eqb. destruct (N.eqb_spec (w - 1) i) as [<-|]; [|apply andb_false_r].
    rewrite andb_true_r. destruct (N.eq_dec y 0) as [->|Ny]; [apply N.bits_0|]. apply N.bits_above_log2. apply N.log2_lt_pow2; [lia|exact Hy]. }
  destruct (N.lt_ge_cases x M) as [H|H].
  - rewrite low by exact H. symmetry. apply N.mod_small. lia.
  - assert (Y : x = (x - M) + M) by lia. rewrite Y at 1. rewrite <- low by lia. rewrite N.lxor_assoc, N.lxor_nilpotent, N.lxor_0_r.
    replace (x + M) with ((x - M) + 1 * (2 * M)) by lia. rewrite N.mod_add by lia. symmetry. apply N.mod_small. lia.
Qed.
Lemma msb_add w x c : 1 <= w -> fits w x -> addw w (N.lxor x (2 ^ (w - 1))) c = N.lxor (addw w x c) (2 ^ (w - 1)).
Proof.
  intros Hw Hx. rewrite (msb w x Hw Hx), (msb w (addw w x c) Hw (addw_fits _ _ _)), !addw_mod.
  assert (2 ^ w <> 0) by (apply N.pow_nonzero; lia).
  rewrite !N.add_mod_idemp_l by assumption. f_equal. lia.
Qed.
Lemma msb_mul5 w x : 1 <= w -> fits w x -> mulw w (N.lxor x (2 ^ (w - 1))) 5 = N.lxor (mulw w x 5) (2 ^ (w - 1)).
Proof.
  intros Hw Hx. rewrite (msb w x Hw Hx), (msb w (mulw w x 5) Hw (mulw_fits _ _ _)), !mulw_mod.
  assert (W : 2 ^ w <> 0) by (apply N.pow_nonzero; lia). assert (E : 2 ^ w = 2 * 2 ^ (w - 1)) by (rewrite <- N.pow_succ_r'; f_equal; lia).
  rewrite N.mul_mod_idemp_l, N.add_mod_idemp_l by assumption.
  replace ((x + 2 ^ (w - 1)) * 5) with (x * 5 + 2 ^ (w - 1) + 2 * 2 ^ w) by lia. now rewrite N.mod_add.
Qed.
Lemma rot_flip w x k j : fits w x -> k <= w -> k + j < w -> rotlw w (N.lxor x (2 ^ j)) k = N.lxor (rotlw w x k) (2 ^ (k + j)).
Proof.
  intros Hx Hk Hj. assert (F : fits w (2 ^ j)) by (unfold fits; apply N.pow_lt_mono_r; lia).
  apply N.bits_inj. intros i. rewrite N.lxor_spec, !rotlw_testbit by (auto with fits). rewrite !N.lxor_spec, !N.pow2_bits_eqb.
  destruct (N.ltb_spec i w); cbn [andb].
  - destruct (N.leb_spec k i).
    + f_equal. destruct (N.eqb_spec j (i - k)), (N.eqb_spec (k + j) i); try reflexivity; lia.
    + f_equal. destruct (N.eqb_spec j (i + (w - k))), (N.eqb_spec (k + j) i); try reflexivity; lia.
  - destruct (N.eqb_spec (k + j) i); [lia|reflexivity].
Qed.
Lemma flip_neq x j : N.lxor x (2 ^ j) <> x.
Proof. intros E. apply (f_equal (fun z => N.testbit z j)) in E. rewrite N.lxor_spec, N.pow2_bits_true in E. destruct (N.testbit x j); discriminate. Qed.

(** ** 32 bits: bit 18 becomes the top bit, which multiplication by 5 and addition keep. *)
Lemma g32_flip x : fits 32 x -> mm32_g (N.lxor x (2 ^ 18)) = N.lxor (mm32_g x) (2 ^ 31).
Proof.
  intros Hx. unfold mm32_g. change (N.lor (shl32 ?a 13) (shr ?a 19)) with (rotlw 32 a 13).
  rewrite (rot_flip 32 x 13 18) by (auto; lia). change (2 ^ (13 + 18)) with (2 ^ (32 - 1)). change (2 ^ 31) with (2 ^ (32 - 1)).
  unfold mul32, add32. rewrite msb_mul5, msb_add by (lia || auto with fits). reflexivity.
Qed.
(** ** 128 bits. *)
Lemma b128_flip h1 h2 k1 k2 k1' k2' : pair_ok (h1, h2) -> fits 64 k1 -> fits 64 k2 -> k1' = N.lxor k1 (2 ^ 36) -> k2' = N.lxor k2 (2 ^ 32) ->
  let blk a b := let h1 := add64 (mul64 (add64 (rotlw 64 (xor h1 a) 27) h2) 5) 0x52dce729 in
                 (h1, add64 (mul64 (add64 (rotlw 64 (xor h2 b) 31) h1) 5) 0x38495ab5) in
  blk k1' k2' = (N.lxor (fst (blk k1 k2)) (2 ^ 63), snd (blk k1 k2)).
Proof.
  intros [F1 F2] G1 G2 -> ->. cbn zeta. cbn [fst snd] in *. unfold xor. rewrite <- !N.lxor_assoc.
  rewrite (rot_flip 64 _ 27 36) by (auto with fits; lia). rewrite (rot_flip 64 _ 31 32) by (auto with fits; lia).
  change (2 ^ (27 + 36)) with (2 ^ (64 - 1)). change (2 ^ (31 + 32)) with (2 ^ (64 - 1)). change (2 ^ 63) with (2 ^ (64 - 1)).
  unfold mul64, add64. rewrite msb_add, msb_mul5, msb_add by (lia || auto with fits).
  set (y := addw 64 (mulw 64 (addw 64 (rotlw 64 (N.lxor h1 k1) 27) h2) 5) 0x52dce729). f_equal.
  f_equal. f_equal. rewrite msb_add by (lia || auto with fits).
  rewrite (addw_comm 64 _ (N.lxor y _)). assert (Fy : fits 64 y) by apply addw_fits. rewrite msb_add by (lia || auto with fits).
  rewrite N.lxor_assoc, N.lxor_nilpotent, N.lxor_0_r. apply addw_comm.
Qed.

Section Cancel.
  Context {S : Type} (B : nat) (Bpos : (0 < B)%nat) (P : S -> Prop) (f : S -> list N -> S).
  Hypothesis f_ok : forall s b, P s -> P (f s b).
  Lemma cancel b1 b2 c1 c2 : length b1 = B -> length b2 = B -> length c1 = B -> length c2 = B ->
    (forall s, P s -> f (f s b1) b2 = f (f s c1) c2) ->
    forall p s r, P s -> (length p mod B = 0)%nat -> absorb B f s (p ++ b1 ++ b2 ++ r) = absorb B f s (p ++ c1 ++ c2 ++ r).
  Proof.
    intros L1 L2 L3 L4 E p. induction p as [p Hp|b p Hb IH] using (absorb_ind B Bpos); intros s r Hs Hm.
    - rewrite Nat.mod_small in Hm by exact Hp. destruct p; [|discriminate]. cbn [app]. rewrite !(absorb_block B f Bpos) by assumption. now rewrite E.
    - rewrite <- !app_assoc, !(fun q => absorb_block B f Bpos s b q Hb). apply IH; [auto|]. rewrite app_length, Hb in Hm.
      replace (B + length p)%nat with (length p + 1 * B)%nat in Hm by lia. rewrite Nat.mod_add in Hm by lia. exact Hm.
  Qed.
End Cancel.

Lemma inv_of w (k : N -> N) : bijection_on (fits w) k -> exists g, forall x, fits w x -> fits w (g x) /\ k (g x) = x.
Proof. intros (_ & g & H). exists g. intros x Hx. destruct (H x Hx) as (A & _ & C). auto. Qed.
Lemma k_fits w (k : N -> N) x : bijection_on (fits w) k -> fits w x -> fits w (k x).
Proof. intros [H _]. apply H. Qed.
Lemma flip_fits w x j : fits w x -> j < w -> fits w (N.lxor x (2 ^ j)).
Proof. intros H Hj. assert (fits w (2 ^ j)) by (unfold fits; apply N.pow_lt_mono_r; lia). auto with fits. Qed.

(** A word scrambled to one differing in bit [j]. *)
Lemma other_word w (k : N -> N) x j : bijection_on (fits w) k -> fits w x -> j < w -> exists y, fits w y /\ y <> x /\ k y = N.lxor (k x) (2 ^ j).
Proof.
  intros Hk Hx Hj. destruct (inv_of w k Hk) as (g & G). destruct (G (N.lxor (k x) (2 ^ j))) as [G1 G2]; [apply flip_fits; auto using k_fits|].
  exists (g (N.lxor (k x) (2 ^ j))). split; [exact G1|]. split; [|exact G2]. intros E. rewrite E in G2. symmetry in G2. exact (flip_neq _ _ G2).
Qed.
Lemma fits8 n x : fits (8 * N.of_nat n) x -> le_load (le_store n x) = x. Proof. apply le_load_store. Qed.

Lemma mm32_partner b : bytes_ok b -> length b = 8%nat -> exists c, bytes_ok c /\ length c = 8%nat /\ c <> b /\
  forall p r, (length p mod 4 = 0)%nat -> mm_sum32 (p ++ b ++ r) = mm_sum32 (p ++ c ++ r).
Proof.
  intros Hb L. set (b1 := firstn 4 b). set (b2 := skipn 4 b).
  assert (Eb : b = b1 ++ b2) by (symmetry; apply firstn_skipn).
  assert (L1 : length b1 = 4%nat) by (unfold b1; rewrite firstn_length; lia). assert (L2 : length b2 = 4%nat) by (unfold b2; rewrite skipn_length; lia).
  assert (O1 : bytes_ok b1) by now apply bytes_ok_firstn. assert (O2 : bytes_ok b2) by now apply bytes_ok_skipn.
  destruct (other_word 32 mm32_k1 (le_load b1) 18 mm32_k1_bij (le_load4_fits _ O1 L1) ltac:(lia)) as (y1 & F1 & N1 & E1).
  destruct (other_word 32 mm32_k1 (le_load b2) 31 mm32_k1_bij (le_load4_fits _ O2 L2) ltac:(lia)) as (y2 & F2 & N2 & E2).
  exists (le_store 4 y1 ++ le_store 4 y2). split; [apply bytes_ok_app; split; apply le_store_ok|]. split; [now rewrite app_length, !le_store_length|]. split.
  { rewrite Eb. intros E. apply (f_equal (firstn 4)) in E. rewrite !firstn_app_exact in E by (auto using le_store_length). apply N1. rewrite <- E. symmetry. now apply (fits8 4). }
  intros p r Hp. assert (LL : length (p ++ b ++ r) = length (p ++ (le_store 4 y1 ++ le_store 4 y2) ++ r)) by (rewrite !app_length, !le_store_length; lia).
  unfold mm_sum32. rewrite LL. rewrite Eb, <- !app_assoc.
  rewrite (cancel 4 ltac:(lia) (fits 32) mm32_block (fun s b _ => mm32_block_fits s b) b1 b2 (le_store 4 y1) (le_store 4 y2)); auto using le_store_length; [|reflexivity].
  intros s Hs. rewrite !mm32_block_g. rewrite !(fits8 4) by assumption. rewrite E1, E2. unfold xor. rewrite <- !N.lxor_assoc.
  rewrite g32_flip by (apply xor_fits; [exact Hs|apply mm32_k1_fits]).
  f_equal. rewrite (N.lxor_assoc (mm32_g _) (2 ^ 31)), (N.lxor_comm (2 ^ 31) (mm32_k1 _)), <- N.lxor_assoc, N.lxor_assoc, N.lxor_nilpotent, N.lxor_0_r. reflexivity.
Qed.

Lemma mm128_partner b : bytes_ok b -> length b = 32%nat -> exists c, bytes_ok c /\ length c = 32%nat /\ c <> b /\
  forall p r, (length p mod 16 = 0)%nat -> mm_sum128 (p ++ b ++ r) = mm_sum128 (p ++ c ++ r).
Proof.
  intros Hb L. set (a1 := firstn 8 b). set (a2 := firstn 8 (skipn 8 b)). set (a3 := firstn 8 (skipn 16 b)). set (a4 := skipn 24 b).
  assert (Eb : b = (a1 ++ a2) ++ (a3 ++ a4)).
  { unfold a1, a2, a3, a4. rewrite <- app_assoc. replace (skipn 24 b) with (skipn 8 (skipn 16 b)) by (rewrite <- skipn_add; reflexivity). rewrite (firstn_skipn 8 (skipn 16 b)).
    replace (skipn 16 b) with (skipn 8 (skipn 8 b)) by (rewrite <- skipn_add; reflexivity). rewrite (firstn_skipn 8 (skipn 8 b)). symmetry. apply firstn_skipn. }
  assert (L1 : length a1 = 8%nat) by (unfold a1; rewrite firstn_length; lia).
  assert (L2 : length a2 = 8%nat) by (unfold a2; rewrite firstn_length, skipn_length; lia).
  assert (L3 : length a3 = 8%nat) by (unfold a3; rewrite firstn_length, skipn_length; lia).
  assert (L4 : length a4 = 8%nat) by (unfold a4; rewrite skipn_length; lia).
  assert (O1 : bytes_ok a1) by now apply bytes_ok_firstn. assert (O2 : bytes_ok a2) by (now apply bytes_ok_firstn, bytes_ok_skipn).
  assert (O3 : bytes_ok a3) by (now apply bytes_ok_firstn, bytes_ok_skipn). assert (O4 : bytes_ok a4) by now apply bytes_ok_skipn.
  destruct (other_word 64 mm128_k1 (le_load a1) 36 mm128_k1_bij (le_load8_fits _ O1 L1) ltac:(lia)) as (y1 & F1 & N1 & E1).
  destruct (other_word 64 mm128_k2 (le_load a2) 32 mm128_k2_bij (le_load8_fits _ O2 L2) ltac:(lia)) as (y2 & F2 & N2 & E2).
  destruct (other_word 64 mm128_k1 (le_load a3) 63 mm128_k1_bij (le_load8_fits _ O3 L3) ltac:(lia)) as (y3 & F3 & N3 & E3).
  set (c1 := le_store 8 y1 ++ le_store 8 y2). set (c2 := le_store 8 y3 ++ a4).
  assert (Lc : length (c1 ++ c2) = 32%nat) by (unfold c1, c2; rewrite !app_length, !le_store_length; lia).
  exists (c1 ++ c2). split; [unfold c1, c2; repeat (apply bytes_ok_app; split); auto using le_store_ok|]. split; [exact Lc|]. split.
  { rewrite Eb. intros E. apply (f_equal (firstn 8)) in E. unfold c1 in E. rewrite <- !app_assoc in E. rewrite !firstn_app_exact in E by (auto using le_store_length).
    apply N1. rewrite <- E. symmetry. now apply (fits8 8). }
  intros p r Hp. assert (LL : length (p ++ b ++ r) = length (p ++ (c1 ++ c2) ++ r)) by (rewrite !app_length in *; lia).
  assert (X : absorb 16 mm128_block (0, 0) (p ++ b ++ r) = absorb 16 mm128_block (0, 0) (p ++ (c1 ++ c2) ++ r)).
  { rewrite Eb. rewrite <- (app_assoc (a1 ++ a2)), <- (app_assoc c1).
    apply (cancel 16 ltac:(lia) pair_ok mm128_block (fun s b _ => mm128_block_fits s b)); try (unfold c1, c2; rewrite !app_length, ?le_store_length; lia); [| |exact Hp].
    - intros [h1 h2] Hs.
      assert (K : forall h1 h2 u v, length u = 8%nat -> mm128_block (h1, h2) (u ++ v) =
         let h1 := add64 (mul64 (add64 (rotlw 64 (xor h1 (mm128_k1 (le_load u))) 27) h2) 5) 0x52dce729 in
         (h1, add64 (mul64 (add64 (rotlw 64 (xor h2 (mm128_k2 (le_load v))) 31) h1) 5) 0x38495ab5)).
      { intros g1 g2 u v Lu. unfold mm128_block. rewrite firstn_app_exact, skipn_app_exact by exact Lu. reflexivity. }
      unfold c1, c2. rewrite (K h1 h2 a1 a2 L1), (K h1 h2 (le_store 8 y1)) by apply le_store_length. rewrite !(fits8 8) by assumption.
      pose proof (b128_flip h1 h2 (mm128_k1 (le_load a1)) (mm128_k2 (le_load a2)) _ _ Hs (mm128_k1_fits _) (mm128_k2_fits _) E1 E2) as T. cbn zeta in T |- *. rewrite T. cbn [fst snd].
      rewrite !K by (auto using le_store_length). rewrite (fits8 8) by assumption. rewrite E3. cbn zeta.
      match goal with |- context [xor (N.lxor ?z (2 ^ 63)) (N.lxor ?q (2 ^ 63))] => replace (xor (N.lxor z (2 ^ 63)) (N.lxor q (2 ^ 63))) with (xor z q) end; [reflexivity|].
      unfold xor. rewrite (N.lxor_comm (mm128_k1 _) (2 ^ 63)), N.lxor_assoc, <- (N.lxor_assoc (2 ^ 63)), N.lxor_nilpotent, N.lxor_0_l. reflexivity.
    - split; reflexivity. }
  revert X LL. unfold mm_sum128. intros X LL. rewrite X, LL. reflexivity.
Qed.

(** ** Many messages *)
Lemma NoDup_app2 {A} (a b : list A) : NoDup a -> NoDup b -> (forall x, In x a -> ~ In x b) -> NoDup (a ++ b).
Proof.
  intros Ha Hb D. induction Ha as [|x a Hx Ha IH]; [exact Hb|]. cbn [app]. constructor; [|apply IH; intros; apply D; now right].
  rewrite in_app_iff. intros [H|H]; [auto|]. apply (D x); [now left|exact H].
Qed.
Section Multi.
  Context {T : Type} (H : list N -> T) (B : nat) (x y : list N).
  Lemma choices_len n : length (choices x y n) = (2 ^ n)%nat.
  Proof. induction n as [|n IH]; cbn [choices]; [reflexivity|]. rewrite app_length, !map_length, IH. cbn. lia. Qed.
  Hypothesis L : length x = length y.
  Lemma choices_size n m : In m (choices x y n) -> length m = (n * length x)%nat.
  Proof.
    revert m. induction n as [|n IH]; intros m Hm; cbn [choices] in Hm; [destruct Hm as [<-|[]]; reflexivity|].
    apply in_app_iff in Hm. rewrite !in_map_iff in Hm. destruct Hm as [(z & <- & Hz)|(z & <- & Hz)]; rewrite app_length, (IH z Hz); lia.
  Qed.
  Lemma choices_NoDup n : x <> y -> NoDup (choices x y n).
  Proof.
    intros D. induction n as [|n IH]; cbn [choices]; [constructor; [easy|constructor]|].
    assert (I : forall z, NoDup (map (app z) (choices x y n))) by (intros z; apply FinFun.Injective_map_NoDup; [intros a b E; now apply app_inv_head in E|exact IH]).
    apply NoDup_app2; auto. intros m Hm Hm'. apply in_map_iff in Hm as (a & <- & _). apply in_map_iff in Hm' as (b & E & _).
    apply (f_equal (firstn (length x))) in E. rewrite (firstn_app_exact (length x) x) in E by reflexivity. rewrite (firstn_app_exact (length x) y) in E by auto. congruence.
  Qed.
  Hypothesis Lx : (length x mod B = 0)%nat.
  Hypothesis Bp : (0 < B)%nat.
  Hypothesis swap : forall p r, (length p mod B = 0)%nat -> H (p ++ x ++ r) = H (p ++ y ++ r).
  Lemma choices_first n p r m : (length p mod B = 0)%nat -> In m (choices x y n) -> H (p ++ m ++ r) = H (p ++ concat (repeat x n) ++ r).
  Proof.
    revert p m. induction n as [|n IH]; intros p m Hp Hm; cbn [choices] in Hm; [destruct Hm as [<-|[]]; reflexivity|].
    assert (A : (length (p ++ x) mod B = 0)%nat) by (rewrite app_length, Nat.add_mod, Hp, Lx by lia; apply Nat.mod_0_l; lia).
    apply in_app_iff in Hm. rewrite !in_map_iff in Hm. cbn [repeat concat].
    destruct Hm as [(z & <- & Hz)|(z & <- & Hz)]; rewrite <- !app_assoc; [|rewrite <- swap by exact Hp]; rewrite !(app_assoc p x); now apply IH.
  Qed.
  Lemma choices_same n p r m m' : (length p mod B = 0)%nat -> In m (choices x y n) -> In m' (choices x y n) -> H (p ++ m ++ r) = H (p ++ m' ++ r).
  Proof. intros Hp H1 H2. rewrite (choices_first n p r m Hp H1), (choices_first n p r m' Hp H2). reflexivity. Qed.
End Multi.
