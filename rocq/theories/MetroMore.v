(** Further proofs about package metro: the ignored byte, parity, number of
    distinct results. *)
From Verif Require Import Words WordLemmas ListLemmas Blocks Mem Mm3Spec Mm3Proofs MetroModel MetroSpec MetroProofs.
Open Scope N_scope.

(** ** Lengths of the rest *)
Lemma rest_length m : length (snd (blocks 32 m)) = (length m mod 32)%nat.
Proof.
  pose proof (fold_blocks (fun (s : unit) _ => s) 32 m tt pos32) as F. destruct (blocks 32 m) as [bs r].
  cbn [snd]. pose proof (absorb_rest_length 32 (fun (s : unit) _ => s) pos32 tt m) as L. rewrite <- F in L. exact L.
Qed.
Lemma piece_rest_mod n r : (0 < n)%nat -> (length r < 2 * n)%nat -> length (snd (piece n n r)) = (length r mod n)%nat.
Proof.
  intros Hn H. unfold piece. destruct (Nat.leb_spec n (length r)); cbn [snd].
  - rewrite skipn_length. symmetry. rewrite (Nat.mod_eq (length r) n) by lia.
    replace (length r / n)%nat with 1%nat; [lia|]. apply Nat.div_unique with (length r - n)%nat; lia.
  - now rewrite Nat.mod_small.
Qed.
Lemma mod_mod_div a b c : (b <> 0)%nat -> (c <> 0)%nat -> ((a mod (b * c)) mod b = a mod b)%nat.
Proof.
  intros Hb Hc. rewrite Nat.mod_mul_r by assumption. rewrite (Nat.mul_comm b), Nat.mod_add by assumption. now apply Nat.mod_mod.
Qed.
Lemma rest8 m : length (snd (piece 8 8 (snd (piece 16 16 (snd (blocks 32 m)))))) = (length m mod 8)%nat.
Proof.
  pose proof (rest_length m) as L. pose proof (Nat.mod_upper_bound (length m) 32 ltac:(lia)).
  pose proof (piece_rest_mod 16 (snd (blocks 32 m)) ltac:(lia) ltac:(lia)) as L1.
  pose proof (Nat.mod_upper_bound (length (snd (blocks 32 m))) 16 ltac:(lia)).
  rewrite piece_rest_mod by lia. rewrite L1, L.
  change 32%nat with (16 * 2)%nat. rewrite mod_mod_div by lia. change 16%nat with (8 * 2)%nat. now rewrite mod_mod_div by lia.
Qed.

(** Without a 4 byte tail the off-by-one test makes no difference. *)
Lemma threshold_irrelevant P m seed : (length m mod 8 <> 4)%nat -> metro64_gen P 5 m seed = metro64 P m seed.
Proof.
  intros H. unfold metro64, metro64_gen. pose proof (rest8 m) as L. destruct (blocks 32 m) as [bs r]. cbn [snd] in L.
  f_equal. unfold m64_pieces. destruct (piece 16 16 r) as [p1 r1']. cbn [snd] in L.
  destruct (piece 8 8 r1') as [p2 r2']. cbn [snd] in L.
  replace (piece 5 4 r2') with (piece 4 4 r2'); auto. unfold piece.
  destruct (Nat.leb_spec 4 (length r2')), (Nat.leb_spec 5 (length r2')); auto; lia.
Qed.

(** ** The ignored byte *)
Lemma piece_snoc t n r x : (n <= t)%nat -> (t <= length r \/ length r + 1 < t)%nat ->
  piece t n (r ++ [x]) = (fst (piece t n r), snd (piece t n r) ++ [x]).
Proof.
  intros Hn H. unfold piece. rewrite app_length. cbn [length].
  destruct (Nat.leb_spec t (length r)), (Nat.leb_spec t (length r + 1)); try lia; cbn [fst snd].
  - rewrite firstn_app, skipn_app. replace (n - length r)%nat with 0%nat by lia. cbn [firstn skipn]. now rewrite app_nil_r.
  - reflexivity.
Qed.
Lemma blocks_snoc p x : (length p mod 32 <> 31)%nat ->
  blocks 32 (p ++ [x]) = (fst (blocks 32 p), snd (blocks 32 p) ++ [x]).
Proof.
  intros H.
  pose proof (fold_blocks (fun (s : list (list N)) b => s ++ [b]) 32 (p ++ [x]) [] pos32) as F.
  pose proof (fold_blocks (fun (s : list (list N)) b => s ++ [b]) 32 p [] pos32) as G.
  pose proof (rest_length p) as L.
  destruct (blocks 32 (p ++ [x])) as [bs r]. destruct (blocks 32 p) as [bs' r']. cbn [fst snd] in *.
  rewrite (absorb_app 32 _ pos32) in F. rewrite <- G in F.
  rewrite (absorb_short 32 _ pos32) in F.
  2:{ rewrite app_length, L. cbn [length]. pose proof (Nat.mod_upper_bound (length p) 32 ltac:(lia)). lia. }
  assert (Z : forall (l s : list (list N)), fold_left (fun s b => s ++ [b]) l s = s ++ l).
  { induction l as [|b l IH]; intros s; cbn [fold_left]; [now rewrite app_nil_r|]. rewrite IH, <- app_assoc. reflexivity. }
  rewrite !Z in F. cbn [app] in F. inversion F. reflexivity.
Qed.
Lemma mod8_mod32 n : (n mod 8 = 3)%nat -> (n mod 32 = 3 \/ n mod 32 = 11 \/ n mod 32 = 19 \/ n mod 32 = 27)%nat.
Proof.
  intros H. pose proof (mod_mod_div n 8 4 ltac:(lia) ltac:(lia)) as M. change (8 * 4)%nat with 32%nat in M.
  rewrite H in M. pose proof (Nat.mod_upper_bound n 32 ltac:(lia)) as B. remember (n mod 32)%nat as r. clear Heqr n H.
  do 32 (destruct r as [|r]; [cbn in M; try lia|]). lia.
Qed.
Lemma last_byte_ignored P p x y seed : (length p mod 8 = 3)%nat ->
  metro64_gen P 5 (p ++ [x]) seed = metro64_gen P 5 (p ++ [y]) seed.
Proof.
  intros H. unfold metro64_gen. rewrite !app_length. cbn [length].
  pose proof (mod8_mod32 _ H) as M. rewrite !blocks_snoc by lia.
  pose proof (rest_length p) as L. pose proof (rest8 p) as L8.
  destruct (blocks 32 p) as [bs r]. cbn [fst snd] in *. f_equal.
  set (h := if (32 <=? length p + 1)%nat then _ else _). clearbody h. unfold m64_pieces.
  rewrite (piece_snoc 16 16 r x), (piece_snoc 16 16 r y) by lia.
  pose proof (piece_rest_mod 16 r ltac:(lia) ltac:(lia)) as L1.
  destruct (piece 16 16 r) as [p1 r1']. cbn [fst snd] in *.
  assert (L1' : (length r1' = 3 \/ length r1' = 11)%nat).
  { rewrite L1, L. destruct M as [-> | [-> | [-> | ->]]]; cbn; auto. }
  rewrite (piece_snoc 8 8 r1' x), (piece_snoc 8 8 r1' y) by lia.
  destruct (piece 8 8 r1') as [p2 r2']. cbn [fst snd] in *. rewrite H in L8.
  destruct r2' as [|a [|b [|c [|? ?]]]]; try discriminate L8. reflexivity.
Qed.

(** ** Fits *)
Lemma xor64_fits a b : fits 64 a -> fits 64 b -> fits 64 (xor a b).
Proof. apply xor_fits. Qed.
Lemma pieces_fits P t r h : fits 64 h -> fits 64 (m64_pieces P t r h).
Proof.
  intros Hh. unfold m64_pieces.
  assert (S : forall rot p h, fits 64 h -> fits 64 (opt p (m64_small P rot) h)).
  { intros rot [b|] h0 H0; cbn [opt]; auto. unfold m64_small. apply xor64_fits; [apply add64_fits|apply mul64_fits]. }
  assert (F : forall p h, fits 64 h -> fits 64 (opt p (m64_16 P) h)).
  { intros [b|] h0 H0; cbn [opt]; auto. apply add64_fits. }
  destruct (piece 16 16 r) as [p1 r1']. destruct (piece 8 8 r1') as [p2 r2']. destruct (piece t 4 r2') as [p3 r3'].
  destruct (piece 2 2 r3') as [p4 r4']. destruct (piece 1 1 r4') as [p5 r5']. auto 10.
Qed.
Lemma metro64_form P t m seed : exists h, fits 64 h /\ metro64_gen P t m seed = m64_final P h.
Proof.
  unfold metro64_gen. destruct (blocks 32 m) as [bs r]. eexists. split; [|reflexivity].
  apply pieces_fits. destruct (32 <=? length m)%nat.
  - destruct (m_mix _ _ _ _ _ _ _) as [v0 v1]. apply add64_fits.
  - apply add64_fits.
Qed.

(** ** Rotations are linear and keep parity *)
Lemma rotr_lxor w a b k : fits w a -> fits w b -> k <= w -> rotrw w (N.lxor a b) k = N.lxor (rotrw w a k) (rotrw w b k).
Proof.
  intros Ha Hb Hk. apply N.bits_inj. intros i. rewrite N.lxor_spec, !rotrw_testbit by (auto using xor_fits).
  rewrite !N.lxor_spec. destruct (i + k <? w); destruct (i <? w); cbn [andb]; auto.
Qed.
Lemma fold_xorb_acc l : forall a, fold_left xorb l a = xorb a (fold_left xorb l false).
Proof.
  induction l as [|x l IH]; intros a; cbn [fold_left]; [now destruct a|]. rewrite IH, (IH (xorb false x)).
  now destruct a, x, (fold_left xorb l false).
Qed.
Lemma fold_xorb_app l1 l2 : fold_left xorb (l1 ++ l2) false = xorb (fold_left xorb l1 false) (fold_left xorb l2 false).
Proof. rewrite fold_left_app. apply fold_xorb_acc. Qed.
Lemma parity_xor a b : odd_parity (N.lxor a b) = xorb (odd_parity a) (odd_parity b).
Proof.
  unfold odd_parity. induction (seq 0 64) as [|i l IH]; auto. cbn [map fold_left].
  rewrite (fold_xorb_acc _ (xorb false (N.testbit (N.lxor a b) _))), (fold_xorb_acc _ (xorb false (N.testbit a _))),
    (fold_xorb_acc _ (xorb false (N.testbit b _))). rewrite IH, N.lxor_spec. 
  repeat match goal with |- context [N.testbit ?x ?y] => destruct (N.testbit x y) end;
  repeat match goal with |- context [fold_left xorb ?x ?y] => destruct (fold_left xorb x y) end; reflexivity.
Qed.
Lemma seq_shifted d n : forall s, map (fun i => (i + d)%nat) (seq s n) = seq (s + d) n.
Proof. induction n as [|n IH]; intros s; cbn [seq map]; auto. f_equal. apply (IH (S s)). Qed.
Lemma parity_rotr x k : fits 64 x -> (k <= 64)%nat -> odd_parity (rotr64 x (N.of_nat k)) = odd_parity x.
Proof.
  intros Hx Hk. unfold odd_parity.
  replace (map (fun i => N.testbit (rotr64 x (N.of_nat k)) (N.of_nat i)) (seq 0 64))
    with (map (fun i => N.testbit x (N.of_nat i)) (seq k (64 - k)) ++ map (fun i => N.testbit x (N.of_nat i)) (seq 0 k)).
  - rewrite fold_xorb_app, xorb_comm, <- fold_xorb_app, <- map_app.
    change (seq k (64 - k)) with (seq (0 + k) (64 - k)). rewrite <- seq_app. do 3 f_equal. lia.
  - replace (seq 0 64) with (seq 0 (64 - k) ++ seq (0 + (64 - k)) k).
    2:{ rewrite <- seq_app. f_equal. lia. }
    change (seq k (64 - k)) with (seq (0 + k) (64 - k)).
    rewrite <- !seq_shifted, map_app, !map_map. f_equal; apply map_ext_in; intros i Hi; apply in_seq in Hi;
      unfold rotr64; rewrite rotrw_testbit by (auto; lia).
    + destruct (N.ltb_spec (N.of_nat i) 64); [|lia]. destruct (N.ltb_spec (N.of_nat i + N.of_nat k) 64); [|lia].
      cbn [andb]. f_equal. lia.
    + destruct (N.ltb_spec (N.of_nat (i + (64 - k))) 64); [|lia].
      destruct (N.ltb_spec (N.of_nat (i + (64 - k)) + N.of_nat k) 64); [lia|]. cbn [andb]. f_equal. lia.
Qed.

Lemma final_even P h k : f2 P = N.of_nat k -> (k <= 64)%nat -> odd_parity (m64_final P h) = false.
Proof.
  intros E Hk. unfold m64_final. rewrite E. set (x := mul64 _ _). assert (Hx : fits 64 x) by apply mul64_fits. clearbody x.
  unfold xor. rewrite parity_xor, parity_rotr by auto. apply xorb_nilpotent.
Qed.

(** ** Number of results *)
(** Words repeating a nibble are fixed by rotation by 28; the word of all ones by
    every rotation. *)
Definition nibbles (p : N) : N := p * 0x1111111111111111.
Lemma nibbles_rot p : p < 16 -> rotr64 (nibbles p) 28 = nibbles p /\ fits 64 (nibbles p) /\ N.land (nibbles p) 15 = p.
Proof.
  intros H. unfold fits.
  assert (G : forallb (fun p => (rotr64 (nibbles p) 28 =? nibbles p) && (nibbles p <? 2 ^ 64) && (N.land (nibbles p) 15 =? p))
    (map N.of_nat (seq 0 16)) = true) by (vm_compute; reflexivity).
  rewrite forallb_forall in G. specialize (G p).
  assert (I : In p (map N.of_nat (seq 0 16))).
  { apply in_map_iff. exists (N.to_nat p). split; [lia|]. apply in_seq. lia. }
  apply G in I. apply andb_prop in I. destruct I as [I I3]. apply andb_prop in I. destruct I as [I1 I2].
  apply N.eqb_eq in I1. apply N.eqb_eq in I3. apply N.ltb_lt in I2. auto.
Qed.
Lemma clear_low x j c : fits 64 x -> fits 64 c -> j <= 64 -> N.land c (N.ones j) = N.land x (N.ones j) ->
  exists i, i < 2 ^ (64 - j) /\ N.lxor x c = N.shiftl i j.
Proof.
  intros Hx Hc Hj E. exists (N.shiftr (N.lxor x c) j). split.
  - rewrite N.shiftr_div_pow2. apply N.div_lt_upper_bound; [apply pow2_nz|]. rewrite <- N.pow_add_r.
    replace (j + (64 - j)) with 64 by lia. apply xor_fits; assumption.
  - apply N.bits_inj. intros n. destruct (N.lt_ge_cases n j) as [L|G].
    + rewrite N.shiftl_spec_low by assumption.
      assert (T : N.testbit (N.land c (N.ones j)) n = N.testbit (N.land x (N.ones j)) n) by now rewrite E.
      rewrite !N.land_spec, N.ones_spec_low in T by assumption. rewrite !andb_true_r in T. rewrite N.lxor_spec, T. apply xorb_nilpotent.
    + rewrite N.shiftl_spec_high' by assumption. rewrite N.shiftr_spec'. f_equal. lia.
Qed.
(** XOR-ing a word fixed by the first rotation of the finaliser does not change
    the result. *)
Lemma final_invariant P h c : fits 64 h -> fits 64 c -> f1 P <= 64 -> rotr64 c (f1 P) = c ->
  m64_final P (N.lxor h c) = m64_final P h.
Proof.
  intros Hh Hc Hf Er. unfold m64_final.
  replace (xor (N.lxor h c) (rotr64 (N.lxor h c) (f1 P))) with (xor h (rotr64 h (f1 P))); auto.
  unfold rotr64 at 2. rewrite rotr_lxor by assumption. fold rotr64. rewrite Er. unfold xor.
  apply N.bits_inj. intros n. rewrite !N.lxor_spec.
  destruct (N.testbit h n), (N.testbit c n), (N.testbit (rotr64 h (f1 P)) n); reflexivity.
Qed.
Lemma final_2_count h : fits 64 h -> exists i, i < 2 ^ 60 /\ m64_final p64_2 h = m64_final p64_2 (N.shiftl i 4).
Proof.
  intros Hh. set (p := N.land h 15).
  assert (Hp : p < 16). { unfold p. change 15 with (N.ones 4). rewrite N.land_ones. apply N.mod_lt. discriminate. }
  destruct (nibbles_rot p Hp) as (R1 & R2 & R3).
  destruct (clear_low h 4 (nibbles p) Hh R2 ltac:(lia) R3) as (i & Hi & E).
  exists i. split; auto. rewrite <- E. symmetry. apply final_invariant; auto. cbn. lia.
Qed.
Lemma final_1_count h : fits 64 h -> exists i, i < 2 ^ 63 /\ m64_final p64_1 h = m64_final p64_1 (N.shiftl i 1).
Proof.
  intros Hh. set (c := if N.testbit h 0 then N.ones 64 else 0).
  assert (Hc : fits 64 c) by (unfold c; destruct (N.testbit h 0); [apply ones_fits|apply fits_0]).
  destruct (clear_low h 1 c Hh Hc ltac:(lia)) as (i & Hi & E).
  { apply N.bits_inj. intros n. rewrite !N.land_spec. destruct (N.eq_dec n 0) as [->|Hn].
    - unfold c. now destruct (N.testbit h 0).
    - rewrite N.ones_spec_high by lia. now rewrite !andb_false_r. }
  exists i. split; auto. rewrite <- E. symmetry. apply final_invariant; auto; [cbn; lia|].
  unfold c. now destruct (N.testbit h 0).
Qed.
