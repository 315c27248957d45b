(** Proofs about the small hashes. *)
From Coq Require Import NArith List Arith Lia Permutation FinFun.
From Verif Require Import Words WordLemmas ListLemmas Mem Bij WordBij Mm3Spec Mm3Proofs GomapProofs SmallModel SmallSpec.
Import ListNotations.
Open Scope N_scope.

Lemma shl_mod w x k : shlw w x k = (x * 2 ^ k) mod 2 ^ w.
Proof. unfold shlw. now rewrite wrap_mod, N.shiftl_mul_pow2. Qed.
Lemma shr_div x k : shr x k = x / 2 ^ k.
Proof. apply N.shiftr_div_pow2. Qed.
Lemma bytes_cons a k : bytes_ok (a :: k) -> a < 256 /\ bytes_ok k.
Proof. intros H. inversion H; subst. split; assumption. Qed.

(** ** Sbox *)
Lemma SBox_len : length SBoxTable = 256%nat. Proof. reflexivity. Qed.
Lemma SBox_fits b : fits 32 (nth (N.to_nat b) SBoxTable 0).
Proof.
  assert (H : forallb (fitsb 32) SBoxTable = true) by (vm_compute; reflexivity).
  destruct (Nat.lt_ge_cases (N.to_nat b) 256) as [L|L].
  - apply N.ltb_lt. apply (proj1 (forallb_forall _ _) H). apply nth_In. exact L.
  - rewrite nth_overflow by exact L. apply fits_0.
Qed.
Lemma sbox_one (h : N) b : b < 256 -> idx SBoxTable (N.to_nat b) = Ok (nth (N.to_nat b) SBoxTable 0).
Proof. intros Hb. apply idx_ok. rewrite SBox_len. lia. Qed.
Lemma sbox_step_eq h b : mul32 (xor h (nth (N.to_nat b) SBoxTable 0)) 3 = sbox_step SBoxTable h b.
Proof. unfold mul32. now rewrite mulw_mod. Qed.
Global Opaque SBoxTable.

Lemma sbox_loop_ok fuel : forall key h, bytes_ok key -> (length key < fuel)%nat ->
  exists key' h', sbox_loop fuel (length key) key h = Ok (length key', key', h') /\ (length key' < 2)%nat /\ bytes_ok key' /\
  fold_left (sbox_step SBoxTable) key h = fold_left (sbox_step SBoxTable) key' h'.
Proof.
  induction fuel as [|fuel IH]; intros key h Hk L; [lia|].
  destruct key as [|a [|b key]].
  - exists [], h. cbn. repeat split; auto.
  - exists [a], h. cbn. repeat split; auto.
  - destruct (bytes_cons _ _ Hk) as [Ha Hk']. destruct (bytes_cons _ _ Hk') as [Hb Hk''].
    cbn [length] in *. cbn [sbox_loop Nat.div2 Nat.eqb idx nth_error rbind].
    rewrite (sbox_one h a Ha). cbn [rbind]. rewrite (sbox_one h b Hb). cbn [rbind].
    rewrite !sbox_step_eq. cbn [tail_from length Nat.leb skipn rbind].
    replace (S (S (length key)) - 2)%nat with (length key) by lia.
    destruct (IH key (sbox_step SBoxTable (sbox_step SBoxTable h a) b) Hk'') as (key' & h' & E & L' & Hk3 & F); [lia|].
    exists key', h'. repeat split; auto.
Qed.
Lemma Sbox_ok key seed : bytes_ok key -> Sbox key seed = Ok (sbox_spec SBoxTable key seed).
Proof.
  intros Hk. unfold Sbox, sbox_spec.
  replace (add32 (wrap 32 (N.of_nat (length key))) seed) with ((N.of_nat (length key) + seed) mod 2 ^ 32)
    by (unfold add32; now rewrite addw_wrap_l, addw_mod).
  set (h := (N.of_nat (length key) + seed) mod 2 ^ 32). clearbody h.
  destruct (sbox_loop_ok (S (length key)) key h Hk (Nat.lt_succ_diag_r _)) as (key' & h' & E & L & Hk' & F).
  rewrite E, F. cbn [rbind].
  assert (Fin : forall x, add32 x (xor (shr x 22) (shl32 x 4)) = sbox_final x).
  { intros x. unfold add32, shl32, xor, sbox_final. now rewrite addw_mod, shl_mod, shr_div. }
  destruct key' as [|a [|b key']]; [| |cbn in L; lia]; cbn [length Nat.odd Nat.even negb idx nth_error rbind fold_left].
  - now rewrite Fin.
  - destruct (bytes_cons _ _ Hk') as [Ha _]. change (Nat.odd 1) with true. cbv iota. cbn [idx nth_error rbind]. rewrite (sbox_one h' a Ha). cbn [rbind]. now rewrite sbox_step_eq, Fin.
Qed.

Lemma bij_sbox_step b : bijection_on (fits 32) (fun h => sbox_step SBoxTable h b).
Proof.
  apply (bij_comp (fits 32) (fun h => N.lxor h (nth (N.to_nat b) SBoxTable 0)) (fun x => (x * 3) mod 2 ^ 32)).
  - apply (bij_xor 32). apply SBox_fits.
  - now apply bij_mulmod.
Qed.
Lemma bij_fold_step key : bijection_on (fits 32) (fun h => fold_left (sbox_step SBoxTable) key h).
Proof.
  induction key as [|a key IH]; [apply bij_id|].
  apply (bij_comp (fits 32) (fun h => sbox_step SBoxTable h a) (fun h => fold_left (sbox_step SBoxTable) key h)); auto using bij_sbox_step.
Qed.
Lemma bij_sbox_state key : bijection_on (fits 32) (fun s => fold_left (sbox_step SBoxTable) key ((N.of_nat (length key) + s) mod 2 ^ 32)).
Proof.
  apply (bij_comp (fits 32) (fun s => (N.of_nat (length key) + s) mod 2 ^ 32) (fun h => fold_left (sbox_step SBoxTable) key h)); [|apply bij_fold_step].
  eapply bij_ext; [|apply (bij_add_l 32 (N.of_nat (length key)))]. intros x _. cbn. now rewrite addw_mod.
Qed.

(** A function on words that is not one-to-one misses a word. *)
Lemma bounded_search n (P : nat -> Prop) : (forall i, P i \/ ~ P i) -> (exists i, (i < n)%nat /\ P i) \/ (forall i, (i < n)%nat -> ~ P i).
Proof.
  intros D. induction n as [|n [(i & Li & Hi)|IH]].
  - right. intros i Hi. lia.
  - left. exists i. split; [lia|assumption].
  - destruct (D n) as [Hn|Hn]; [left; exists n; split; [lia|assumption]|].
    right. intros i Hi. destruct (Nat.eq_dec i n) as [->|Ne]; [assumption|]. apply IH. lia.
Qed.
Lemma missed w f x y : (forall z, fits w z -> fits w (f z)) -> fits w x -> fits w y -> x <> y -> f x = f y ->
  exists v, fits w v /\ forall z, fits w z -> f z <> v.
Proof.
  intros Hf Hx Hy Ne E.
  set (n := N.to_nat (2 ^ w)). set (g := fun i => N.to_nat (f (N.of_nat i))).
  assert (In : forall z, fits w z <-> (N.to_nat z < n)%nat) by (intros z; unfold fits, n; lia). clearbody n.
  assert (Bf : bFun n g). { intros i Hi. unfold g. apply In, Hf, In. now rewrite Nat2N.id. }
  destruct (bounded_search n (fun v => forall i, (i < n)%nat -> g i <> v)) as [(v & Lv & Hv)|All].
  - intros v. destruct (bounded_search n (fun i => g i = v)) as [(i & Li & Hi)|H]; [intros i; destruct (Nat.eq_dec (g i) v); auto| |left; exact H].
    right. intros H. exact (H i Li Hi).
  - exists (N.of_nat v). split; [apply In; now rewrite Nat2N.id|].
    intros z Hz Ez. apply (Hv (N.to_nat z)); [now apply In|]. unfold g. rewrite N2Nat.id, Ez. apply Nat2N.id.
  - exfalso. assert (S : bSurjective n g).
    { intros v Lv. destruct (bounded_search n (fun i => g i = v)) as [(i & Li & Hi)|H]; [intros i; destruct (Nat.eq_dec (g i) v); auto|eauto|].
      exfalso. apply (All v Lv). exact H. }
    apply (bInjective_bSurjective Bf) in S. apply Ne. apply N2Nat.inj. apply S; [now apply In|now apply In|].
    unfold g. rewrite !N2Nat.id. now rewrite E.
Qed.
Lemma sbox_final_fits h : fits 32 (sbox_final h). Proof. apply mod_fits. Qed.
Lemma sbox_spec_seeds key : exists s1 s2, fits 32 s1 /\ fits 32 s2 /\ s1 <> s2 /\ sbox_spec SBoxTable key s1 = sbox_spec SBoxTable key s2.
Proof.
  destruct (bij_surj _ _ (bij_sbox_state key) 4189665757) as (s1 & F1 & E1); [reflexivity|].
  destruct (bij_surj _ _ (bij_sbox_state key) 147343600) as (s2 & F2 & E2); [reflexivity|].
  exists s1, s2. repeat split; auto.
  - intros ->. rewrite E1 in E2. discriminate E2.
  - unfold sbox_spec. rewrite E1, E2. reflexivity.
Qed.

(** ** CrapWow *)
Lemma slice_short b : (length b < 4)%nat -> sliceUI32 b = [].
Proof. intros H. unfold sliceUI32. now rewrite Nat.div_small. Qed.
Lemma slice_cons b : (4 <= length b)%nat -> sliceUI32 b = le_load (firstn 4 b) :: sliceUI32 (skipn 4 b).
Proof.
  intros H. unfold sliceUI32. rewrite skipn_length.
  replace (length b / 4)%nat with (S ((length b - 4) / 4)).
  2:{ replace (length b) with (length b - 4 + 1 * 4)%nat at 2 by lia. rewrite Nat.div_add by lia. lia. }
  rewrite <- cons_seq, <- seq_shift, map_cons, map_map. f_equal.
  apply map_ext. intros i. rewrite <- skipn_add. do 3 f_equal. lia.
Qed.
Lemma cwmixa_eq i hk : fits 32 i -> cwmixa i hk = xor2 hk (share (A, i)).
Proof.
  intros Hi. unfold cwmixa, xor2, share, mul64. destruct hk as [h k]. cbn [fst snd]. unfold xor, lo, hi.
  assert (P : fits 64 (i * cw_m)). { unfold fits in *. change cw_m with 1465226281. change (2 ^ 32) with 4294967296 in *. change (2 ^ 64) with 18446744073709551616. lia. }
  rewrite mulw_mod, (N.mod_small _ _ P), !shr_div, !wrap_mod.
  rewrite (N.mod_small (_ / _)); [reflexivity|]. apply N.div_lt_upper_bound; [discriminate|exact P].
Qed.
Lemma cwmixb_eq i hk : fits 32 i -> cwmixb i hk = xor2 hk (share (B, i)).
Proof.
  intros Hi. unfold cwmixb, xor2, share, mul64. destruct hk as [h k]. cbn [fst snd]. unfold xor, lo, hi.
  assert (P : fits 64 (i * cw_n)). { unfold fits in *. change cw_n with 1347595483. change (2 ^ 32) with 4294967296 in *. change (2 ^ 64) with 18446744073709551616. lia. }
  rewrite mulw_mod, (N.mod_small _ _ P), !shr_div, !wrap_mod.
  rewrite (N.mod_small (_ / _)); [reflexivity|]. apply N.div_lt_upper_bound; [discriminate|exact P].
Qed.
Lemma xor2_assoc x y z : xor2 (xor2 x y) z = xor2 x (xor2 y z).
Proof. unfold xor2. cbn [fst snd]. now rewrite !N.lxor_assoc. Qed.
Lemma xor2_comm x y : xor2 x y = xor2 y x.
Proof. unfold xor2. now rewrite (N.lxor_comm (fst x)), (N.lxor_comm (snd x)). Qed.
Lemma xor2_0 x : xor2 x (0, 0) = x.
Proof. destruct x. unfold xor2. cbn [fst snd]. now rewrite !N.lxor_0_r. Qed.
Lemma xor2_self x : xor2 x x = (0, 0).
Proof. unfold xor2. now rewrite !N.lxor_nilpotent. Qed.
Global Opaque xor2 share.

Lemma word_fits l : bytes_ok l -> (length l <= 4)%nat -> fits 32 (le_int l).
Proof. intros H L. rewrite (le_int_load l H). apply le_load_fits; [exact H|lia]. Qed.
Lemma parts8 a b c d e f g h r : parts (a :: b :: c :: d :: e :: f :: g :: h :: r) = (B, le_int [a; b; c; d]) :: (A, le_int [e; f; g; h]) :: parts r.
Proof. reflexivity. Qed.
Lemma cw_loop_ok fuel : forall key hk, bytes_ok key -> (length key < fuel)%nat ->
  exists key' hk', cw_loop fuel (length key) (sliceUI32 key) key hk = Ok (length key', sliceUI32 key', key', hk') /\ (length key' < 8)%nat /\ bytes_ok key' /\
  xor2 hk (shares (parts key)) = xor2 hk' (shares (parts key')).
Proof.
  induction fuel as [|fuel IH]; intros key hk Hk L; [lia|].
  destruct key as [|a [|b [|c [|d [|e [|f [|g [|h key]]]]]]]];
    try (eexists _, hk; split; [reflexivity|]; split; [cbn [length]; lia|]; split; [exact Hk|reflexivity]).
  assert (H4 : bytes_ok [a; b; c; d]) by (apply (bytes_ok_firstn 4) in Hk; exact Hk).
  assert (H8 : bytes_ok [e; f; g; h]) by (apply (bytes_ok_skipn 4), (bytes_ok_firstn 4) in Hk; exact Hk).
  assert (Hr : bytes_ok key) by (apply (bytes_ok_skipn 8) in Hk; exact Hk).
  rewrite slice_cons by (cbn [length]; lia). rewrite slice_cons by (cbn [length skipn]; lia). cbn [skipn firstn].
  cbn [cw_loop length Nat.leb idx nth_error rbind tail_from skipn]. cbn [cw_loop length] in L.
  rewrite <- (le_int_load _ H4), <- (le_int_load _ H8).
  rewrite cwmixb_eq, cwmixa_eq by (apply word_fits; cbn [length]; auto with arith).
  change (tail_from (?x :: ?y :: ?z) 2) with (Ok z).
  replace (S (S (S (S (S (S (S (S (length key)))))))) - 8)%nat with (length key) by lia.
  destruct (IH key (xor2 (xor2 hk (share (B, le_int [a; b; c; d]))) (share (A, le_int [e; f; g; h]))) Hr) as (key' & hk' & E & L' & Hk' & F); [lia|].
  exists key', hk'. split; [exact E|]. split; [exact L'|]. split; [exact Hk'|].
  rewrite <- F, parts8. unfold shares. cbn [map fold_right]. now rewrite !xor2_assoc.
Qed.

Lemma shl_byte c k : c < 256 -> k <= 16 -> shl32 c k = N.shiftl c k.
Proof.
  intros Hc Hk. unfold shl32, shlw. apply wrap_small. unfold fits. rewrite N.shiftl_mul_pow2.
  apply N.lt_le_trans with (2 ^ 8 * 2 ^ k).
  - apply N.mul_lt_mono_pos_r; [apply pow2_pos|exact Hc].
  - rewrite <- N.pow_add_r. apply N.pow_le_mono_r; lia.
Qed.
Lemma left3 a b c : bytes_ok [a; b; c] -> N.land (N.lor (N.lor (shl32 c 16) (shl32 b 8)) a) (2 ^ 24 - 1) = le_int [a; b; c].
Proof.
  intros H. destruct (bytes_cons _ _ H) as [Ha H']. destruct (bytes_cons _ _ H') as [Hb H'']. destruct (bytes_cons _ _ H'') as [Hc _].
  rewrite !shl_byte by (auto; lia). rewrite (le_int_load _ H).
  replace (N.lor (N.lor (N.shiftl c 16) (N.shiftl b 8)) a) with (le_load [a; b; c]).
  - apply (wrap_small 24). apply le_load_fits; [exact H|cbn [length]; lia].
  - cbn [le_load]. rewrite N.shiftl_0_l, N.lor_0_r, N.shiftl_lor, N.shiftl_shiftl. change (8 + 8) with 16.
    rewrite (N.lor_comm a), (N.lor_comm (N.shiftl b 8)). reflexivity.
Qed.
Lemma left2 a b : bytes_ok [a; b] -> N.land (N.lor (shl32 b 8) a) (2 ^ 16 - 1) = le_int [a; b].
Proof.
  intros H. destruct (bytes_cons _ _ H) as [Ha H']. destruct (bytes_cons _ _ H') as [Hb _].
  rewrite !shl_byte by (auto; lia). rewrite (le_int_load _ H).
  replace (N.lor (N.shiftl b 8) a) with (le_load [a; b]).
  - apply (wrap_small 16). apply le_load_fits; [exact H|cbn [length]; lia].
  - cbn [le_load]. rewrite N.shiftl_0_l, N.lor_0_r. apply N.lor_comm.
Qed.
Lemma left1 a : bytes_ok [a] -> N.land a (2 ^ 8 - 1) = le_int [a].
Proof.
  intros H. destruct (bytes_cons _ _ H) as [Ha _]. cbn [le_int]. rewrite N.add_0_r. apply (wrap_small 8). exact Ha.
Qed.
Lemma crap_fits_tail r hk : (length r <= 3)%nat -> bytes_ok r ->
  (if Nat.eqb (length r) 3 then
       c <~ idx r 2 ;; b <~ idx r 1 ;; a <~ idx r 0 ;;
       Ok (cwmixa (N.land (N.lor (N.lor (shl32 c 16) (shl32 b 8)) a) (2 ^ 24 - 1)) hk)
     else if Nat.eqb (length r) 2 then
       b <~ idx r 1 ;; a <~ idx r 0 ;; Ok (cwmixa (N.land (N.lor (shl32 b 8) a) (2 ^ 16 - 1)) hk)
     else if Nat.eqb (length r) 1 then
       a <~ idx r 0 ;; Ok (cwmixa (N.land a (2 ^ 8 - 1)) hk)
     else Ok hk) = Ok (xor2 hk (shares (leftover r))).
Proof.
  intros L H. destruct r as [|a [|b [|c [|d r]]]]; [| | | |cbn in L; lia]; cbn [length Nat.eqb idx nth_error rbind].
  - cbn [leftover shares map fold_right]. now rewrite xor2_0.
  - rewrite (left1 _ H), cwmixa_eq by (apply word_fits; auto with arith). cbn [leftover shares map fold_right]. now rewrite xor2_0.
  - rewrite (left2 _ _ H), cwmixa_eq by (apply word_fits; auto with arith). cbn [leftover shares map fold_right]. now rewrite xor2_0.
  - rewrite (left3 _ _ _ H), cwmixa_eq by (apply word_fits; auto with arith). cbn [leftover shares map fold_right]. now rewrite xor2_0.
Qed.
Lemma parts_short r : (length r < 4)%nat -> parts r = leftover r.
Proof. destruct r as [|a [|b [|c [|d r]]]]; cbn [length]; try reflexivity. lia. Qed.
Lemma parts4 a b c d r : (length r < 4)%nat -> parts (a :: b :: c :: d :: r) = (B, le_int [a; b; c; d]) :: leftover r.
Proof. destruct r as [|e [|f [|g [|h r]]]]; cbn [length]; try reflexivity. lia. Qed.
Lemma shares_cons p ps : shares (p :: ps) = xor2 (share p) (shares ps). Proof. reflexivity. Qed.
Lemma share_fits p : fits 32 (snd p) -> fits 32 (fst (share p)) /\ fits 32 (snd (share p)).
Proof.
  intros Hp. with_strategy transparent [share] unfold share. destruct p as [q x]. cbn [fst snd] in *.
  assert (T : forall M, M < 2 ^ 32 -> fits 32 (hi (x * M))).
  { intros M HM. unfold hi, fits in *. apply N.div_lt_upper_bound; [discriminate|]. apply N.mul_lt_mono; assumption. }
  destruct q; cbn [fst snd]; split; try (apply mod_fits); apply T; reflexivity.
Qed.
Lemma parts_fits key : bytes_ok key -> Forall (fun p => fits 32 (snd p)) (parts key).
Proof.
  remember (length key) as n eqn:En. revert key En. induction n as [n IH] using lt_wf_ind. intros key -> Hk.
  assert (Hl : forall r, bytes_ok r -> (length r < 4)%nat -> Forall (fun p => fits 32 (snd p)) (leftover r)).
  { intros r Hr L. destruct r as [|a r]; [constructor|]. constructor; [|constructor]. cbn [snd]. apply word_fits; [exact Hr|lia]. }
  destruct key as [|a [|b [|c [|d key]]]]; try (apply Hl; [exact Hk|cbn [length]; lia]).
  assert (H4 : bytes_ok [a; b; c; d]) by (apply (bytes_ok_firstn 4) in Hk; exact Hk).
  assert (Hr : bytes_ok key) by (apply (bytes_ok_skipn 4) in Hk; exact Hk).
  destruct (Nat.lt_ge_cases (length key) 4) as [L|L].
  - rewrite parts4 by exact L. constructor; [cbn [snd]; apply word_fits; auto with arith|auto].
  - destruct key as [|e [|f [|g [|h key]]]]; try (cbn [length] in L; lia).
    rewrite parts8. constructor; [cbn [snd]; apply word_fits; auto with arith|].
    constructor; [cbn [snd]; apply word_fits; [apply (bytes_ok_firstn 4) in Hr; exact Hr|auto with arith]|].
    apply (IH (length key)); [cbn [length]; lia|reflexivity|]. apply (bytes_ok_skipn 4) in Hr. exact Hr.
Qed.
Lemma xor2_fits x y : fits 32 (fst x) /\ fits 32 (snd x) -> fits 32 (fst y) /\ fits 32 (snd y) -> fits 32 (fst (xor2 x y)) /\ fits 32 (snd (xor2 x y)).
Proof. intros [? ?] [? ?]. with_strategy transparent [xor2] unfold xor2. split; apply xor_fits; assumption. Qed.
Lemma shares_fits ps : Forall (fun p => fits 32 (snd p)) ps -> fits 32 (fst (shares ps)) /\ fits 32 (snd (shares ps)).
Proof.
  induction 1 as [|p ps Hp Hps IH]; [split; apply fits_0|]. rewrite shares_cons. apply xor2_fits; [now apply share_fits|exact IH].
Qed.
Lemma CrapWow_ok key seed : bytes_ok key -> CrapWow key seed = Ok (crapwow_spec key seed).
Proof.
  intros Hk. unfold CrapWow, crapwow_spec.
  replace (wrap 32 (N.of_nat (length key))) with (lo (N.of_nat (length key))) by (unfold lo; now rewrite wrap_mod).
  set (n := lo (N.of_nat (length key))).
  replace (add32 (add32 n seed) cw_n) with ((n + seed + MB) mod 2 ^ 32).
  2:{ unfold add32. rewrite !addw_mod, N.add_mod_idemp_l by apply pow2_nz. reflexivity. }
  set (hk := (n, (n + seed + MB) mod 2 ^ 32)).
  assert (Fhk : fits 32 (fst hk) /\ fits 32 (snd hk)) by (split; apply mod_fits).
  assert (Fin := xor2_fits _ _ Fhk (shares_fits _ (parts_fits key Hk))). clearbody hk.
  destruct (cw_loop_ok (S (length key)) key hk Hk (Nat.lt_succ_diag_r _)) as (key' & hk' & E & L & Hk' & F).
  rewrite E. cbn [rbind]. rewrite F in Fin |- *. clear E F.
  assert (Last : forall r hk1, (length r <= 3)%nat -> bytes_ok r -> xor2 hk' (shares (parts key')) = xor2 hk1 (shares (leftover r)) ->
    (hk0 <~ (if Nat.eqb (length r) 3 then
       c <~ idx r 2 ;; b <~ idx r 1 ;; a <~ idx r 0 ;;
       Ok (cwmixa (N.land (N.lor (N.lor (shl32 c 16) (shl32 b 8)) a) (2 ^ 24 - 1)) hk1)
     else if Nat.eqb (length r) 2 then
       b <~ idx r 1 ;; a <~ idx r 0 ;; Ok (cwmixa (N.land (N.lor (shl32 b 8) a) (2 ^ 16 - 1)) hk1)
     else if Nat.eqb (length r) 1 then
       a <~ idx r 0 ;; Ok (cwmixa (N.land a (2 ^ 8 - 1)) hk1)
     else Ok hk1) ;; let '(h, k) := hk0 in let '(h, k) := cwmixb (xor h (add32 k cw_n)) (h, k) in Ok (xor k h)) =
    Ok (let '(h, k) := xor2 hk' (shares (parts key')) in let p := N.lxor h ((k + MB) mod 2 ^ 32) * MB in N.lxor (N.lxor k (hi p)) (N.lxor h (lo p)))).
  { intros r hk1 Lr Hr Er. rewrite (crap_fits_tail r hk1 Lr Hr). rewrite <- Er. cbn [rbind]. destruct (xor2 hk' (shares (parts key'))) as [h k].
    cbn [fst snd] in Fin. destruct Fin as [Fh Fk].
    rewrite cwmixb_eq by (apply xor_fits; [exact Fh|apply add32_fits]).
    unfold add32, xor. rewrite addw_mod. with_strategy transparent [share xor2] unfold share, xor2. cbn [fst snd]. reflexivity. }
  destruct (Nat.leb_spec 4 (length key')) as [L4|L4].
  - destruct key' as [|a [|b [|c [|d r]]]]; try (cbn [length] in L4; lia).
    assert (H4 : bytes_ok [a; b; c; d]) by (apply (bytes_ok_firstn 4) in Hk'; exact Hk').
    assert (Hr : bytes_ok r) by (apply (bytes_ok_skipn 4) in Hk'; exact Hk').
    rewrite slice_cons by exact L4. cbn [skipn firstn idx nth_error rbind].
    change (tail_from (?x :: ?y) 1) with (Ok y). change (tail_from (a :: b :: c :: d :: r) 4) with (Ok r). cbn [rbind].
    rewrite <- (le_int_load _ H4). rewrite cwmixb_eq by (apply word_fits; auto with arith).
    replace (length (a :: b :: c :: d :: r) - 4)%nat with (length r) by (cbn [length]; lia).
    apply Last; [cbn [length] in L; lia|exact Hr|].
    rewrite parts4 by (cbn [length] in L; lia). now rewrite shares_cons, xor2_assoc.
  - cbn [rbind]. apply Last; [lia|exact Hk'|]. now rewrite parts_short.
Qed.

(** Blocks of eight bytes may be permuted, and equal pairs cancel. *)
Lemma parts_block x t : length x = 8%nat -> parts (x ++ t) = parts x ++ parts t.
Proof. destruct x as [|a [|b [|c [|d [|e [|f [|g [|h [|i x]]]]]]]]]; try discriminate. intros _. reflexivity. Qed.
Lemma shares_app ps qs : shares (ps ++ qs) = xor2 (shares ps) (shares qs).
Proof.
  induction ps as [|p ps IH]; cbn [app].
  - rewrite xor2_comm. change (shares []) with (0, 0). now rewrite xor2_0.
  - now rewrite !shares_cons, IH, xor2_assoc.
Qed.
Definition block_shares (bs : list (list N)) : N * N := fold_right (fun b => xor2 (shares (parts b))) (0, 0) bs.
Lemma shares_blocks bs t : Forall (fun b => length b = 8%nat) bs -> shares (parts (concat bs ++ t)) = xor2 (block_shares bs) (shares (parts t)).
Proof.
  induction 1 as [|b bs Hb Hbs IH]; cbn [concat app block_shares fold_right].
  - now rewrite xor2_comm, xor2_0.
  - rewrite <- app_assoc, parts_block, shares_app, IH by exact Hb. now rewrite xor2_assoc.
Qed.
Lemma block_shares_perm bs bs' : Permutation bs bs' -> block_shares bs = block_shares bs'.
Proof.
  induction 1 as [|x l l' Hp IH|x y l|l l' l'' H1 IH1 H2 IH2].
  - reflexivity.
  - change (xor2 (shares (parts x)) (block_shares l) = xor2 (shares (parts x)) (block_shares l')). now rewrite IH.
  - change (xor2 (shares (parts y)) (xor2 (shares (parts x)) (block_shares l)) = xor2 (shares (parts x)) (xor2 (shares (parts y)) (block_shares l))).
    rewrite <- !xor2_assoc. f_equal. apply xor2_comm.
  - congruence.
Qed.
Lemma concat_length8 (bs : list (list N)) : Forall (fun b => length b = 8%nat) bs -> length (concat bs) = (8 * length bs)%nat.
Proof. induction 1 as [|b bs Hb Hbs IH]; [reflexivity|]. cbn [concat length]. rewrite app_length, Hb, IH. lia. Qed.

(** ** MaHash *)
Lemma sTable_len : length sTable = 256%nat. Proof. reflexivity. Qed.
Lemma sTable_fits c : nth (N.to_nat c) sTable 0 < 256.
Proof.
  assert (H : forallb (fitsb 8) sTable = true) by (vm_compute; reflexivity).
  destruct (Nat.lt_ge_cases (N.to_nat c) 256) as [L|L].
  - change 256 with (2 ^ 8). apply N.ltb_lt. apply (proj1 (forallb_forall _ _) H). apply nth_In. exact L.
  - rewrite nth_overflow by exact L. reflexivity.
Qed.
Lemma LROT14_rol x : fits 32 x -> LROT14 x = rol 32 x 14.
Proof. intros H. rewrite rol_rotl by (auto; lia). reflexivity. Qed.
Lemma RROT14_rol x : fits 32 x -> RROT14 x = rol 32 x 18.
Proof. intros H. rewrite rol_rotl by (auto; lia). reflexivity. Qed.
Lemma grind_eq x : add32 x (xor (shl32 x 6) (shr x 11)) = ma_grind x.
Proof. unfold add32, shl32, xor, ma_grind. now rewrite addw_mod, shl_mod, shr_div. Qed.
Lemma lor_add a b k : a < 2 ^ k -> N.lor a (b * 2 ^ k) = a + 2 ^ k * b.
Proof.
  intros H. rewrite <- N.shiftl_mul_pow2. rewrite <- N.lxor_lor.
  - rewrite <- N.add_nocarry_lxor; [now rewrite N.shiftl_mul_pow2, (N.mul_comm b)|].
    apply N.bits_inj_0. intros i. rewrite N.land_spec. destruct (N.lt_ge_cases i k) as [L|L].
    + rewrite N.shiftl_spec_low by exact L. apply Bool.andb_false_r.
    + rewrite (fits_high k) by assumption. reflexivity.
  - apply N.bits_inj_0. intros i. rewrite N.land_spec. destruct (N.lt_ge_cases i k) as [L|L].
    + rewrite N.shiftl_spec_low by exact L. apply Bool.andb_false_r.
    + rewrite (fits_high k) by assumption. reflexivity.
Qed.
Lemma halves x y : fits 32 x -> N.lor (N.land (shr x 16) 0xffff) (shl32 (N.land y 0xffff) 16) = x / 65536 + 65536 * (y mod 65536).
Proof.
  intros Hx. change 0xffff with (N.ones 16). rewrite !N.land_ones. unfold shl32. rewrite shl_mod, shr_div.
  change (2 ^ 16) with 65536. assert (Hy : y mod 65536 < 65536) by (apply N.mod_lt; discriminate).
  assert (Hq : x / 65536 < 65536) by (apply N.div_lt_upper_bound; [discriminate|exact Hx]).
  rewrite (N.mod_small (x / 65536)) by exact Hq. rewrite (N.mod_small (_ * _)) by (change (2 ^ 32) with 4294967296; lia).
  apply (lor_add _ _ 16). exact Hq.
Qed.
Lemma ma_loop_ok key : forall h1 h2, bytes_ok key -> fits 32 h1 -> fits 32 h2 ->
  ma_loop key h1 h2 = Ok (fold_left (ma_step sTable) key (h1, h2)).
Proof.
  induction key as [|c key IH]; intros h1 h2 Hk F1 F2; [reflexivity|].
  destruct (bytes_cons _ _ Hk) as [Hc Hk']. cbn [ma_loop fold_left].
  rewrite (idx_ok sTable) by (rewrite sTable_len; lia). cbn [rbind].
  rewrite !grind_eq. rewrite LROT14_rol, RROT14_rol by apply mod_fits.
  rewrite !halves by (apply rol_fits; [apply mod_fits|lia]).
  unfold add32. rewrite !addw_mod.
  rewrite IH; [|exact Hk'| |].
  - unfold ma_step at 3. cbn [fst snd]. reflexivity.
  - set (a := rol _ _ 14). set (b := rol _ _ 18). assert (Ha : a / 65536 < 65536). { apply N.div_lt_upper_bound; [discriminate|]. apply (rol_fits 32); [apply mod_fits|lia]. }
    assert (Hb : b mod 65536 < 65536) by (apply N.mod_lt; discriminate). unfold fits. change (2 ^ 32) with 4294967296. lia.
  - set (a := rol _ _ 18). set (b := rol _ _ 14). assert (Ha : a / 65536 < 65536). { apply N.div_lt_upper_bound; [discriminate|]. apply (rol_fits 32); [apply mod_fits|lia]. }
    assert (Hb : b mod 65536 < 65536) by (apply N.mod_lt; discriminate). unfold fits. change (2 ^ 32) with 4294967296. lia.
Qed.
Lemma ma_step_fits ab c : fits 32 (fst (ma_step sTable ab c)) /\ fits 32 (snd (ma_step sTable ab c)).
Proof.
  assert (T : forall x y k l, k <= 32 -> l <= 32 -> fits 32 (rol 32 (ma_grind x) k / 65536 + 65536 * (rol 32 (ma_grind y) l mod 65536))).
  { intros x y k l Lk Ll. assert (Ha : rol 32 (ma_grind x) k / 65536 < 65536). { apply N.div_lt_upper_bound; [discriminate|]. apply (rol_fits 32); [apply mod_fits|exact Lk]. }
    assert (Hb : rol 32 (ma_grind y) l mod 65536 < 65536) by (apply N.mod_lt; discriminate). unfold fits. change (2 ^ 32) with 4294967296. lia. }
  unfold ma_step. cbn [fst snd]. split; apply T; lia.
Qed.
Lemma ma_fold_fits key : forall ab, fits 32 (fst ab) /\ fits 32 (snd ab) -> fits 32 (fst (fold_left (ma_step sTable) key ab)) /\ fits 32 (snd (fold_left (ma_step sTable) key ab)).
Proof. induction key as [|c key IH]; intros ab H; [exact H|]. cbn [fold_left]. apply IH, ma_step_fits. Qed.
Lemma LROT64_skew x : LROT64 x = ma_skew x.
Proof. unfold LROT64, ma_skew, shl64. now rewrite shl_mod, shr_div. Qed.
Lemma MaHash_ok key : bytes_ok key -> MaHash8v64 key = Ok (mahash_spec sTable key).
Proof.
  intros Hk. unfold MaHash8v64, mahash_spec. rewrite wrap_mod. set (n := N.of_nat (length key) mod 2 ^ 32).
  assert (Fn : fits 32 n) by apply mod_fits.
  rewrite ma_loop_ok by assumption. cbn [rbind].
  assert (Ff := ma_fold_fits key (n, n) (conj Fn Fn)). destruct (fold_left (ma_step sTable) key (n, n)) as [a b]. cbn [fst snd] in Ff. destruct Ff as [Fa Fb].
  replace (N.lor (shl64 a 32) b) with (a * 2 ^ 32 + b).
  - set (d := a * 2 ^ 32 + b). rewrite LROT64_skew. unfold add64, shl64, xor. now rewrite addw_mod, shl_mod, shr_div.
  - unfold shl64. rewrite shl_mod, N.mod_small.
    + rewrite N.lor_comm, (lor_add b a 32 Fb), N.add_comm. f_equal. apply N.mul_comm.
    + change (2 ^ 64) with (2 ^ 32 * 2 ^ 32). apply N.mul_lt_mono_pos_r; [reflexivity|exact Fa].
Qed.
Lemma LROT64_bits x i : N.testbit (LROT64 x) i = ((i <? 64) && (29 <=? i) && N.testbit x (i - 29)) || N.testbit x (i + 34).
Proof. unfold LROT64, shl64. now rewrite N.lor_spec, shlw_testbit, shr_testbit. Qed.

(** ** Sticky seeds *)
Lemma last_snoc {A} (l : list A) x d : last (l ++ [x]) d = x.
Proof. apply last_last. Qed.
Lemma last_default {A} (l : list A) d : l <> [] -> forall d', last l d = last l d'.
Proof. induction l as [|a [|b l] IH]; intros H d'; [congruence|reflexivity|]. change (last (b :: l) d = last (b :: l) d'). now apply IH. Qed.
Lemma in_force_cons s0 c cs : seed_in_force s0 (c :: cs) = seed_in_force (seed_in_force s0 [c]) cs.
Proof.
  unfold seed_in_force. cbn [flat_map]. rewrite app_nil_r. set (G := flat_map _ cs). clearbody G.
  destruct c as [b [|x seeds]]; [reflexivity|]. cbn [snd firstn app].
  destruct G as [|y l]; [reflexivity|]. change (last (x :: y :: l) s0) with (last (y :: l) s0). apply last_default. discriminate.
Qed.
Lemma in_force_fits s0 cs : fits 32 s0 -> Forall (fun c => Forall (fits 32) (snd c)) cs -> fits 32 (seed_in_force s0 cs).
Proof.
  revert s0. induction cs as [|[b seeds] cs IH]; intros s0 H0 H; [exact H0|]. inversion H; subst. cbn [snd] in *. rewrite in_force_cons. apply IH; [|assumption].
  destruct seeds as [|x seeds]; [exact H0|]. inversion H3. assumption.
Qed.
Lemma run_ok (F : list N -> N -> N) (H : State -> list N -> list N -> res (State * N))
  (H_ok : forall s b seeds, bytes_ok b -> H s b seeds = let x := hd (st_seed s) seeds in Ok (mkState (F b x) x, F b x)) : forall cs s, Forall (fun c => bytes_ok (fst c)) cs ->
  run H s cs = Ok (map (fun i => F (fst (nth i cs ([], []))) (seed_in_force (st_seed s) (firstn (S i) cs))) (seq 0 (length cs))).
Proof.
  induction cs as [|[b seeds] cs IH]; intros s Hb; [reflexivity|].
  inversion Hb; subst. cbn [run]. cbn [fst] in *. rewrite H_ok by assumption. cbn [rbind]. rewrite IH by assumption. cbn [rbind].
  f_equal. cbn [length seq map nth fst firstn]. f_equal.
  - destruct seeds; reflexivity.
  - rewrite <- seq_shift, map_map. apply map_ext. intros i. cbn [nth]. f_equal.
    change (firstn (S (S i)) ((b, seeds) :: cs)) with ((b, seeds) :: firstn (S i) cs). rewrite in_force_cons. destruct seeds; reflexivity.
Qed.
Lemma sbox_H s b seeds : bytes_ok b -> sbox_Hash32 s b seeds = let x := hd (st_seed s) seeds in Ok (mkState (sbox_spec SBoxTable b x) x, sbox_spec SBoxTable b x).
Proof. intros Hb. unfold sbox_Hash32. destruct seeds; cbn [hd st_seed]; now rewrite Sbox_ok. Qed.
Lemma crapwow_H s b seeds : bytes_ok b -> crapwow_Hash32 s b seeds = let x := hd (st_seed s) seeds in Ok (mkState (crapwow_spec b x) x, crapwow_spec b x).
Proof. intros Hb. unfold crapwow_Hash32. destruct seeds; cbn [hd st_seed]; now rewrite CrapWow_ok. Qed.

(** ** Nullhash *)
Definition counts (c : null_call) : bool := match c with CSum64 | CHash64 _ _ | CHash64S _ _ => true | _ => false end.
Lemma null_run_ctr cs : forall ctr, fits 64 ctr -> fst (null_run ctr cs) = (ctr + N.of_nat (length (filter counts cs))) mod 2 ^ 64.
Proof.
  induction cs as [|c cs IH]; intros ctr Hc; cbn [null_run filter length].
  - rewrite N.add_0_r. symmetry. now apply N.mod_small.
  - assert (T : forall c0, fits 64 c0 -> forall r, fst (let '(ctr0, r0) := (c0, r : null_result) in let '(ctr1, rs) := null_run ctr0 cs in (ctr1, r0 :: rs)) = (c0 + N.of_nat (length (filter counts cs))) mod 2 ^ 64).
    { intros c0 F0 r. rewrite <- (IH c0 F0). destruct (null_run c0 cs). reflexivity. }
    destruct c; cbn [null_do null_Write null_Sum null_Sum64 null_Reset null_Hash64 null_Hash64S counts]; rewrite T; auto using add64_fits;
      unfold add64; rewrite addw_mod, N.add_mod_idemp_l by apply pow2_nz; f_equal; cbn [length]; lia.
Qed.
Lemma null_run_app cs cs' ctr : snd (null_run ctr (cs ++ cs')) = snd (null_run ctr cs) ++ snd (null_run (fst (null_run ctr cs)) cs').
Proof.
  revert ctr. induction cs as [|c cs IH]; intros ctr; [reflexivity|]. cbn [app null_run]. destruct (null_do ctr c) as [ctr1 r]. specialize (IH ctr1).
  destruct (null_run ctr1 (cs ++ cs')), (null_run ctr1 cs). cbn [fst snd] in *. now rewrite IH.
Qed.
Lemma null_run_length cs : forall ctr, length (snd (null_run ctr cs)) = length cs.
Proof. induction cs as [|c cs IH]; intros ctr; [reflexivity|]. cbn [null_run]. destruct (null_do ctr c) as [ctr1 r]. specialize (IH ctr1). destruct (null_run ctr1 cs). cbn [snd length] in *. now rewrite IH. Qed.
Lemma null_word cs c ctr : fits 64 ctr -> counts c = true ->
  nth (length cs) (snd (null_run ctr (cs ++ [c]))) RNone = RWord ((ctr + N.of_nat (length (filter counts cs)) + 1) mod 2 ^ 64).
Proof.
  intros Hc H. rewrite null_run_app, app_nth2, null_run_length, Nat.sub_diag by (rewrite null_run_length; lia).
  rewrite (null_run_ctr cs ctr Hc).
  destruct c; try discriminate H; cbn [null_run null_do null_Sum64 null_Hash64 null_Hash64S snd nth]; unfold add64; rewrite addw_mod, N.add_mod_idemp_l by apply pow2_nz; reflexivity.
Qed.
