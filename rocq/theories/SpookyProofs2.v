(** Proofs about package spooky: SpookyHashShort and SpookyHash128 compute the
    published function. *)
From Verif Require Import Words WordLemmas ListLemmas Blocks Mem SLP Bij Mm3Spec Mm3Proofs SpookyModel SpookySpec SpookyProofs.
From Verif Require Import JenkinsProofs JenkinsProofs2 JenkinsProofs3 JenkinsProofs5.
Open Scope N_scope.

(** ** Loads *)
Lemma U8tou64le_ok p : (8 <= length p)%nat -> bytes_ok p -> U8tou64le p = Ok (le_int (firstn 8 p)).
Proof.
  intros Hl Hk. rewrite le_int_load by now apply bytes_ok_firstn. unfold U8tou64le. rewrite !idx_ok by lia. cbn [rbind].
  split_bytes p 8%nat. cbn [nth firstn]. cbn [le_load]. rewrite !shl64_byte' by (assumption || lia).
  rewrite ?N.shiftl_lor, ?N.shiftl_shiftl, ?N.shiftl_0_l, ?N.lor_0_r, !N.lor_assoc. reflexivity.
Qed.
Lemma U8tou32le_ok p : (4 <= length p)%nat -> bytes_ok p -> U8tou32le p = Ok (le_int (firstn 4 p)).
Proof.
  intros Hl Hk. rewrite le_int_load by now apply bytes_ok_firstn. unfold U8tou32le. rewrite !idx_ok by lia. cbn [rbind].
  split_bytes p 4%nat. cbn [nth firstn]. cbn [le_load]. rewrite !shl64_byte' by (assumption || lia).
  rewrite ?N.shiftl_lor, ?N.shiftl_shiftl, ?N.shiftl_0_l, ?N.lor_0_r, !N.lor_assoc. reflexivity.
Qed.
Lemma le_int_fits p n : bytes_ok p -> (n <= 8)%nat -> fits 64 (le_int (firstn n p)).
Proof.
  intros H Hn. rewrite le_int_load by now apply bytes_ok_firstn. apply le_load_fits; [now apply bytes_ok_firstn|].
  rewrite firstn_length. lia.
Qed.
Lemma words_of_cut fuel n b : length b = (8 * n)%nat -> (n <= fuel)%nat -> bytes_ok b ->
  map le_int (fst (cut fuel 8 b)) = words_of n b.
Proof.
  revert n b. induction fuel as [|fuel IH]; intros n b Hl Hn Hb.
  - assert (n = 0)%nat by lia. subst n. reflexivity.
  - destruct n as [|n].
    + destruct b; [reflexivity|discriminate].
    + cbn [cut]. destruct (Nat.ltb_spec (length b) 8); [lia|].
      specialize (IH n (skipn 8 b)). destruct (cut fuel 8 (skipn 8 b)) as [bs r]. cbn [fst map words_of] in *.
      rewrite IH; [|rewrite skipn_length; lia|lia|now apply bytes_ok_skipn].
      f_equal. apply le_int_load. now apply bytes_ok_firstn.
Qed.
Lemma words_words_of n b : length b = (8 * n)%nat -> bytes_ok b -> words b = words_of n b.
Proof. intros Hl Hb. unfold words, blocks. apply words_of_cut; auto. lia. Qed.
Lemma words_of_firstn m n b : (n <= m)%nat -> (8 * m <= length b)%nat -> firstn n (words_of m b) = words_of n (firstn (8 * n) b).
Proof.
  revert n b. induction m as [|m IH]; intros n b Hn Hl; [now replace n with O by lia|].
  destruct n as [|n]; [reflexivity|]. cbn [words_of]. rewrite firstn_cons.
  replace (8 * S n)%nat with (8 + 8 * n)%nat by lia.
  f_equal.
  - rewrite firstn_firstn. now replace (Nat.min 8 (8 + 8 * n)) with 8%nat by lia.
  - rewrite IH by (rewrite ?skipn_length; lia). rewrite (skipn_firstn_comm 8 (8 + 8 * n) b). now replace (8 + 8 * n - 8)%nat with (8 * n)%nat by lia.
Qed.
Lemma words_of_length n b : length (words_of n b) = n.
Proof. revert b. induction n; intros; cbn; auto. Qed.
Lemma words_of_fits n b : bytes_ok b -> Forall (fits 64) (words_of n b).
Proof.
  revert b. induction n as [|n IH]; intros b H; cbn [words_of]; constructor.
  - apply le_load_fits; [now apply bytes_ok_firstn|]. rewrite firstn_length. lia.
  - apply IH. now apply bytes_ok_skipn.
Qed.
Lemma words_regs b n : length b = (8 * n)%nat -> bytes_ok b -> regs_ok 64 n (words b).
Proof. intros Hl Hb. rewrite (words_words_of n) by assumption. split; [apply words_of_length|now apply words_of_fits]. Qed.
Lemma twelve_slice s : (96 <= length s)%nat -> bytes_ok s -> twelve (sliceUI64 s) = Ok (words (firstn 96 s)).
Proof.
  intros Hl Hb. unfold twelve, sliceUI64. rewrite words_of_length.
  assert (12 <= length s / 8)%nat by (apply Nat.div_le_lower_bound; lia).
  destruct (Nat.leb_spec 12 (length s / 8)); [|lia]. f_equal.
  rewrite (words_words_of 12) by (try apply bytes_ok_firstn; auto; rewrite firstn_length; lia).
  apply words_of_firstn; auto. apply Nat.mul_div_le. lia.
Qed.

(** ** Short messages *)
Lemma add_mod a b : (a + b) mod 2 ^ 64 = add64 a b.
Proof. symmetry. apply addw_mod. Qed.
Lemma add64_0 a : fits 64 a -> add64 a 0 = a.
Proof. intros H. unfold add64. rewrite addw_mod, N.add_0_r. now apply N.mod_small. Qed.
Lemma plus4_eq a b c d x y z t : plus4 [a; b; c; d] [x; y; z; t] = [add64 a x; add64 b y; add64 c z; add64 d t].
Proof. unfold plus4. cbn [combine map fst snd]. now rewrite !add_mod. Qed.
Definition toquad (h : list N) : quad := (nth 0 h 0, nth 1 h 0, nth 2 h 0, nth 3 h 0).
Lemma list4 (l : list N) : length l = 4%nat -> exists a b c d, l = [a; b; c; d].
Proof. intros H. do 4 (destruct l as [|? l]; [discriminate|]). destruct l; [|discriminate]. now repeat eexists. Qed.
Lemma regs4 a b c d : regs_ok 64 4 [a; b; c; d] <-> fits 64 a /\ fits 64 b /\ fits 64 c /\ fits 64 d.
Proof.
  split.
  - intros [_ H]. rewrite Forall_forall in H. repeat split; apply H; cbn; auto.
  - intros (? & ? & ? & ?). split; [reflexivity|]. now repeat constructor.
Qed.
Lemma add64_fits a b : fits 64 (add64 a b).
Proof. unfold add64. rewrite addw_mod. unfold fits. apply N.mod_lt. discriminate. Qed.
Lemma short_mix_spec h : regs_ok 64 4 h -> short_mix4 (toquad h) = toquad (spec_short_mix h) /\ regs_ok 64 4 (spec_short_mix h).
Proof.
  intros H. rewrite spec_short_mix_ok by assumption. split; [|now apply (proj1 short_mix_bij)].
  destruct (list4 h (proj1 H)) as (a & b & c & d & ->). reflexivity.
Qed.
(** The step shared by the loop and the 16-byte remainder. *)
Lemma half_step a b c d x y : fits 64 a -> fits 64 b -> fits 64 c -> fits 64 d ->
  short_mix4 (a, b, add64 c x, add64 d y) = toquad (spec_short_mix (plus4 [a; b; c; d] [0; 0; x; y])) /\
  regs_ok 64 4 (spec_short_mix (plus4 [a; b; c; d] [0; 0; x; y])).
Proof.
  intros. rewrite plus4_eq, !add64_0 by assumption.
  apply (short_mix_spec [a; b; add64 c x; add64 d y]). apply regs4. auto using add64_fits.
Qed.
Lemma block_words b i : length b = 32%nat -> bytes_ok b -> (i < 4)%nat -> nth i (words b) 0 = le_int (firstn 8 (skipn (8 * i) b)).
Proof.
  intros Hl Hb Hi. rewrite (words_words_of 4) by auto.
  rewrite le_int_load by now apply bytes_ok_firstn, bytes_ok_skipn.
  destruct i as [|[|[|[|]]]]; try lia; cbn [words_of nth]; rewrite <- ?skipn_add; reflexivity.
Qed.
Lemma short_block_ok h b : length b = 32%nat -> bytes_ok b -> regs_ok 64 4 h -> regs_ok 64 4 (spec_short_block h b).
Proof.
  intros Hl Hb Hh. destruct (list4 h (proj1 Hh)) as (a & b' & c & d & ->). apply regs4 in Hh. destruct Hh as (? & ? & ? & ?).
  unfold spec_short_block. cbv zeta. destruct (half_step a b' c d (nth 0 (words b) 0) (nth 1 (words b) 0)) as [_ R]; auto.
  destruct (list4 _ (proj1 R)) as (p & q & r & s & E). rewrite E in *. rewrite plus4_eq. apply regs4. auto using add64_fits.
Qed.
Lemma short_loop_run fuel : forall s h, (length s <= fuel)%nat -> bytes_ok s -> regs_ok 64 4 h ->
  short_loop fuel s (length s) (toquad h) =
  Ok (snd (absorb 32 spec_short_block h s), toquad (fst (absorb 32 spec_short_block h s))).
Proof.
  assert (P : (0 < 32)%nat) by lia.
  induction fuel as [|fuel IH]; intros s h Hf Hb Hh; cbn [short_loop].
  - destruct (Nat.leb_spec 32 (length s)); [lia|]. now rewrite (absorb_short 32 _ P).
  - destruct (Nat.leb_spec 32 (length s)) as [H|H]; [|now rewrite (absorb_short 32 _ P)].
    rewrite (absorb_step 32 _ P) by assumption.
    assert (Lb : length (firstn 32 s) = 32%nat) by (apply firstn_length_le; lia).
    assert (Bb : bytes_ok (firstn 32 s)) by now apply bytes_ok_firstn.
    pose proof (short_block_ok h (firstn 32 s) Lb Bb Hh) as Hh'.
    destruct (list4 h (proj1 Hh)) as (a & b & c & d & ->).
    change (toquad [a; b; c; d]) with (a, b, c, d). cbn iota.
    assert (B8 : forall n, bytes_ok (skipn n s)) by (intro; now apply bytes_ok_skipn).
    rewrite (U8tou64le_ok s) by (auto; lia). cbn [rbind]. rewrite (tail_from_ok s 8) by lia. cbn [rbind].
    rewrite (U8tou64le_ok (skipn 8 s)) by (auto; rewrite skipn_length; lia). cbn [rbind].
    rewrite (tail_from_ok (skipn 8 s) 8) by (rewrite skipn_length; lia). cbn [rbind]. rewrite <- skipn_add.
    assert (W : forall i, (i < 4)%nat -> le_int (firstn 8 (skipn (8 * i) s)) = nth i (words (firstn 32 s)) 0).
    { intros i Hi. rewrite block_words by auto. f_equal. rewrite skipn_firstn_comm, firstn_firstn. f_equal. lia. }
    pose proof (W 0%nat ltac:(lia)) as W0. pose proof (W 1%nat ltac:(lia)) as W1.
    pose proof (W 2%nat ltac:(lia)) as W2. pose proof (W 3%nat ltac:(lia)) as W3. clear W.
    change (8 * 0)%nat with 0%nat in W0. change (8 * 1)%nat with 8%nat in W1. change (8 * 2)%nat with (8 + 8)%nat in W2.
    change (8 * 3)%nat with (8 + 8 + 8)%nat in W3. cbn [skipn] in W0. rewrite W0, W1.
    pose proof Hh as Hh2. apply regs4 in Hh2. destruct Hh2 as (Fa & Fb & Fc & Fd).
    destruct (half_step a b c d (nth 0 (words (firstn 32 s)) 0) (nth 1 (words (firstn 32 s)) 0) Fa Fb Fc Fd) as [E R].
    rewrite E. destruct (list4 _ (proj1 R)) as (p & q & r & t & E'). rewrite E' in R.
    pose proof R as R'. apply regs4 in R'. destruct R' as (Fp & Fq & Fr & Ft).
    assert (X : spec_short_block [a; b; c; d] (firstn 32 s) =
      [add64 p (nth 2 (words (firstn 32 s)) 0); add64 q (nth 3 (words (firstn 32 s)) 0); r; t]).
    { unfold spec_short_block. cbv zeta. rewrite E', plus4_eq, !add64_0 by assumption. reflexivity. }
    rewrite E', X in *. clear E X E'.
    change (toquad [p; q; r; t]) with (p, q, r, t). cbn iota.
    rewrite (U8tou64le_ok (skipn (8 + 8) s)) by (auto; rewrite skipn_length; lia). cbn [rbind].
    rewrite (tail_from_ok (skipn (8 + 8) s) 8) by (rewrite skipn_length; lia). cbn [rbind]. rewrite <- skipn_add.
    rewrite (U8tou64le_ok (skipn (8 + 8 + 8) s)) by (auto; rewrite skipn_length; lia). cbn [rbind].
    rewrite (tail_from_ok (skipn (8 + 8 + 8) s) 8) by (rewrite skipn_length; lia). cbn [rbind]. rewrite <- skipn_add.
    rewrite W2, W3. change (8 + 8 + 8 + 8)%nat with 32%nat.
    replace (length s - 32)%nat with (length (skipn 32 s)) by apply skipn_length.
    rewrite <- IH; auto. rewrite skipn_length. lia.
Qed.
Definition tail_words (r : list N) : N * N :=
  match r with [] => (sc, sc) | _ => (le_int (firstn 8 r), le_int (skipn 8 r)) end.
Lemma add64_chain a x y : add64 (add64 a x) y = add64 a (x + y).
Proof. unfold add64. rewrite !addw_mod. rewrite N.add_mod_idemp_l by discriminate. f_equal. lia. Qed.
Lemma shl_num b k : byte_ok b -> k <= 56 -> shl64 b k = b * 2 ^ k.
Proof. intros. rewrite shl64_byte' by assumption. apply N.shiftl_mul_pow2. Qed.
Ltac peel s Hb n :=
  lazymatch n with
  | O => idtac
  | S ?m => destruct s as [|? s]; [|pose proof (Forall_inv Hb); apply Forall_inv_tail in Hb; peel s Hb m]
  end.
Lemma short_tail_ok s c d : (length s < 16)%nat -> bytes_ok s -> fits 64 d ->
  short_tail (length s) s c d = Ok (add64 c (fst (tail_words s)), add64 d (snd (tail_words s))).
Proof.
  intros Hl Hb Hd.
  peel s Hb 16%nat;
  [..|cbn [length] in Hl; lia];
  unfold short_tail; cbn [length Nat.ltb Nat.leb]; unfold byte_at, idx; cbn [rbind nth_error tail_from length Nat.leb skipn];
  rewrite ?U8tou64le_ok, ?U8tou32le_ok by (first [cbn [length]; lia|repeat (apply Forall_cons; [assumption|]); apply Forall_nil]); cbn [rbind firstn tail_words fst snd skipn];
  rewrite ?shl_num by (assumption || lia); rewrite ?add64_chain; try reflexivity;
  cbn [le_int]; eval_pow; f_equal; f_equal; f_equal; try lia; symmetry; now apply add64_0.
Qed.

Lemma short_end_fits a b c d : fits 64 a -> fits 64 b -> fits 64 c -> fits 64 d ->
  spec_short_end [a; b; c; d] = ShortEnd [a; b; c; d].
Proof. intros. apply spec_short_end_ok. apply regs4. auto. Qed.
Lemma sc_fits : fits 64 sc. Proof. reflexivity. Qed.
Lemma shl_len n : shl64 (N.of_nat n) 56 = (N.of_nat n * 2 ^ 56) mod 2 ^ 64.
Proof. unfold shl64, shlw. now rewrite wrap_mod, N.shiftl_mul_pow2. Qed.

(** The part after the loop: r is what is left of the message (less than 32 bytes). *)
Lemma short_finish len r h : (length r < 32)%nat -> bytes_ok r -> regs_ok 64 4 h ->
  (rbind (if Nat.leb 16 (length r) then
         let '(a, b, c, d) := toquad h in
         x <~ U8tou64le r ;; let c := add64 c x in
         s <~ tail_from r 8 ;;
         x <~ U8tou64le s ;; let d := add64 d x in
         s <~ tail_from s 8 ;;
         Ok (s, (length r - 16)%nat, short_mix4 (a, b, c, d))
       else Ok (r, length r, toquad h)) (fun v => let '(s, rem, r) := v in
   let '(a, b, c, d) := r in
   let d := add64 d (shl64 (N.of_nat len) 56) in
   '(c, d) <~ short_tail rem s c d ;;
   let h := ShortEnd [a; b; c; d] in
   Ok (nth 0 h 0, nth 1 h 0))) =
  Ok (let '(h, r) :=
        if Nat.leb 16 (length r)
        then (spec_short_mix (plus4 h [0; 0; le_int (firstn 8 r); le_int (firstn 8 (skipn 8 r))]), skipn 16 r)
        else (h, r) in
      let h := plus4 h [0; 0; 0; (N.of_nat len * 2 ^ 56) mod 2 ^ 64] in
      let t := match r with
               | [] => [0; 0; sc; sc]
               | _ => [0; 0; le_int (firstn 8 r); le_int (skipn 8 r)]
               end in
      let e := spec_short_end (plus4 h t) in
      (nth 0 e 0, nth 1 e 0)).
Proof.
  intros Hr Hb Hh.
  assert (F : forall r h, (length r < 16)%nat -> bytes_ok r -> regs_ok 64 4 h ->
    (let '(a, b, c, d) := toquad h in
     let d := add64 d (shl64 (N.of_nat len) 56) in
     '(c, d) <~ short_tail (length r) r c d ;;
     let h := ShortEnd [a; b; c; d] in Ok (nth 0 h 0, nth 1 h 0)) =
    Ok (let h := plus4 h [0; 0; 0; (N.of_nat len * 2 ^ 56) mod 2 ^ 64] in
      let t := match r with
               | [] => [0; 0; sc; sc]
               | _ => [0; 0; le_int (firstn 8 r); le_int (skipn 8 r)]
               end in
      let e := spec_short_end (plus4 h t) in
      (nth 0 e 0, nth 1 e 0))).
  { clear. intros r h Hr Hb Hh. destruct (list4 h (proj1 Hh)) as (a & b & c & d & ->). apply regs4 in Hh. destruct Hh as (? & ? & ? & ?).
    change (toquad [a; b; c; d]) with (a, b, c, d). cbn iota. cbv zeta.
    rewrite short_tail_ok by auto using add64_fits. cbn [rbind]. rewrite shl_len, plus4_eq, !add64_0 by assumption.
    assert (T : (match r with [] => [0; 0; sc; sc] | _ => [0; 0; le_int (firstn 8 r); le_int (skipn 8 r)] end)
                = [0; 0; fst (tail_words r); snd (tail_words r)]) by now destruct r.
    rewrite T, plus4_eq, !add64_0 by assumption. rewrite short_end_fits by auto using add64_fits. reflexivity. }
  destruct (Nat.leb_spec 16 (length r)) as [H|H].
  - destruct (list4 h (proj1 Hh)) as (a & b & c & d & ->). pose proof Hh as Hh2. apply regs4 in Hh2. destruct Hh2 as (? & ? & ? & ?).
    change (toquad [a; b; c; d]) with (a, b, c, d). cbn iota.
    assert (B8 : bytes_ok (skipn 8 r)) by now apply bytes_ok_skipn.
    rewrite (U8tou64le_ok r) by (auto; lia). cbn [rbind]. rewrite (tail_from_ok r 8) by lia. cbn [rbind].
    rewrite (U8tou64le_ok (skipn 8 r)) by (auto; rewrite skipn_length; lia). cbn [rbind].
    rewrite (tail_from_ok (skipn 8 r) 8) by (rewrite skipn_length; lia). cbn [rbind]. rewrite <- skipn_add. change (8 + 8)%nat with 16%nat.
    destruct (half_step a b c d (le_int (firstn 8 r)) (le_int (firstn 8 (skipn 8 r)))) as [E R]; auto. rewrite E.
    rewrite <- (skipn_length 16 r). apply F; auto; [rewrite skipn_length; lia|now apply bytes_ok_skipn].
  - cbn [rbind]. apply F; auto.
Qed.
Lemma short_ok s h1 h2 : bytes_ok s -> fits 64 h1 -> fits 64 h2 -> SpookyHashShort s h1 h2 = Ok (spec_short s h1 h2).
Proof.
  intros Hb H1 H2. unfold SpookyHashShort, spec_short. cbv zeta.
  assert (P : (0 < 32)%nat) by lia.
  pose proof (fold_blocks spec_short_block 32 s [h1; h2; sc; sc] P) as FB.
  destruct (blocks_ok 32 s P Hb) as (_ & Rb & Rl). destruct (blocks 32 s) as [bs r]. cbn [snd] in Rb, Rl.
  assert (Hh : regs_ok 64 4 [h1; h2; sc; sc]) by (apply regs4; auto using sc_fits).
  pose proof (absorb_rest_length 32 spec_short_block P [h1; h2; sc; sc] s) as RL. rewrite <- FB in RL. cbn [snd] in RL.
  assert (Hf : regs_ok 64 4 (fold_left spec_short_block bs [h1; h2; sc; sc])).
  { replace (fold_left spec_short_block bs [h1; h2; sc; sc]) with (fst (absorb 32 spec_short_block [h1; h2; sc; sc] s)) by now rewrite <- FB.
    apply (absorb_inv 32 spec_short_block P (regs_ok 64 4) bytes_ok); auto.
    - intros l n Hl. split; [now apply bytes_ok_firstn|now apply bytes_ok_skipn].
    - intros. now apply short_block_ok. }
  rewrite <- RL. change (h1, h2, sc_const, sc_const) with (toquad [h1; h2; sc; sc]).
  pose proof (short_finish (length s) r (fold_left spec_short_block bs [h1; h2; sc; sc]) Rl Rb Hf) as SF.
  destruct (Nat.leb_spec 16 (length s)) as [H|H].
  - rewrite short_loop_run by auto. rewrite <- FB. cbn [rbind fst snd]. exact SF.
  - rewrite (absorb_short 32 _ P) in FB by lia. inversion FB. subst r.
    destruct (Nat.leb_spec 16 (length s)); [lia|]. rewrite H3 in *. rewrite H3. exact SF.
Qed.

(** ** Long messages *)
Lemma Mix_ok s h : (96 <= length s)%nat -> bytes_ok s -> regs_ok 64 12 h ->
  Mix (sliceUI64 s) h = Ok (spec_mix (words (firstn 96 s)) h) /\ regs_ok 64 12 (spec_mix (words (firstn 96 s)) h).
Proof.
  intros Hl Hb Hh. unfold Mix. rewrite twelve_slice by assumption. cbn [rbind].
  assert (W : regs_ok 64 12 (words (firstn 96 s))).
  { apply words_regs; [apply firstn_length_le; lia|now apply bytes_ok_firstn]. }
  rewrite spec_mix_ok by assumption. split; [reflexivity|]. now apply (proj1 (mix_bij _ W)).
Qed.
Definition long_body (h b : list N) : list N := spec_mix (words b) h.
Opaque spec_mix words.
Lemma long_loop_run fuel : forall s h, (length s <= fuel)%nat -> bytes_ok s -> regs_ok 64 12 h ->
  long_loop fuel s (length s) h = Ok (snd (absorb 96 long_body h s), fst (absorb 96 long_body h s)).
Proof.
  assert (P : (0 < 96)%nat) by lia.
  induction fuel as [|fuel IH]; intros s h Hf Hb Hh; cbn [long_loop].
  - destruct (Nat.leb_spec 96 (length s)); [lia|]. now rewrite (absorb_short 96 _ P).
  - destruct (Nat.leb_spec 96 (length s)) as [H|H]; [|now rewrite (absorb_short 96 _ P)].
    rewrite (absorb_step 96 _ P) by assumption. destruct (Mix_ok s h H Hb Hh) as [E R]. rewrite E. cbn [rbind].
    rewrite tail_from_ok by lia. cbn [rbind]. rewrite <- (skipn_length 96 s).
    fold (long_body h (firstn 96 s)) in R |- *. set (h' := long_body h (firstn 96 s)) in *. clearbody h'.
    rewrite IH; auto; [rewrite skipn_length; lia|now apply bytes_ok_skipn].
Qed.
Lemma last_block_ok r : (length r < 96)%nat -> last_block r (length r) = Ok (r ++ repeat 0 (95 - length r) ++ [N.of_nat (length r)]).
Proof.
  intros H. unfold last_block. destruct (Nat.ltb_spec 96 (length r)); [lia|]. f_equal.
  rewrite N.mod_small by lia. rewrite app_assoc. f_equal.
  replace (96 - length r)%nat with (95 - length r + 1)%nat by lia. rewrite repeat_app, app_assoc.
  apply firstn_app_n. rewrite app_length, repeat_length. lia.
Qed.
Lemma repeat0_ok n : bytes_ok (repeat 0 n).
Proof. induction n; cbn; constructor; auto. reflexivity. Qed.
Lemma long_ok s h1 h2 : bytes_ok s -> fits 64 h1 -> fits 64 h2 -> (192 <= length s)%nat ->
  SpookyHash128 s h1 h2 = Ok (spec_long s h1 h2).
Proof.
  intros Hb H1 H2 Hl. unfold SpookyHash128, spec_long. cbv zeta. destruct (Nat.ltb_spec (length s) 192); [lia|].
  assert (P : (0 < 96)%nat) by lia.
  set (h0 := [h1; h2; sc_const; h1; h2; sc_const; h1; h2; sc_const; h1; h2; sc_const]).
  change (concat (repeat [h1; h2; sc] 4)) with h0.
  pose proof (fold_blocks long_body 96 s h0 P) as FB. fold long_body.
  destruct (blocks_ok 96 s P Hb) as (_ & Rb & Rl). destruct (blocks 96 s) as [bs r]. cbn [snd] in Rb, Rl.
  assert (Hh : regs_ok 64 12 h0) by (split; [reflexivity|repeat constructor; auto using sc_fits]).
  pose proof (absorb_rest_length 96 long_body P h0 s) as RL. rewrite <- FB in RL. cbn [snd] in RL.
  assert (Hf : regs_ok 64 12 (fold_left long_body bs h0)).
  { replace (fold_left long_body bs h0) with (fst (absorb 96 long_body h0 s)) by now rewrite <- FB.
    apply (absorb_inv 96 long_body P (regs_ok 64 12) bytes_ok); auto.
    - intros l n Hl'. split; [now apply bytes_ok_firstn|now apply bytes_ok_skipn].
    - intros h b Hh' Hb' Lb. destruct (Mix_ok b h) as [_ R]; auto; [lia|]. unfold long_body. now rewrite firstn_all2 in R by lia. }
  rewrite long_loop_run by auto. rewrite <- FB. cbn [rbind fst snd]. rewrite <- RL, Nat.eqb_refl. cbn [negb].
  rewrite last_block_ok by assumption. cbn [rbind].
  set (lb := r ++ repeat 0 (95 - length r) ++ [N.of_nat (length r)]).
  assert (Lb : length lb = 96%nat) by (unfold lb; rewrite !app_length, repeat_length; cbn [length]; lia).
  assert (Bb : bytes_ok lb).
  { unfold lb. apply Forall_app; split; [assumption|]. apply Forall_app; split; [apply repeat0_ok|]. constructor; [|constructor]. unfold byte_ok. lia. }
  unfold End_. rewrite twelve_slice by (auto; lia). rewrite firstn_all2 by lia. cbn [rbind].
  rewrite spec_end_eq; auto. now apply words_regs.
Qed.
Lemma spooky_ok s h1 h2 : bytes_ok s -> fits 64 h1 -> fits 64 h2 -> SpookyHash128 s h1 h2 = Ok (spookyhash_v2 s h1 h2).
Proof.
  intros Hb H1 H2. unfold spookyhash_v2. destruct (Nat.ltb_spec (length s) 192) as [H|H].
  - unfold SpookyHash128. destruct (Nat.ltb_spec (length s) 192); [|lia]. now apply short_ok.
  - now apply long_ok.
Qed.
