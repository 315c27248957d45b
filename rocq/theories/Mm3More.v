(** Proofs of the statements of Mm3Props.v. *)
From Verif Require Import Words WordLemmas ListLemmas Blocks DigestSpec SLP Bij SipProofs BlockInj Mm3Model Mm3Spec Mm3Proofs.
Open Scope N_scope.

Lemma mm_stream32 chunks : Forall bytes_ok chunks ->
  mm_history32 mm_new32 (map DWrite chunks ++ [DSum64]) =
  map (fun p => OWrote (length p)) chunks ++ [OWord (mm_sum32 (concat chunks))].
Proof. intros H. rewrite mm_history32_correct by (apply writes_ok; [assumption|exact I]). now rewrite spec_history_writes. Qed.
Lemma mm_stream64 chunks : Forall bytes_ok chunks ->
  mm_history64 mm_new64 (map DWrite chunks ++ [DSum64]) =
  map (fun p => OWrote (length p)) chunks ++ [OWord (mm_sum64 (concat chunks))].
Proof. intros H. rewrite mm_history64_correct by (apply writes_ok; [assumption|exact I]). now rewrite spec_history_writes. Qed.
Lemma mm_stream128 chunks : Forall bytes_ok chunks ->
  mm_history128 mm_new128 (map DWrite chunks ++ [DSum64]) =
  map (fun p => OWrote (length p)) chunks ++ [OWord (mm_sum128 (concat chunks))].
Proof. intros H. rewrite mm_history128_correct by (apply writes_ok; [assumption|exact I]). now rewrite spec_history_writes. Qed.
Lemma mm_histories ops : Forall dop_ok ops ->
  mm_history32 mm_new32 ops =
    spec_history (fun m => be_store 4 (mm_regs32 m)) mm_sum32 [] ops /\
  mm_history64 mm_new64 ops =
    spec_history (fun m => be_store 8 (fst (mm_regs128 m))) mm_sum64 [] ops /\
  mm_history128 mm_new128 ops =
    spec_history (fun m => be_store 8 (fst (mm_regs128 m)) ++ be_store 8 (snd (mm_regs128 m))) mm_sum128 [] ops.
Proof. auto using mm_history32_correct, mm_history64_correct, mm_history128_correct. Qed.

Lemma mm_sum_refuted :
  (exists m inp, bytes_ok m /\
     mm_history32 mm_new32 [DWrite m; DSum inp] <> [OWrote (length m); OBytes (inp ++ be_store 4 (mm_sum32 m))]) /\
  (exists m inp, bytes_ok m /\
     mm_history64 mm_new64 [DWrite m; DSum inp] <> [OWrote (length m); OBytes (inp ++ be_store 8 (mm_sum64 m))]) /\
  (exists m inp, bytes_ok m /\
     mm_history128 mm_new128 [DWrite m; DSum inp] <>
     [OWrote (length m); OBytes (inp ++ be_store 8 (fst (mm_sum128 m)) ++ be_store 8 (snd (mm_sum128 m)))]).
Proof.
  split; [|split]; exists [104; 101; 108; 108; 111], [];
    (split; [repeat constructor|vm_compute; discriminate]).
Qed.

Lemma regs_tail {S} B (f : S -> list N -> S) h a t : (0 < B)%nat -> (length a mod B = 0)%nat -> (length t < B)%nat ->
  fst (absorb B f h (a ++ t)) = fst (absorb B f h a).
Proof.
  intros HB Ha Ht. rewrite (absorb_app B f HB).
  destruct (absorb B f h a) as [h' r] eqn:E.
  assert (r = []).
  { pose proof (absorb_rest_length B f HB h a) as L. rewrite E in L. cbn [snd] in L. rewrite Ha in L. now destruct r. }
  subst r. cbn [app]. now rewrite (absorb_short B f HB).
Qed.
Lemma mm_write_regs {S} B (f : S -> list N -> S) h0 m : (0 < B <= 16)%nat ->
  mh (fst (mm_write B f (mm_new h0) m)) = fst (absorb B f h0 m).
Proof.
  intros HB. destruct (mm_write_inv B f h0 (mm_new h0) [] m HB (mm_new_inv B f h0 (proj1 HB))) as [(_ & _ & _ & K) _].
  cbn [app] in K. now rewrite K.
Qed.
Lemma mm_sum_ignores_tail a t t' inp : bytes_ok a -> bytes_ok t -> bytes_ok t' ->
  ((length a mod 4 = 0)%nat -> (length t < 4)%nat -> (length t' < 4)%nat ->
   mm_sum_bytes32 (fst (mm_write32 mm_new32 (a ++ t))) inp = mm_sum_bytes32 (fst (mm_write32 mm_new32 (a ++ t'))) inp) /\
  ((length a mod 16 = 0)%nat -> (length t < 16)%nat -> (length t' < 16)%nat ->
   mm_sum_bytes64 (fst (mm_write128 mm_new64 (a ++ t))) inp = mm_sum_bytes64 (fst (mm_write128 mm_new64 (a ++ t'))) inp /\
   mm_sum_bytes128 (fst (mm_write128 mm_new128 (a ++ t))) inp = mm_sum_bytes128 (fst (mm_write128 mm_new128 (a ++ t'))) inp).
Proof.
  intros _ _ _. split; intros Ha Ht Ht'.
  - unfold mm_sum_bytes32, mm_write32, mm_new32. rewrite !mm_write_regs by lia. now rewrite !regs_tail by (assumption || lia).
  - unfold mm_sum_bytes64, mm_sum_bytes128, mm_write128, mm_new64, mm_new128.
    rewrite !mm_write_regs by lia. now rewrite !regs_tail by (assumption || lia).
Qed.

Lemma mm128_final_bij n : bijection_on pair_ok (fun h => mm128_final h n).
Proof.
  pose proof (exec_bijection 64 3 mm128_final_prog ltac:(vm_compute; reflexivity)) as [F1 [g F2]].
  assert (P : forall a b, exec 64 mm128_final_prog [a; b; wrap 64 n] = [fst (mm128_final (a, b) n); snd (mm128_final (a, b) n); wrap 64 n])
    by reflexivity.
  assert (K : forall h, pair_ok h -> regs_ok 64 3 [fst h; snd h; wrap 64 n]).
  { intros h [H1 H2]. split; auto. repeat constructor; auto using wrap_fits. }
  assert (Third : forall st, regs_ok 64 3 st -> nth 2 (exec 64 mm128_final_prog st) 0 = nth 2 st 0).
  { intros st [L _]. do 3 (destruct st as [|? st]; [discriminate|]). destruct st; [reflexivity|discriminate]. }
  assert (C : forall h, pair_ok h -> pair_ok (mm128_final h n)) by (intros [a b] _; split; apply addw_fits).
  split; [exact C|].
  exists (fun h => let st := g [fst h; snd h; wrap 64 n] in (nth 0 st 0, nth 1 st 0)).
  intros h Hh. specialize (K h Hh).
  destruct (F2 _ K) as (G1 & G2 & G3).
  remember (g [fst h; snd h; wrap 64 n]) as st eqn:Est. destruct G1 as [L Ff].
  pose proof (Third st (conj L Ff)) as T. rewrite G3 in T. cbn [nth] in T.
  destruct st as [|x [|y [|z [|]]]]; try discriminate. cbn [nth] in T |- *. subst z.
  inversion Ff as [|? ? f1 Ff1]; subst. inversion Ff1; subst.
  split; [split; assumption|]. split.
  - pose proof (F2 [fst h; snd h; wrap 64 n] K) as (_ & G4 & _). destruct h as [a b]. cbn [fst snd] in *.
    rewrite P in G4. rewrite G4. reflexivity.
  - rewrite P in G3. destruct h as [a b], (mm128_final (x, y) n). cbn [fst snd] in G3. congruence.
Qed.

Lemma mm_sum64_half :
  (forall m, mm_sum64 m = fst (mm_sum128 m)) /\
  (forall chunks, Forall bytes_ok chunks ->
     exists h1 h2,
     mm_history128 mm_new128 (map DWrite chunks ++ [DSum64]) = map (fun p => OWrote (length p)) chunks ++ [OWord (h1, h2)] /\
     mm_history64 mm_new64 (map DWrite chunks ++ [DSum64]) = map (fun p => OWrote (length p)) chunks ++ [OWord h1]).
Proof.
  assert (E : forall m, mm_sum64 m = fst (mm_sum128 m)) by (intros m; unfold mm_sum64; now destruct (mm_sum128 m)).
  split; [exact E|]. intros chunks H. rewrite mm_stream128, mm_stream64, E by assumption.
  destruct (mm_sum128 (concat chunks)) as [h1 h2]. exists h1, h2. auto.
Qed.

Lemma be_store_length n x : length (be_store n x) = n.
Proof. unfold be_store. rewrite rev_length. apply le_store_length. Qed.
Lemma mm_sizes (ops : list (list N)) d32 d128 inp :
  d32 = fold_left (fun d p => fst (mm_write32 d p)) ops mm_new32 ->
  d128 = fold_left (fun d p => fst (mm_write128 d p)) ops mm_new128 ->
  length (mm_sum_bytes32 d32 inp) = (length inp + mm_size32 d32)%nat /\
  length (mm_sum_bytes128 d128 inp) = (length inp + mm_size128 d128)%nat /\
  length (mm_sum_bytes64 d128 inp) = (length inp + 8)%nat.
Proof.
  intros _ _. unfold mm_sum_bytes32, mm_sum_bytes128, mm_sum_bytes64. destruct (mh d128).
  rewrite !app_length, !be_store_length. auto.
Qed.
Lemma mm_size64_refuted inp : length (mm_sum_bytes64 mm_new64 inp) <> (length inp + mm_size64 mm_new64)%nat.
Proof. unfold mm_sum_bytes64. cbn [mm_new64 mm_new128 mm_new mm_reset mh]. rewrite app_length, be_store_length. unfold mm_size64, mm_size128. lia. Qed.
