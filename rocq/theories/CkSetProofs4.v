(** Proofs about package keccak under other build settings: the sponge above any correct core does the same. *)
From Coq Require Import ZArith Bool.
From Verif Require Import Words WordLemmas ListLemmas Mem SLP Bij Mm3Spec Mm3Proofs KeccakSpec KeccakProofs KeccakProofs2 KeccakProofs3 KeccakProofs4 CkProg CkRounds CkModel CkProofs CkProofs3 CkSpec CkProofs4 CkVecModel CkSetProg CkSetRounds CkSetModel CkSetProofs CkSetProofs2 CkSetProofs3.
From Verif Require KeccakModel.
Open Scope N_scope.
Strategy 1000 [rounds24 plain_round plain_last thetaRhoPiChiIotaPrepareTheta thetaRhoPiChiIota v64_round v64_last v128_round].

(** ** The settings of the repository *)
Definition ck_core : core := mkCore KeccakInitializeState (fun s => Ok (KeccakPermutation s)) absorb_rate
  (fun r s d => if r =? 1024 then KeccakExtract1024bits s d else KeccakExtract s d (N.to_nat (r / 64))).

Lemma fast_words pat n A data : pat = map (fun i => Nat.ltb i n) (seq 0 25) -> (n <= 25)%nat -> state_ok A ->
  map (fun i => if nth i pat false then xor (nth i (masked A) 0) (word data i) else nth i (masked A) 0) (seq 0 25) =
  masked (xor_words n A (map (word data) (seq 0 n))).
Proof.
  intros -> Hn HA. rewrite masked_xor_words. unfold xor_words. apply map_ext_in. intros i Hi. apply in_seq in Hi.
  rewrite (nth_indep _ false ((fun i => Nat.ltb i n) 0%nat)) by (rewrite map_length, seq_length; lia).
  rewrite (map_nth (fun i => Nat.ltb i n) (seq 0 25) 0%nat i), seq_nth by lia. cbn [plus].
  destruct (Nat.ltb_spec i n); [|reflexivity]. now rewrite (nth_map_seq (word data)) by assumption.
Qed.
Lemma ck_core_ok : core_ok ck_core (fun s => masked s).
Proof.
  split.
  - apply init_state.
  - intros A HA. cbn [k_permutation ck_core]. f_equal. now apply run_rounds_ok.
  - intros r A data HA HD. cbn [k_absorb ck_core]. unfold absorb_rate.
    assert (FAST : forall pat b, pat = map (fun i => Nat.ltb i (N.to_nat (b / 64))) (seq 0 25) -> length (filter (fun b => b) pat) = N.to_nat (b / 64) ->
      (N.to_nat (b / 64) <= 25)%nat -> absorb_fast pat (masked A) data = (B <~ absorb_spec b A data ;; Ok (masked B))).
    { intros pat b EP LP LN. unfold absorb_fast, absorb_spec. rewrite LP. rewrite (proj2 (Nat.leb_le _ 25)) by assumption. cbn [andb].
      destruct (Nat.leb_spec (8 * N.to_nat (b / 64)) (length data)); [|reflexivity]. cbn [rbind]. f_equal.
      rewrite (fast_words pat (N.to_nat (b / 64))) by assumption. apply run_rounds_ok. apply xor_words_ok; [assumption|now apply words_fits]. }
    repeat (match goal with |- context [r =? ?b] => destruct (N.eqb_spec r b) as [->|_] end; [apply FAST; [reflexivity|reflexivity|cbn; lia]|]).
    unfold KeccakAbsorb, absorb_spec. destruct (Nat.leb (N.to_nat (r / 64)) 25 && Nat.leb (8 * N.to_nat (r / 64)) (length data))%bool eqn:Q; [|reflexivity].
    apply andb_true_iff in Q. destruct Q as [W1 W2]. apply Nat.leb_le in W1, W2. cbn [rbind]. f_equal. set (n := N.to_nat (r / 64)) in *.
    rewrite <- run_rounds_ok by (apply xor_words_ok; [assumption|now apply words_fits]). f_equal. rewrite masked_xor_words.
    rewrite <- xor_fold_words by (assumption || now apply masked_ok).
    assert (G : forall l st, (forall j, In j l -> (j < n)%nat) -> fold_left (fun s j => upd s j (xor (nth j s 0) (word data j))) l st =
      fold_left (fun s j => upd s j (xor (nth j s 0) (nth j (map (word data) (seq 0 n)) 0))) l st).
    { induction l as [|j l IH]; intros st H; [reflexivity|]. cbn [fold_left]. rewrite nth_map_seq by (apply H; now left). apply IH. intros k Hk. apply H. now right. }
    apply G. intros j Hj. apply in_seq in Hj. lia.
  - intros r A data HA. cbn [k_extract ck_core]. unfold extract_spec.
    assert (EX : forall inv n, (forall i, (i < n)%nat -> (i < 25)%nat -> existsb (Nat.eqb i) inv = existsb (Nat.eqb i) lanesA) -> extract inv n (masked A) data =
      if (Nat.leb n 25 && Nat.leb (8 * n) (length data))%bool then Ok (firstn (8 * n) (state_bytes A) ++ skipn (8 * n) data) else Overread).
    { intros inv n HI. destruct (Nat.leb n 25 && Nat.leb (8 * n) (length data))%bool eqn:Q; [|unfold CkModel.extract; now rewrite Q].
      apply andb_true_iff in Q. destruct Q as [W1 W2]. apply Nat.leb_le in W1, W2. apply extract_ok; try assumption. intros i Hi. apply HI; lia. }
    destruct (N.eqb_spec r 1024) as [->|_].
    + apply EX. intros i H1 _. change (N.to_nat (1024 / 64)) with 16%nat in H1. do 16 (destruct i as [|i]; [reflexivity|]). lia.
    + apply EX. reflexivity.
Qed.
Lemma ck_extract_rate s : set_extract_rate ck_core s = extract_rate s.
Proof. unfold set_extract_rate, extract_rate. cbn [k_extract ck_core]. destruct (N.eqb_spec (rate s) 1024) as [E|_]; [now rewrite E|reflexivity]. Qed.
Lemma ck_absorb_while fuel : forall s data len i, set_absorb_while ck_core fuel s data len i = absorb_while fuel s data len i.
Proof. reflexivity. Qed.
Lemma ck_squeeze_while fuel : forall s o len i, set_squeeze_while ck_core fuel s o len i = squeeze_while fuel s o len i.
Proof.
  induction fuel as [|fuel IH]; intros s o len i; [reflexivity|]. cbn [set_squeeze_while squeeze_while]. destruct (i <? len); [|reflexivity].
  cbn [k_permutation ck_core rbind]. rewrite ck_extract_rate.
  destruct (if bitsAvailableForSqueezing s =? 0 then extract_rate (withState s (KeccakPermutation (state s))) else Ok s) as [t| | |]; cbn [rbind]; try reflexivity.
  destruct (memcpy o (i / 8) (dataQueue t) ((rate t - bitsAvailableForSqueezing t) / 8) _) as [o'| | |]; cbn [rbind]; try reflexivity. apply IH.
Qed.
Lemma ck_Pad s : set_Pad ck_core s = PadAndSwitchToSqueezingPhase s.
Proof.
  unfold set_Pad, PadAndSwitchToSqueezingPhase. change (set_AbsorbQueue ck_core) with AbsorbQueue. cbv zeta.
  destruct (if add32 (bitsInQueue s) 1 =? rate s then _ else _) as [t| | |]; cbn [rbind]; try reflexivity.
  destruct (set_bit (dataQueue t) (rate t - 1)) as [q| | |]; cbn [rbind]; try reflexivity.
  destruct (AbsorbQueue (withQueue t q)) as [u| | |]; cbn [rbind]; try reflexivity. now rewrite ck_extract_rate.
Qed.
Lemma ck_Squeeze fuel s o len : set_Squeeze ck_core fuel s o len = Squeeze fuel s o len.
Proof.
  unfold set_Squeeze, Squeeze. rewrite ck_Pad. destruct (if squeezing s then Ok s else _) as [t| | |]; cbn [rbind]; try reflexivity. now rewrite ck_squeeze_while.
Qed.
Lemma ck_Reset k : set_Reset ck_core k = Reset k.
Proof. reflexivity. Qed.
Lemma ck_Write fuel k b : set_Write ck_core fuel k b = Write fuel k b.
Proof. reflexivity. Qed.
Lemma ck_Sum fuel k b : set_Sum ck_core fuel k b = Sum fuel k b.
Proof. unfold set_Sum, Sum, set_Final, Final. now rewrite ck_Squeeze. Qed.

(** ** Two cores *)
Definition rrel {X Y} (R : X -> Y -> Prop) (a : res X) (b : res Y) : Prop :=
  match a, b with Ok x, Ok y => R x y | Panics, Panics | Overread, Overread | NoFuel, NoFuel => True | _, _ => False end.
Lemma rrel_bind {X Y X' Y'} (R : X -> Y -> Prop) (R' : X' -> Y' -> Prop) a b f g :
  rrel R a b -> (forall x y, R x y -> rrel R' (f x) (g y)) -> rrel R' (rbind a f) (rbind b g).
Proof. intros H HF. destruct a, b; cbn in *; try contradiction; auto. Qed.
Lemma rrel_same {X Y Z} (P : Z -> Prop) (R : X -> Y -> Prop) (c : res Z) f g : (forall z, c = Ok z -> P z) ->
  (forall z, P z -> rrel R (f z) (g z)) -> rrel R (rbind c f) (rbind c g).
Proof. intros HP H. destruct c; cbn; auto. Qed.

Lemma memcpy_bytes d o s so n r : bytes_ok d -> bytes_ok s -> memcpy d o s so n = Ok r -> bytes_ok r.
Proof.
  intros Hd Hs. unfold memcpy. destruct (_ && _)%bool; intros E; inversion E. apply bytes_ok_app. split; [now apply bytes_ok_firstn|].
  apply bytes_ok_app. split; [apply bytes_ok_firstn|]; now apply bytes_ok_skipn.
Qed.
Lemma memset0_bytes d o n r : bytes_ok d -> memset0 d o n = Ok r -> bytes_ok r.
Proof.
  intros Hd. unfold memset0. destruct (_ <=? _); intros E; inversion E. apply bytes_ok_app. split; [now apply bytes_ok_firstn|].
  apply bytes_ok_app. split; [apply bytes_ok_zeros|now apply bytes_ok_skipn].
Qed.
Lemma byte_at_byte d i x : bytes_ok d -> byte_at d i = Ok x -> byte_ok x.
Proof.
  intros Hd. unfold byte_at. destruct (N.ltb_spec i (N.of_nat (length d))); intros E; inversion E. apply (proj1 (Forall_nth byte_ok d) Hd). lia.
Qed.
Lemma set_byte_bytes d i x r : bytes_ok d -> byte_ok x -> set_byte d i x = Ok r -> bytes_ok r.
Proof.
  intros Hd Hx. unfold set_byte. destruct (_ <? _); intros E; inversion E. apply Forall_forall. intros y Hy. apply (In_nth _ _ 0) in Hy.
  destruct Hy as (k & Hk & <-). rewrite upd_length in Hk. destruct (Nat.eq_dec k (N.to_nat i)) as [->|Q]; [now rewrite upd_same|].
  rewrite upd_other by congruence. now apply (proj1 (Forall_nth byte_ok d) Hd).
Qed.
Lemma set_bit_bytes d i r : bytes_ok d -> set_bit d i = Ok r -> bytes_ok r.
Proof.
  intros Hd. unfold set_bit. destruct (byte_at d (i / 8)) as [x| | |] eqn:E; cbn [rbind]; try discriminate. apply set_byte_bytes; [exact Hd|].
  apply (lor_fits 8); [exact (byte_at_byte _ _ _ Hd E)|apply shlw_fits].
Qed.
Lemma land_byte x m : byte_ok x -> byte_ok (N.land x m).
Proof. intros H. apply (land_fits_l 8). exact H. Qed.
Lemma shr_byte x k : byte_ok x -> byte_ok (shr x k).
Proof. intros H. apply (shr_fits 8). exact H. Qed.
Lemma store_all_bytes ws : bytes_ok (concat (map (le_store 8) ws)).
Proof. induction ws as [|w ws IH]; [constructor|]. cbn [map concat]. apply bytes_ok_app. split; [apply le_store_ok|exact IH]. Qed.

Lemma kf_ok A : state_ok A -> state_ok (keccak_f 24 A).
Proof. intros H. exact (proj2 (keccak_f_ok 24 A (le_n 24) H)). Qed.

Section Two.
  Variables (K1 K2 : core) (v1 v2 : list N -> list N).
  Hypothesis (C1 : core_ok K1 v1) (C2 : core_ok K2 v2).
  (** The same sponge, seen through the two views of its lanes. *)
  Definition rel (s1 s2 : spongeState) : Prop := exists A s, state_ok A /\ bytes_ok (dataQueue s) /\ s1 = withState s (v1 A) /\ s2 = withState s (v2 A).
  Definition srel (a b : list N) : Prop := exists A, state_ok A /\ a = v1 A /\ b = v2 A.
  Lemma absorb_rel r A data : state_ok A -> bytes_ok data -> rrel srel (k_absorb K1 r (v1 A) data) (k_absorb K2 r (v2 A) data).
  Proof.
    intros HA HD. rewrite (ok_absorb _ _ C1), (ok_absorb _ _ C2) by assumption. unfold absorb_spec. destruct (_ && _)%bool; [|exact I]. cbn [rbind rrel]. eexists.
    split; [|split; reflexivity]. apply kf_ok. apply xor_words_ok; [assumption|now apply words_fits].
  Qed.
  Lemma AbsorbQueue_rel s1 s2 : rel s1 s2 -> rrel rel (set_AbsorbQueue K1 s1) (set_AbsorbQueue K2 s2).
  Proof.
    intros (A & s & HA & HQ & -> & ->). unfold set_AbsorbQueue. cbn [rate dataQueue state withState].
    eapply rrel_bind; [now apply absorb_rel|]. intros x y (B & HB & -> & ->). exists B, (withBits s 0). split; [exact HB|]. split; [exact HQ|]. split; reflexivity.
  Qed.
  Lemma whole_rel n r : forall A data, state_ok A -> bytes_ok data -> rrel srel (set_whole_blocks K1 n r (v1 A) data) (set_whole_blocks K2 n r (v2 A) data).
  Proof.
    induction n as [|n IH]; intros A data HA HD; cbn [set_whole_blocks]; [exists A; split; [exact HA|split; reflexivity]|].
    eapply rrel_bind; [now apply absorb_rel|]. intros x y (B & HB & -> & ->). apply IH; [exact HB|now apply bytes_ok_skipn].
  Qed.
  Lemma absorb_while_rel fuel : forall s1 s2 data len i, rel s1 s2 -> bytes_ok data ->
    rrel rel (set_absorb_while K1 fuel s1 data len i) (set_absorb_while K2 fuel s2 data len i).
  Proof.
    induction fuel as [|fuel IH]; intros s1 s2 data len i HR HD; [exact I|]. cbn [set_absorb_while]. destruct (i <? len); [|exact HR].
    destruct HR as (A & s & HA & HQ & -> & ->). cbn [rate dataQueue state bitsInQueue withState].
    destruct ((bitsInQueue s =? 0) && (rate s <=? len) && (i <=? len - rate s))%bool.
    - eapply rrel_bind; [apply whole_rel; [exact HA|now apply bytes_ok_skipn]|]. intros x y (B & HB & -> & ->). apply IH; [|exact HD].
      exists B, s. split; [exact HB|]. split; [exact HQ|]. split; reflexivity.
    - cbv zeta. apply (rrel_same bytes_ok); [intros z E; exact (memcpy_bytes _ _ _ _ _ _ HQ HD E)|]. intros q Hq. cbn [rate bitsInQueue withState withQueue withBits].
      set (pb := if rate s <? _ then _ else _). set (pB := pb - pb mod 8).
      eapply rrel_bind with (R := rel).
      { destruct (_ =? rate s); [apply AbsorbQueue_rel|]; (exists A, (withBits (withQueue s q) (add32 (bitsInQueue s) pB)); split; [exact HA|split; [exact Hq|split; reflexivity]]). }
      intros t1 t2 (B & t & HB & HT & -> & ->). destruct (0 <? pb mod 8).
      + apply (rrel_same byte_ok); [intros z E; exact (byte_at_byte _ _ _ HD E)|]. intros x Hx. cbn [dataQueue bitsInQueue withState].
        apply (rrel_same bytes_ok); [intros z E; exact (set_byte_bytes _ _ _ _ HT (land_byte _ _ Hx) E)|]. intros q' Hq'.
        apply IH; [|exact HD]. exists B, (withBits (withQueue t q') (add32 (bitsInQueue t) (pb mod 8))). split; [exact HB|]. split; [exact Hq'|]. split; reflexivity.
      + apply IH; [|exact HD]. exists B, t. split; [exact HB|]. split; [exact HT|]. split; reflexivity.
  Qed.
  Definition prel {X} (p q : spongeState * X) : Prop := rel (fst p) (fst q) /\ snd p = snd q.
  Lemma Absorb_rel fuel s1 s2 data len : rel s1 s2 -> bytes_ok data -> rrel prel (set_Absorb K1 fuel s1 data len) (set_Absorb K2 fuel s2 data len).
  Proof.
    intros HR HD. pose proof HR as (A & s & HA & HQ & E1 & E2). unfold set_Absorb.
    assert (EB : bitsInQueue s1 = bitsInQueue s2 /\ squeezing s1 = squeezing s2) by (subst; split; reflexivity). destruct EB as [-> ->].
    destruct (negb _); [split; [exact HR|reflexivity]|]. destruct (squeezing s2); [split; [exact HR|reflexivity]|].
    eapply rrel_bind; [now apply absorb_while_rel|]. intros x y H. split; [exact H|reflexivity].
  Qed.
  Lemma Update_rel fuel s1 s2 data len : rel s1 s2 -> bytes_ok data -> rrel prel (set_Update K1 fuel s1 data len) (set_Update K2 fuel s2 data len).
  Proof.
    intros HR HD. unfold set_Update. destruct (_ =? 0); [now apply Absorb_rel|]. eapply rrel_bind; [now apply Absorb_rel|].
    intros [x r] [y r'] [H E]. cbn [fst snd] in H, E. subst r'. destruct (r =? SUCCESS); [|split; [exact H|reflexivity]].
    apply (rrel_same byte_ok); [intros z E; exact (byte_at_byte _ _ _ HD E)|]. intros z Hz. apply Absorb_rel; [exact H|]. constructor; [now apply shr_byte|constructor].
  Qed.
  Lemma extract_rel s1 s2 : rel s1 s2 -> rrel rel (set_extract_rate K1 s1) (set_extract_rate K2 s2).
  Proof.
    intros (A & s & HA & HQ & -> & ->). unfold set_extract_rate. cbn [rate dataQueue state withState]. rewrite (ok_extract _ _ C1), (ok_extract _ _ C2) by assumption.
    apply (rrel_same bytes_ok).
    - intros z. unfold extract_spec. destruct (_ && _)%bool; intros E; inversion E. apply bytes_ok_app. split; [|now apply bytes_ok_skipn].
      apply bytes_ok_firstn. rewrite <- state_bytes_eq. apply store_all_bytes.
    - intros q Hq. exists A, (withAvail (withQueue s q) (rate s)). split; [exact HA|]. split; [exact Hq|]. split; reflexivity.
  Qed.
  Lemma Pad_rel s1 s2 : rel s1 s2 -> rrel rel (set_Pad K1 s1) (set_Pad K2 s2).
  Proof.
    intros (A & s & HA & HQ & -> & ->). unfold set_Pad. cbv zeta. cbn [rate dataQueue state bitsInQueue withState].
    eapply rrel_bind with (R := rel).
    { destruct (_ =? rate s).
      - apply (rrel_same bytes_ok); [intros z E; exact (set_bit_bytes _ _ _ HQ E)|]. intros q Hq.
        eapply rrel_bind; [apply AbsorbQueue_rel; exists A, (withQueue s q); split; [exact HA|split; [exact Hq|split; reflexivity]]|].
        intros x y (B & t & HB & HT & -> & ->). cbn [rate dataQueue withState].
        apply (rrel_same bytes_ok); [intros z E; exact (memset0_bytes _ _ _ _ HT E)|]. intros q' Hq'.
        exists B, (withQueue t q'). split; [exact HB|]. split; [exact Hq'|]. split; reflexivity.
      - apply (rrel_same bytes_ok); [intros z E; exact (memset0_bytes _ _ _ _ HQ E)|]. intros q Hq.
        apply (rrel_same bytes_ok); [intros z E; exact (set_bit_bytes _ _ _ Hq E)|]. intros q' Hq'.
        exists A, (withQueue s q'). split; [exact HA|]. split; [exact Hq'|]. split; reflexivity. }
    intros x y (B & t & HB & HT & -> & ->). cbn [rate dataQueue withState].
    apply (rrel_same bytes_ok); [intros z E; exact (set_bit_bytes _ _ _ HT E)|]. intros q Hq.
    eapply rrel_bind; [apply AbsorbQueue_rel; exists B, (withQueue t q); split; [exact HB|split; [exact Hq|split; reflexivity]]|].
    intros x y H. eapply rrel_bind; [exact (extract_rel _ _ H)|]. intros x' y' (D & u & HD & HU & -> & ->).
    exists D, (withSqueezing u). split; [exact HD|]. split; [exact HU|]. split; reflexivity.
  Qed.
  Lemma squeeze_while_rel fuel : forall s1 s2 o len i, rel s1 s2 -> rrel prel (set_squeeze_while K1 fuel s1 o len i) (set_squeeze_while K2 fuel s2 o len i).
  Proof.
    induction fuel as [|fuel IH]; intros s1 s2 o len i HR; [exact I|]. cbn [set_squeeze_while]. destruct (i <? len); [|split; [exact HR|reflexivity]].
    eapply rrel_bind with (R := rel).
    { pose proof HR as (A & s & HA & HQ & -> & ->). cbn [bitsAvailableForSqueezing state withState]. destruct (_ =? 0); [|exact HR].
      rewrite (ok_perm _ _ C1), (ok_perm _ _ C2) by assumption. cbn [rbind]. apply extract_rel. exists (keccak_f 24 A), s.
      split; [now apply kf_ok|]. split; [exact HQ|]. split; reflexivity. }
    intros x y (B & t & HB & HT & -> & ->). cbn [rate dataQueue bitsAvailableForSqueezing withState].
    apply (rrel_same (fun _ => True)); [trivial|]. intros q _. apply IH. exists B, (withAvail t (bitsAvailableForSqueezing t - (if len - i <? bitsAvailableForSqueezing t then wrap 32 (len - i) else bitsAvailableForSqueezing t))).
    split; [exact HB|]. split; [exact HT|]. split; reflexivity.
  Qed.
  Lemma Squeeze_rel fuel s1 s2 o len : rel s1 s2 ->
    rrel (fun p q => rel (fst (fst p)) (fst (fst q)) /\ snd (fst p) = snd (fst q) /\ snd p = snd q) (set_Squeeze K1 fuel s1 o len) (set_Squeeze K2 fuel s2 o len).
  Proof.
    intros HR. unfold set_Squeeze. eapply rrel_bind with (R := rel).
    { pose proof HR as (A & s & HA & HQ & E1 & E2). assert (EQ : squeezing s1 = squeezing s2) by (subst; reflexivity). rewrite EQ.
      destruct (squeezing s2); [exact HR|now apply Pad_rel]. }
    intros x y H. destruct (negb _); [split; [exact H|split; reflexivity]|]. eapply rrel_bind; [now apply squeeze_while_rel|].
    intros [x' o1] [y' o2] [H' E]. split; [exact H'|]. split; [exact E|reflexivity].
  Qed.
  Definition krel (k1 k2 : keccak) : Prop := rel (hashState k1) (hashState k2) /\ bitlen k1 = bitlen k2.
  Lemma Write_rel fuel k1 k2 b : krel k1 k2 -> bytes_ok b ->
    rrel (fun p q => krel (fst (fst p)) (fst (fst q)) /\ snd (fst p) = snd (fst q) /\ snd p = snd q) (set_Write K1 fuel k1 b) (set_Write K2 fuel k2 b).
  Proof.
    intros [HR HB] Hb. unfold set_Write. destruct (Nat.eqb (length b) 0); [repeat split; assumption|]. eapply rrel_bind; [now apply Update_rel|].
    intros [x r] [y r'] [H E]. cbn [fst snd] in H, E. subst r'. destruct (r =? SUCCESS); (split; [split; [exact H|exact HB]|split; reflexivity]).
  Qed.
  Lemma Sum_rel fuel k1 k2 b : krel k1 k2 -> rrel eq (set_Sum K1 fuel k1 b) (set_Sum K2 fuel k2 b).
  Proof.
    intros [HR HB]. unfold set_Sum, set_Final, Size. rewrite HB.
    assert (EF : fixedOutputLength (hashState k1) = fixedOutputLength (hashState k2)) by (destruct HR as (A & s & _ & _ & -> & ->); reflexivity). rewrite EF.
    eapply rrel_bind; [now apply Squeeze_rel|]. intros [[x o] r] [[y o'] r'] (_ & E & E'). cbn [fst snd] in E, E'. subst o' r'. destruct (r =? SUCCESS); reflexivity.
  Qed.
  Lemma Init_rel s1 s2 bits : offered bits -> rel (fst (set_Init K1 s1 (Z.to_N bits))) (fst (set_Init K2 s2 (Z.to_N bits))).
  Proof.
    intros O. assert (Z0 : state_ok zero) by (split; [reflexivity|apply Forall_forall; intros x Hx; apply repeat_spec in Hx; subst; reflexivity]).
    assert (G : forall r c, add32 r c = 1600 -> 0 < r < 1600 -> r mod 64 = 0 ->
      rel (withFixed (match set_InitSponge K1 r c with Some s => s | None => s1 end) (Z.to_N bits)) (withFixed (match set_InitSponge K2 r c with Some s => s | None => s2 end) (Z.to_N bits))).
    { intros r c E1 E2 E3. unfold set_InitSponge. rewrite E1, E3. destruct (N.leb_spec r 0); [lia|]. destruct (N.leb_spec 1600 r); [lia|]. cbn [N.eqb Pos.eqb negb orb].
      rewrite (ok_init _ _ C1), (ok_init _ _ C2). exists zero, (mkSponge [] (repeat 0 queue_bytes) r c 0 (Z.to_N bits) false 0). split; [exact Z0|]. split; [apply bytes_ok_zeros|]. split; reflexivity. }
    unfold set_Init. destruct O as [->|[->|[->| ->]]]; apply G; (reflexivity || (split; reflexivity)).
  Qed.
  Lemma Reset_rel k1 k2 : offered (bitlen k1) -> bitlen k1 = bitlen k2 -> krel (set_Reset K1 k1) (set_Reset K2 k2).
  Proof. intros O E. split; [|exact E]. unfold set_Reset. cbn [hashState]. rewrite <- E. now apply Init_rel. Qed.
  Lemma Write_bitlen (K : core) fuel k b p : set_Write K fuel k b = Ok p -> bitlen (fst (fst p)) = bitlen k.
  Proof.
    unfold set_Write. destruct (Nat.eqb _ _); [intros E; now inversion E|]. destruct (set_Update K fuel (hashState k) b _) as [[s r]| | |]; cbn [rbind]; try discriminate.
    destruct (r =? SUCCESS); intros E; now inversion E.
  Qed.
  Lemma observe_rel fuel ops : forall k1 k2, krel k1 k2 -> offered (bitlen k1) -> Forall kop_ok ops ->
    observe (set_Write K1 fuel) (set_Sum K1 fuel) (set_Reset K1) k1 ops = observe (set_Write K2 fuel) (set_Sum K2 fuel) (set_Reset K2) k2 ops.
  Proof.
    induction ops as [|o ops IH]; intros k1 k2 HR O HO; [reflexivity|]. inversion HO as [|? ? Ho HO']; subst. destruct o as [p|b|]; cbn [observe].
    - pose proof (Write_rel fuel k1 k2 p HR (proj1 Ho)) as W. pose proof (Write_bitlen K1 fuel k1 p) as WB.
      destruct (set_Write K1 fuel k1 p) as [[[x n] e]| | |], (set_Write K2 fuel k2 p) as [[[y n'] e']| | |]; cbn in W; try contradiction; try reflexivity.
      destruct W as (W & <- & <-). f_equal. apply IH; [exact W| |exact HO']. now rewrite (WB _ eq_refl : bitlen x = bitlen k1).
    - pose proof (Sum_rel fuel k1 k2 b HR) as W. destruct (set_Sum K1 fuel k1 b), (set_Sum K2 fuel k2 b); cbn in W; try contradiction; try reflexivity.
      subst. f_equal. now apply IH.
    - f_equal. apply IH; [|exact O|exact HO']. apply Reset_rel; [exact O|apply HR].
  Qed.
End Two.

Theorem settings_observe S fuel bits ops : valid S -> offered bits -> Forall kop_ok ops ->
  observe (set_Write (core_of S) fuel) (set_Sum (core_of S) fuel) (set_Reset (core_of S)) (set_newKeccak (core_of S) bits) ops =
  observe (Write fuel) (Sum fuel) Reset (newKeccak bits) ops.
Proof.
  intros V O HO.
  rewrite (observe_rel _ _ _ _ (settings_core S V) ck_core_ok fuel ops (set_newKeccak (core_of S) bits) (set_newKeccak ck_core bits)); [|exact (Reset_rel _ _ _ _ (settings_core S V) ck_core_ok (mkKeccak zero_state bits) (mkKeccak zero_state bits) O eq_refl)|exact O|exact HO].
  assert (G : forall ops k, observe (set_Write ck_core fuel) (set_Sum ck_core fuel) (set_Reset ck_core) k ops = observe (Write fuel) (Sum fuel) Reset k ops).
  { clear. induction ops as [|o ops IH]; intros k; [reflexivity|]. destruct o as [p|b|]; cbn [observe].
    - rewrite ck_Write. destruct (Write fuel k p) as [[[x n] e]| | |]; try reflexivity. now rewrite IH.
    - rewrite ck_Sum. destruct (Sum fuel k b); try reflexivity. now rewrite IH.
    - rewrite ck_Reset. now rewrite IH. }
  apply G.
Qed.
