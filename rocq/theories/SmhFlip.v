From Coq Require Import NArith ZArith List Arith String Bool Lia.
From Verif Require Import Words WordLemmas ListLemmas HashTableModel HtModel HtSpec HtProofs HtKeys SmhModel SmhSpec SmhProofs SmhBits SmhKeys.
Import ListNotations.
Open Scope N_scope.
Open Scope list_scope.

(** ** The three kinds of keys *)
(** The bytes that are hashed. *)
Definition key_bytes (k : skey) : list N :=
  match k with BytesKey b => b | Int32Key x => number_bytes 4 x | Int64Key x => number_bytes 8 x end.
Definition key_ok (k : skey) : Prop :=
  match k with BytesKey b => byte_string b | Int32Key x => x < 2 ^ 32 | Int64Key x => x < 2 ^ 64 end.
Definition same_kind (k k' : skey) : Prop :=
  match k, k' with
  | BytesKey b, BytesKey b' => List.length b = List.length b'
  | Int32Key _, Int32Key _ => True | Int64Key _, Int64Key _ => True | _, _ => False
  end.
Lemma number_bytes_length n x : List.length (number_bytes n x) = n.
Proof. unfold number_bytes. now rewrite map_length, seq_length. Qed.
Lemma number_bytes_ok n x : byte_string (number_bytes n x).
Proof.
  unfold number_bytes. apply Forall_forall. intros c H. apply in_map_iff in H. destruct H as (i & <- & _). apply N.mod_lt. discriminate.
Qed.
Lemma number_bit n x j : (j < 8 * n)%nat -> bit (number_bytes n x) j = N.testbit x (N.of_nat j).
Proof.
  intros H. unfold bit, number_bytes. pose proof (Nat.div_mod j 8 ltac:(lia)) as E. pose proof (Nat.mod_upper_bound j 8 ltac:(lia)) as M.
  assert (Hj : (j / 8 < n)%nat) by lia.
  rewrite nth_indep with (d' := (fun i => x / 256 ^ N.of_nat i mod 256) 0%nat) by now rewrite map_length, seq_length.
  rewrite (map_nth (fun i => x / 256 ^ N.of_nat i mod 256)), seq_nth by exact Hj. rewrite Nat.add_0_l.
  change 256 with (2 ^ 8). rewrite <- N.pow_mul_r. rewrite N.mod_pow2_bits_low by lia.
  rewrite N.div_pow2_bits. f_equal. lia.
Qed.
Lemma number_bytes_inj n x y : x < 2 ^ (8 * N.of_nat n) -> y < 2 ^ (8 * N.of_nat n) -> number_bytes n x = number_bytes n y -> x = y.
Proof.
  intros Hx Hy E. apply N.bits_inj. intros t. destruct (N.lt_ge_cases t (8 * N.of_nat n)) as [L|L].
  - apply (f_equal (fun k => bit k (N.to_nat t))) in E. rewrite !number_bit, N2Nat.id in E by lia. exact E.
  - rewrite !(fits_high (8 * N.of_nat n)); auto.
Qed.
Lemma key_bytes_ok k : key_ok k -> byte_string (key_bytes k).
Proof. destruct k; cbn [key_ok key_bytes]; intros H; [exact H| |]; apply number_bytes_ok. Qed.
Lemma key_bits k : bits k = (8 * List.length (key_bytes k))%nat.
Proof. destruct k; cbn [bits key_bytes]; rewrite ?number_bytes_length; lia. Qed.
Lemma key_bytes_inj k k' : key_ok k -> key_ok k' -> same_kind k k' -> key_bytes k = key_bytes k' -> k = k'.
Proof.
  destruct k, k'; cbn [same_kind key_ok key_bytes]; try tauto; intros H1 H2 _ E; f_equal; [exact E| |].
  - now apply (number_bytes_inj 4).
  - now apply (number_bytes_inj 8).
Qed.
Lemma land255 i k : N.land (shr i k) 255 = i / 2 ^ k mod 256.
Proof. unfold shr. change 255 with (N.ones 8). rewrite N.land_ones, N.shiftr_div_pow2. reflexivity. Qed.
Lemma key_hash_bytes hf k : key_hash hf k = hf (key_bytes k) 0.
Proof.
  destruct k; cbn [key_hash key_bytes]; unfold Int32Hash, Int64Hash; [reflexivity| |]; f_equal;
    unfold number_bytes; cbn [map seq]; rewrite !land255; reflexivity.
Qed.

(** ** Flipping *)
Lemma number_flip n x i : x < 2 ^ (8 * N.of_nat n) -> (i < 8 * n)%nat ->
  flipped i (number_bytes n x) (number_bytes n (N.lxor x (shlw (8 * N.of_nat n) 1 (N.of_nat i)))).
Proof.
  intros Hx Hi. split; [now rewrite !number_bytes_length|]. split; [apply number_bytes_ok|]. intros j.
  destruct (Nat.lt_ge_cases j (8 * n)) as [L|L].
  - rewrite !number_bit by exact L. rewrite N.lxor_spec, shl1_testbit.
    replace (N.of_nat j <? 8 * N.of_nat n) with true by (symmetry; apply N.ltb_lt; lia). rewrite andb_true_r.
    destruct (Nat.eqb_spec j i) as [->|Q].
    + rewrite N.eqb_refl. apply xorb_true_r.
    + destruct (N.eqb_spec (N.of_nat j) (N.of_nat i)); [lia|]. apply xorb_false_r.
  - destruct (Nat.eqb_spec j i); [lia|]. unfold bit.
    assert (n <= j / 8)%nat by (apply Nat.div_le_lower_bound; lia).
    now rewrite !nth_overflow by now rewrite number_bytes_length.
Qed.
Lemma flipBit_spec k i : key_ok k -> (i < bits k)%nat ->
  exists k', flipBit i k = Some k' /\ key_ok k' /\ same_kind k k' /\ flipped i (key_bytes k) (key_bytes k').
Proof.
  intros O H. destruct k as [b|x|x]; cbn [flipBit bits key_ok key_bytes] in *.
  - assert (L : (i / 8 < List.length b)%nat) by (apply Nat.div_lt_upper_bound; lia).
    apply Nat.ltb_lt in L. rewrite L. fold (mask i). fold (flipb b i). eexists. split; [reflexivity|].
    pose proof (flipb_spec b i O ltac:(lia)) as F. split; [apply F|]. split; [|exact F]. cbn. symmetry. apply F.
  - eexists. split; [reflexivity|]. split; [|split; [exact I|]].
    + apply (xor_fits 32); [exact O|apply shlw_fits].
    + apply (number_flip 4); [exact O|lia].
  - eexists. split; [reflexivity|]. split; [|split; [exact I|]].
    + apply (xor_fits 64); [exact O|apply shlw_fits].
    + apply (number_flip 8); [exact O|lia].
Qed.
Lemma same_kind_bits k k' : same_kind k k' -> bits k = bits k'.
Proof. destruct k, k'; cbn; try tauto. now intros ->. Qed.
Lemma same_kind_trans a b c : same_kind a b -> same_kind b c -> same_kind a c.
Proof. destruct a, b, c; cbn; try tauto. congruence. Qed.
Lemma same_kind_sym a b : same_kind a b -> same_kind b a.
Proof. destruct a, b; cbn; try tauto. congruence. Qed.
Lemma flipBit_twice k i k' : key_ok k -> (i < bits k)%nat -> flipBit i k = Some k' -> flipBit i k' = Some k.
Proof.
  intros O H E. destruct (flipBit_spec k i O H) as (k1 & E1 & O1 & S1 & F1). rewrite E1 in E. injection E as <-.
  destruct (flipBit_spec k1 i O1) as (k2 & E2 & O2 & S2 & F2); [now rewrite <- (same_kind_bits _ _ S1)|].
  rewrite E2. f_equal. apply key_bytes_inj; auto.
  - apply same_kind_sym. eapply same_kind_trans; eassumption.
  - eapply flipped_fun; [exact F2|]. apply flipped_sym; [now apply key_bytes_ok|exact F1].
Qed.
Lemma flipBit_outside k i : key_ok k -> (bits k <= i)%nat ->
  flipBit i k = match k with BytesKey _ => None | _ => Some k end.
Proof.
  intros O H. destruct k as [b|x|x]; cbn [flipBit bits] in *.
  - assert (L : (List.length b <= i / 8)%nat) by (apply Nat.div_le_lower_bound; lia).
    apply Nat.ltb_ge in L. now rewrite L.
  - do 2 f_equal. replace (shl32 1 (N.of_nat i)) with 0; [apply N.lxor_0_r|]. symmetry. apply N.bits_inj_0. intros t.
    unfold shl32. rewrite shl1_testbit. destruct (N.eqb_spec t (N.of_nat i)) as [->|]; [|reflexivity]. apply N.ltb_ge. lia.
  - do 2 f_equal. replace (shl64 1 (N.of_nat i)) with 0; [apply N.lxor_0_r|]. symmetry. apply N.bits_inj_0. intros t.
    unfold shl64. rewrite shl1_testbit. destruct (N.eqb_spec t (N.of_nat i)) as [->|]; [|reflexivity]. apply N.ltb_ge. lia.
Qed.

(** ** Windows *)
Lemma Forall2_weaken {A B} (P Q : A -> B -> Prop) : (forall a b, P a b -> Q a b) -> forall l m, Forall2 P l m -> Forall2 Q l m.
Proof. intros H l m F. induction F; constructor; auto. Qed.
Lemma clear_spec k : key_ok (clear k) /\ same_kind k (clear k) /\ forall j, bit (key_bytes (clear k)) j = false.
Proof.
  assert (Z : forall n j, bit (repeat 0 n) j = false).
  { intros n j. unfold bit. fold (zeros n). rewrite nth_zeros. apply N.bits_0. }
  destruct k as [b|x|x]; cbn [clear key_bytes].
  - split; [|split].
    + cbn. generalize (List.length b). induction n; constructor; auto. reflexivity.
    + cbn. now rewrite repeat_length.
    + intros j. apply Z.
  - split; [reflexivity|]. split; [exact I|]. intros j. change (number_bytes 4 0) with (repeat 0 4). apply Z.
  - split; [reflexivity|]. split; [exact I|]. intros j. change (number_bytes 8 0) with (repeat 0 8). apply Z.
Qed.
Lemma window_flips_spec r i js : NoDup js -> forall k, key_ok k -> (0 < bits k)%nat -> (forall j, In j js -> (j < bits k)%nat) ->
  exists k', window_flips r i js k = Some k' /\ key_ok k' /\ same_kind k k' /\
    forall p, (p < bits k)%nat -> bit (key_bytes k') p =
      xorb (bit (key_bytes k) p) (existsb (fun j => N.testbit (N.of_nat i) (N.of_nat j) && Nat.eqb ((j + r) mod bits k) p) js).
Proof.
  induction 1 as [|j js Hj ND IH]; intros k O P B; cbn [window_flips existsb].
  - exists k. split; [reflexivity|]. split; [exact O|]. split; [destruct k; cbn; auto|]. intros p _. now rewrite xorb_false_r.
  - destruct (N.testbit (N.of_nat i) (N.of_nat j)) eqn:T; cbn [andb].
    + assert (Hm : ((j + r) mod bits k < bits k)%nat) by (apply Nat.mod_upper_bound; lia).
      destruct (flipBit_spec k ((j + r) mod bits k) O Hm) as (k1 & E1 & O1 & S1 & F1). rewrite E1.
      pose proof (same_kind_bits _ _ S1) as EB.
      destruct (IH k1 O1) as (k' & E2 & O2 & S2 & F2); [lia|intros t Ht; rewrite <- EB; apply B; now right|].
      exists k'. split; [exact E2|]. split; [exact O2|]. split; [eapply same_kind_trans; eassumption|].
      intros p Hp. rewrite F2 by lia. rewrite <- EB. destruct F1 as (_ & _ & F1). rewrite F1. rewrite (Nat.eqb_sym ((j + r) mod bits k)).
      destruct (Nat.eqb_spec p ((j + r) mod bits k)) as [E|E]; cbn [orb]; [|reflexivity].
      replace (existsb _ js) with false; [now destruct (bit (key_bytes k) p)|].
      symmetry. apply not_true_iff_false. rewrite existsb_exists. intros (t & Ht & Q). apply andb_true_iff in Q. destruct Q as [_ Q].
      apply Nat.eqb_eq in Q. apply Hj. replace j with t; [exact Ht|].
      assert (Bt : (t < bits k)%nat) by (apply B; now right). assert (Bj : (j < bits k)%nat) by (apply B; now left).
      rewrite E in Q. clear - Q Bt Bj P.
      (* t + r and j + r agree modulo bits *)
      pose proof (Nat.div_mod (t + r) (bits k) ltac:(lia)). pose proof (Nat.div_mod (j + r) (bits k) ltac:(lia)).
      rewrite Q in *. set (u := ((t + r) / bits k)%nat) in *. set (v := ((j + r) / bits k)%nat) in *.
      assert (u = v) by nia. nia.
    + destruct (IH k O P) as (k' & E2 & O2 & S2 & F2); [intros t Ht; apply B; now right|]. exists k'. auto.
Qed.
Lemma window_key_spec k r i : key_ok k -> (16 <= bits k)%nat -> (r < bits k)%nat -> (i < 2 ^ 16)%nat ->
  exists k', window_key r i k = Some k' /\ key_ok k' /\ same_kind k k' /\ rotation (bits k) r i (key_bytes k').
Proof.
  intros O Hb Hr Hi. destruct (clear_spec k) as (O0 & S0 & Z0). unfold window_key.
  pose proof (same_kind_bits _ _ S0) as EB.
  destruct (window_flips_spec r i (seq 0 16) (seq_NoDup _ _) (clear k) O0) as (k' & E & O' & S' & F).
  - lia.
  - intros j Hj. apply in_seq in Hj. lia.
  - exists k'. split; [exact E|]. split; [exact O'|]. assert (S2 : same_kind k k') by (eapply same_kind_trans; eassumption).
    split; [exact S2|]. split; [rewrite (same_kind_bits _ _ S2); now rewrite key_bits|]. split; [now apply key_bytes_ok|].
    intros p Hp. rewrite F by lia. rewrite Z0, xorb_false_l, <- EB.
    set (n := bits k) in *. set (q := ((p + (n - r)) mod n)%nat).
    assert (Eq : forall j, (j < n)%nat -> ((j + r) mod n = p <-> j = q)%nat).
    { intros j Hj. unfold q. split; intros Q.
      - rewrite <- Q. rewrite Nat.add_mod_idemp_l by lia. replace (j + r + (n - r))%nat with (j + 1 * n)%nat by lia.
        rewrite Nat.mod_add by lia. now rewrite Nat.mod_small.
      - rewrite Q. rewrite Nat.add_mod_idemp_l by lia. replace (p + (n - r) + r)%nat with (p + 1 * n)%nat by lia.
        rewrite Nat.mod_add by lia. now rewrite Nat.mod_small. }
    assert (Hq : (q < n)%nat) by (apply Nat.mod_upper_bound; lia).
    destruct (N.testbit (N.of_nat i) (N.of_nat q)) eqn:T.
    + apply existsb_exists. exists q. split.
      * apply in_seq. split; [lia|]. cbn [Nat.add]. destruct (Nat.lt_ge_cases q 16) as [|Q]; [assumption|].
        rewrite (fits_high 16) in T; [discriminate| |lia]. red.
        assert (N.of_nat i < N.of_nat (2 ^ 16)) by lia. rewrite Nat2N.inj_pow in H. exact H.
      * rewrite T. cbn [andb]. apply Nat.eqb_eq. now apply Eq.
    + apply not_true_iff_false. rewrite existsb_exists. intros (j & Hj & Q). apply in_seq in Hj. apply andb_true_iff in Q. destruct Q as [Q1 Q2].
      apply Nat.eqb_eq in Q2. apply Eq in Q2; [|lia]. subst j. congruence.
Qed.
Lemma rotation_inj n r i j k : (16 <= n)%nat -> (r < n)%nat -> (i < 2 ^ 16)%nat -> (j < 2 ^ 16)%nat ->
  rotation n r i k -> rotation n r j k -> i = j.
Proof.
  intros Hn Hr Hi Hj (_ & _ & F1) (_ & _ & F2). apply Nat2N.inj. apply N.bits_inj. intros t.
  assert (W : forall x, (x < 2 ^ 16)%nat -> fits 16 (N.of_nat x)).
  { intros x Hx. red. assert (N.of_nat x < N.of_nat (2 ^ 16)) by lia. rewrite Nat2N.inj_pow in H. exact H. }
  destruct (N.lt_ge_cases t 16) as [L|L].
  - set (p := ((N.to_nat t + r) mod n)%nat).
    assert (Hp : (p < n)%nat) by (apply Nat.mod_upper_bound; lia).
    assert (E : ((p + (n - r)) mod n = N.to_nat t)%nat).
    { unfold p. rewrite Nat.add_mod_idemp_l by lia. replace (N.to_nat t + r + (n - r))%nat with (N.to_nat t + 1 * n)%nat by lia.
      rewrite Nat.mod_add by lia. apply Nat.mod_small. lia. }
    specialize (F1 p Hp). specialize (F2 p Hp). rewrite E, N2Nat.id in F1, F2. congruence.
  - now rewrite !(fits_high 16) by auto.
Qed.
Lemma window_loop_spec r is : forall k, key_ok k -> (16 <= bits k)%nat -> (r < bits k)%nat -> (forall i, In i is -> (i < 2 ^ 16)%nat) ->
  exists ks, window_loop r is k = Some ks /\ Forall2 (fun i k' => key_ok k' /\ same_kind k k' /\ rotation (bits k) r i (key_bytes k')) is ks.
Proof.
  induction is as [|i is IH]; intros k O Hb Hr Hi; cbn [window_loop].
  - exists []. split; [reflexivity|constructor].
  - destruct (window_key_spec k r i O Hb Hr (Hi i (or_introl eq_refl))) as (k1 & E1 & O1 & S1 & R1). rewrite E1.
    pose proof (same_kind_bits _ _ S1) as EB.
    destruct (IH k1 O1) as (ks & E2 & F2); [lia|lia|intros t Ht; apply Hi; now right|].
    rewrite E2. exists (k1 :: ks). split; [reflexivity|]. constructor; [auto|].
    revert F2. apply Forall2_weaken. intros t k' (A & B & C). split; [exact A|]. split; [eapply same_kind_trans; eassumption|]. now rewrite EB.
Qed.
Lemma Forall2_nth' {A B} (P : A -> B -> Prop) d e l m : Forall2 P l m -> forall n, (n < List.length l)%nat -> P (nth n l d) (nth n m e).
Proof. intros Q. induction Q; intros [|n] Hn; cbn [nth List.length] in *; try lia; auto. apply IHQ. lia. Qed.
Lemma window_keys_spec k r count : key_ok k -> (16 <= bits k)%nat -> (r < bits k)%nat -> (count <= 2 ^ 16)%nat ->
  exists ks, window_keys r count k = Some ks /\ List.length ks = count /\
    (forall i, (i < count)%nat -> rotation (bits k) r i (key_bytes (nth i ks (Int32Key 0)))) /\ NoDup (map key_bytes ks).
Proof.
  intros O Hb Hr Hc. unfold window_keys.
  destruct (window_loop_spec r (seq 0 count) k O Hb Hr) as (ks & E & F); [intros i Hi; apply in_seq in Hi; lia|].
  exists ks. split; [exact E|].
  assert (L : List.length ks = count).
  { assert (G : forall {A B} (P : A -> B -> Prop) l m, Forall2 P l m -> List.length l = List.length m).
    { intros A B P l m Q. induction Q; cbn; congruence. }
    apply G in F. now rewrite seq_length in F. }
  split; [exact L|].
  assert (R : forall i, (i < count)%nat -> rotation (bits k) r i (key_bytes (nth i ks (Int32Key 0)))).
  { intros i Hi. pose proof (Forall2_nth' _ 0%nat (Int32Key 0) _ _ F i) as G. clear E Hc. rewrite seq_length, seq_nth in G by exact Hi. apply (G Hi). }
  split; [exact R|].
  apply NoDup_nth with (d := key_bytes (Int32Key 0)). rewrite map_length, L. intros i j Hi Hj Q. rewrite !map_nth in Q.
  assert (P16 : (count <= 2 ^ 16)%nat) by exact Hc.
  apply (rotation_inj (bits k) r i j (key_bytes (nth i ks (Int32Key 0)))); auto; try lia.
  rewrite Q. now apply R.
Qed.

(** ** The avalanche grid *)
Lemma flip_key_flipped i k : byte_string k -> (i < 8 * List.length k)%nat -> flipped i k (flip_key i k).
Proof.
  intros B H. replace (flip_key i k) with (flipb k i); [now apply flipb_spec|].
  unfold flip_key, flipb. apply nth_ext with (d := 0) (d' := 0).
  - now rewrite HtProofs.set_nth_length, map_length, seq_length.
  - intros q Hq. rewrite HtProofs.set_nth_length in Hq.
    assert (L : (i / 8 < List.length k)%nat) by (apply Nat.div_lt_upper_bound; lia). rewrite nth_set_nth by exact L.
    set (f := fun q => if Nat.eqb q (i / 8) then N.lxor (nth q k 0) (2 ^ N.of_nat (i mod 8)) else nth q k 0).
    rewrite (nth_indep (map f (seq 0 (List.length k))) 0 (f 0%nat)) by now rewrite map_length, seq_length.
    rewrite (map_nth f), seq_nth by exact Hq. unfold f. rewrite Nat.add_0_l. destruct (Nat.eqb_spec q (i / 8)) as [->|]; [|reflexivity].
    f_equal. unfold mask. rewrite land7. unfold shlw. rewrite N.shiftl_1_l. apply wrap_small. red.
    apply N.pow_lt_mono_r; [lia|]. pose proof (Nat.mod_upper_bound i 8). lia.
Qed.
Lemma flips_spec hf h is : NoDup is -> forall k grid, key_ok k -> (forall i, In i is -> (i < bits k)%nat) -> List.length grid = bits k ->
  exists grid', flips hf h is k grid = Some (k, grid') /\ List.length grid' = bits k /\
    forall i, nth i grid' [] = if in_dec Nat.eq_dec i is then record (nth i grid []) (N.lxor h (hf (flip_key i (key_bytes k)) 0)) else nth i grid [].
Proof.
  induction 1 as [|i is Hi ND IH]; intros k grid O B L; cbn [flips].
  - exists grid. auto.
  - assert (Bi : (i < bits k)%nat) by (apply B; now left).
    destruct (flipBit_spec k i O Bi) as (k1 & E1 & O1 & S1 & F1). rewrite E1. rewrite (flipBit_twice k i k1 O Bi E1).
    assert (EF : key_bytes k1 = flip_key i (key_bytes k)).
    { eapply flipped_fun; [exact F1|]. apply flip_key_flipped; [now apply key_bytes_ok|]. now rewrite <- key_bits. }
    rewrite key_hash_bytes, EF.
    destruct (IH k (set_nth i (record (nth i grid []) (N.lxor h (hf (flip_key i (key_bytes k)) 0))) grid) O) as (g & E2 & L2 & N2).
    + intros t Ht. apply B. now right.
    + now rewrite HtProofs.set_nth_length.
    + exists g. split; [exact E2|]. split; [exact L2|]. intros t. rewrite N2.
      rewrite nth_set_nth by lia. destruct (in_dec Nat.eq_dec t (i :: is)) as [I|I]; destruct (in_dec Nat.eq_dec t is) as [I'|I'].
      * destruct (Nat.eqb_spec t i) as [->|]; [contradiction|reflexivity].
      * destruct I as [<-|I]; [|contradiction]. rewrite Nat.eqb_refl. reflexivity.
      * exfalso. apply I. now right.
      * destruct (Nat.eqb_spec t i) as [->|]; [|reflexivity]. exfalso. apply I. now left.
Qed.
Lemma record_nth g d j : (j < 64)%nat -> nth j (record g d) 0%nat = (nth j g 0 + (if N.testbit d (N.of_nat j) then 1 else 0))%nat.
Proof.
  intros H. unfold record. set (f := fun j => (nth j g 0 + N.to_nat (N.land (shr d (N.of_nat j)) 1))%nat).
  rewrite nth_indep with (d' := f 0%nat) by now rewrite map_length, seq_length. rewrite (map_nth f), seq_nth by exact H.
  unfold f. rewrite Nat.add_0_l. f_equal. change 1 with (N.ones 1). rewrite N.land_ones. change (2 ^ 1) with 2.
  rewrite <- N.bit0_mod, shr_testbit, N.add_0_l. now destruct (N.testbit d (N.of_nat j)).
Qed.
Lemma avalanche_spec hf n ks : Forall (fun k => key_ok k /\ bits k = n) ks -> forall grid, List.length grid = n ->
  exists grid', avalanche hf n ks grid = Some grid' /\ List.length grid' = n /\
    forall i j, (i < n)%nat -> (j < 64)%nat -> nth j (nth i grid' []) 0%nat =
      (nth j (nth i grid []) 0 + List.length (filter (affects (fun k => hf k 0%N) i j) (map key_bytes ks)))%nat.
Proof.
  induction 1 as [|k ks [O E] F IH]; intros grid L; cbn [avalanche map filter].
  - exists grid. split; [reflexivity|]. split; [exact L|]. intros. now rewrite Nat.add_0_r.
  - destruct (flips_spec hf (key_hash hf k) (seq 0 n) (seq_NoDup _ _) k grid O) as (g & E1 & L1 & N1); [intros i Hi; apply in_seq in Hi; lia|lia|].
    rewrite E1. destruct (IH g) as (g' & E2 & L2 & N2); [lia|]. exists g'. split; [exact E2|]. split; [exact L2|].
    intros i j Hi Hj. rewrite N2 by assumption. rewrite N1. destruct (in_dec Nat.eq_dec i (seq 0 n)) as [I|I]; [|exfalso; apply I, in_seq; lia].
    rewrite record_nth by exact Hj. rewrite key_hash_bytes. unfold affects at 2. rewrite N.lxor_spec.
    destruct (N.testbit (hf (key_bytes k) 0) (N.of_nat j)), (N.testbit (hf (flip_key i (key_bytes k)) 0) (N.of_nat j));
      cbn [xorb Bool.eqb negb List.length]; lia.
Qed.
