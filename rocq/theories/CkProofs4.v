(** Proofs about package keccak: the methods. *)
From Coq Require Import ZArith.
From Verif Require Import Words WordLemmas ListLemmas Mem SLP Bij Blocks Mm3Spec Mm3Proofs KeccakSpec KeccakProofs KeccakProofs2 KeccakProofs3 KeccakProofs4 CkProg CkModel CkRounds CkProofs CkProofs2 CkProofs3 CkSpec.
Open Scope N_scope.
Strategy 1000 [rounds24].

Lemma init_state : KeccakInitializeState = masked zero.
Proof. vm_compute. reflexivity. Qed.
Lemma InitSponge_ok r c s B : InitSponge r c = Some s -> r = 8 * N.of_nat B -> holds 0 s B [].
Proof.
  unfold InitSponge. destruct (negb (add32 r c =? 1600)); [discriminate|].
  destruct (((r <=? 0) || (1600 <=? r) || negb (r mod 64 =? 0))%bool) eqn:E; [discriminate|]. intros H Hr.
  apply orb_false_iff in E. destruct E as [E E3]. apply orb_false_iff in E. destruct E as [E1 E2].
  apply N.leb_gt in E1, E2. apply negb_false_iff, N.eqb_eq in E3. injection H as <-.
  assert (HB : rate_ok B).
  { subst r. change 64 with (8 * 8) in E3. rewrite N.mul_mod_distr_l in E3 by discriminate.
    assert (M : N.of_nat B mod 8 = 0) by lia. change 8 with (N.of_nat 8) in M. rewrite <- Nat2N.inj_mod in M.
    constructor; [lia|lia|]. pose proof (Nat.div_mod B 8). lia. }
  assert (A : absorbed B 24 [] = (zero, [])) by (apply absorb_short; cbn [length]; apply HB).
  constructor; cbn [rate dataQueue state bitsInQueue squeezing fixedOutputLength]; try assumption; try reflexivity; try (rewrite A; reflexivity).
  - apply (bytes_ok_zeros 192).
  - constructor.
Qed.
Lemma withFixed_ok F G s B d : holds F s B d -> holds G (withFixed s G) B d.
Proof. intros []. now constructor. Qed.

Definition offered (bits : Z) : Prop := (bits = 224 \/ bits = 256 \/ bits = 384 \/ bits = 512)%Z.
Definition digest_bytes (bits : Z) : nat := Z.to_nat (bits / 8).
Definition rate_bytes (bits : Z) : nat := (200 - 2 * digest_bytes bits)%nat.
Definition khash (bits : Z) (m : list N) : list N := sponge 24 (rate_bytes bits) (digest_bytes bits) m.
Definition kholds (bits : Z) (k : keccak) (d : list N) : Prop :=
  bitlen k = bits /\ holds (Z.to_N bits) (hashState k) (rate_bytes bits) d.
Lemma Init_go r c s F B : InitSponge r c <> None -> r = 8 * N.of_nat B ->
  holds F (withFixed (match InitSponge r c with Some s => s | None => s end) F) B [].
Proof.
  intros H Hr. destruct (InitSponge r c) as [s0|] eqn:E; [|contradiction].
  apply withFixed_ok with (F := 0). now apply (InitSponge_ok r c).
Qed.
Lemma Init_ok s bits : offered bits -> holds (Z.to_N bits) (fst (Init s (Z.to_N bits))) (rate_bytes bits) [].
Proof.
  intros [->|[->|[->| ->]]]; unfold Init; cbn [fst Z.to_N N.eqb Pos.eqb];
    apply Init_go; (reflexivity || discriminate).
Qed.
Lemma Reset_ok bits k : offered bits -> bitlen k = bits -> kholds bits (Reset k) [].
Proof. intros O E. unfold kholds, Reset. rewrite E. split; [reflexivity|]. cbn [hashState]. now apply Init_ok. Qed.
Lemma rate_bytes_ok bits : offered bits -> (0 < rate_bytes bits)%nat /\ (digest_bytes bits <= rate_bytes bits <= 192)%nat /\ (rate_bytes bits mod 8 = 0)%nat.
Proof. intros [->|[->|[->| ->]]]; vm_compute; repeat split; repeat constructor. Qed.

Lemma Update_bytes F fuel s B d p : holds F s B d -> Update fuel s p (bits p) = (s <~ absorb_while fuel s p (bits p) 0 ;; Ok (s, 0)).
Proof.
  intros H. unfold Update, bits. rewrite mod8. change (0 =? 0) with true. cbn iota. unfold Absorb.
  rewrite (h_bits _ _ _ _ H), mod8. change (negb (0 =? 0)) with false. cbn iota. now rewrite (h_sq _ _ _ _ H).
Qed.
Lemma Write_ok B bits k d p fuel : offered bits -> B = rate_bytes bits -> kholds bits k d -> bytes_ok p -> 8 * N.of_nat (length p) < 2 ^ 64 -> (4 <= fuel)%nat ->
  match write_fate (N.of_nat B) (N.of_nat (length d)) (N.of_nat (length p)) with
  | Takes => exists k', Write fuel k p = Ok (k', length p, false) /\ kholds bits k' (d ++ p)
  | Hangs => Write fuel k p = NoFuel
  | Spills => Write fuel k p = Overread
  end.
Proof.
  intros O -> [Hb H] Hp H64 Hf. set (B := rate_bytes bits) in *. pose proof (h_B _ _ _ _ H) as [B0 B8 BM].
  do 4 (destruct fuel as [|fuel]; [lia|]).
  destruct (Nat.eq_dec (length p) 0) as [E|E].
  { apply length_zero_iff_nil in E. subst p. unfold write_fate. cbn [length].
    assert (T : forall q, q < 8 * N.of_nat B -> (if q =? 0 then Takes else if 2 ^ 32 <=? (8 * N.of_nat 0) mod 2 ^ 32 + q then Spills else if 8 * N.of_nat 0 <? 2 ^ 32 then Takes else if 8 * N.of_nat B <=? (8 * N.of_nat 0) mod 2 ^ 32 + q then Takes else Hangs) = Takes).
    { intros q Hq. change ((8 * N.of_nat 0) mod 2 ^ 32) with 0. change (8 * N.of_nat 0 <? 2 ^ 32) with true. destruct (q =? 0); [reflexivity|].
      destruct (N.leb_spec (2 ^ 32) (0 + q)) as [K|K]; [change (2 ^ 32) with 4294967296 in K; lia|reflexivity]. }
    rewrite T.
    - exists k. rewrite app_nil_r. split; [reflexivity|now split].
    - pose proof (N.mod_upper_bound (N.of_nat (length d)) (N.of_nat B) ltac:(lia)). lia. }
  assert (EW : Write (S (S (S (S fuel)))) k p =
    ('(s, ret) <~ (s <~ absorb_while (S (S (S (S fuel)))) (hashState k) p (CkProofs2.bits p) 0 ;; Ok (s, 0)) ;;
     if ret =? SUCCESS then Ok (mkKeccak s (bitlen k), length p, false) else Ok (mkKeccak s (bitlen k), 0%nat, true))).
  { unfold Write. destruct (Nat.eqb_spec (length p) 0); [contradiction|].
    replace (mul64 (N.of_nat (length p)) 8) with (CkProofs2.bits p) by (unfold mul64, mulw, CkProofs2.bits; rewrite wrap_small; lia).
    now rewrite (Update_bytes _ _ _ _ _ p H). }
  assert (Eq : bitsInQueue (hashState k) = 8 * (N.of_nat (length d) mod N.of_nat B)).
  { rewrite (h_bits _ _ _ _ H), rest_length by assumption. now rewrite Nat2N.inj_mod. }
  unfold write_fate. rewrite <- Eq. fold (CkProofs2.bits p). rewrite <- (h_rate _ _ _ _ H).
  set (q := bitsInQueue (hashState k)) in *. set (r := CkProofs2.bits p mod 2 ^ 32).
  assert (G : (q = 0 \/ r + q < 2 ^ 32 /\ (rate (hashState k) <= r + q \/ CkProofs2.bits p < 2 ^ 32)) ->
    exists k', Write (S (S (S (S fuel)))) k p = Ok (k', length p, false) /\ kholds bits k' (d ++ p)).
  { intros C. destruct (takes_ok _ fuel _ _ _ p H Hp H64 C) as (s' & E' & H').
    rewrite EW, E'. cbn [rbind]. change (0 =? SUCCESS) with true. cbn iota. eexists. split; [reflexivity|]. split; assumption. }
  destruct (N.eqb_spec q 0) as [Q|Q]; [now apply G; left|].
  destruct (N.leb_spec (2 ^ 32) (r + q)) as [C1|C1].
  { rewrite EW, (corrupts_ok _ _ _ _ _ p H H64 Q C1). reflexivity. }
  destruct (N.ltb_spec (CkProofs2.bits p) (2 ^ 32)) as [C2|C2]; [apply G; right; auto|].
  destruct (N.leb_spec (rate (hashState k)) (r + q)) as [C3|C3]; [apply G; right; auto|].
  rewrite EW, (hangs_ok _ _ _ _ p H Hp H64 Q C2 C3). reflexivity.
Qed.
Lemma Sum_ok bits k d b fuel : offered bits -> kholds bits k d -> (64 < fuel)%nat -> Sum fuel k b = Ok (b ++ khash bits d).
Proof.
  intros O [Hb H] Hf. pose proof (rate_bytes_ok bits O) as (R0 & [Rd R1] & R8). unfold Sum, Final, Squeeze.
  rewrite (h_sq _ _ _ _ H). destruct (pad_ok _ _ _ _ _ _ (holds_k _ _ _ _ H)) as (s' & E & Z). rewrite E. cbn [rbind].
  rewrite (h_fixed _ _ _ _ H). assert (E8 : Z.to_N bits = 8 * N.of_nat (digest_bytes bits)) by (destruct O as [->|[->|[->| ->]]]; reflexivity).
  assert (Es : Z.to_nat (Size k) = digest_bytes bits) by (unfold Size; rewrite Hb; destruct O as [->|[->|[->| ->]]]; reflexivity).
  rewrite E8, Es, mod8. change (negb (0 =? 0)) with false. cbn iota.
  assert (D64 : (digest_bytes bits <= 64)%nat) by (destruct O as [->|[->|[->| ->]]]; vm_compute; repeat constructor).
  destruct (squeeze_ok _ _ _ (digest_bytes bits) fuel s' 0 0 0 (repeat 0 (digest_bytes bits)) Z) as (s2 & b2 & o2 & E2 & Z2 & _);
    [lia|rewrite repeat_length; lia|change (2 ^ 64) with 18446744073709551616; lia|lia|].
  change (8 * N.of_nat 0) with 0 in E2. rewrite E2. cbn [rbind]. change (0 =? SUCCESS) with true. cbn iota. do 2 f_equal.
  rewrite firstn_O. rewrite skipn_all2 by (rewrite repeat_length; lia). rewrite app_nil_r. cbn [app Nat.mul Nat.add]. rewrite Nat.sub_0_r.
  rewrite finalk_0 by assumption. unfold khash. rewrite sponge_final by (assumption || lia).
  assert (FO : state_ok (final (rate_bytes bits) 24 d)) by (apply final_ok; [assumption|lia|apply H]).
  pose proof (out_piece (rate_bytes bits) (final (rate_bytes bits) 24 d) 0 0 (digest_bytes bits) ltac:(lia) FO ltac:(lia)) as P.
  rewrite skipn_O in P. cbn [Nat.mul Nat.add turned Nat.iter nat_rect] in P. symmetry. exact P.
Qed.
Lemma observe_ok bits fuel : offered bits -> (64 < fuel)%nat -> forall ops k d, Forall kop_ok ops -> kholds bits k d ->
  observe (Write fuel) (Sum fuel) Reset k ops = delivered (rate_bytes bits) (khash bits) d ops.
Proof.
  intros O Hf. induction ops as [|o ops IH]; intros k d HO H; [reflexivity|]. inversion HO as [|? ? Ho HO']; subst.
  destruct o as [p|b|]; cbn [observe delivered].
  - destruct Ho as [Hp H64]. pose proof (Write_ok (rate_bytes bits) bits k d p fuel O eq_refl H Hp H64 ltac:(lia)) as W.
    destruct (write_fate (N.of_nat (rate_bytes bits)) (N.of_nat (length d)) (N.of_nat (length p))).
    + destruct W as (k' & E & H'). rewrite E. f_equal. now apply IH.
    + now rewrite W.
    + now rewrite W.
  - rewrite (Sum_ok bits k d b fuel O H Hf). f_equal. now apply IH.
  - f_equal. apply IH; [assumption|]. apply Reset_ok; [assumption|apply H].
Qed.
