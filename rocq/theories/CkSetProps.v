(** Property C111: package keccak under every build setting of its C files. *)
From Coq Require Import NArith ZArith List Arith Bool Lia.
From Verif Require Import Words WordLemmas ListLemmas Mem SLP KeccakSpec CkProg CkModel CkSpec CkRounds CkProofs CkProofs4 CkProps CkVecModel CkSetProg CkSetRounds CkSetModel CkSetProofs CkSetProofs2 CkSetProofs3 CkSetProofs4.
From Verif Require KeccakProofs KeccakProofs3.
Import ListNotations.
Open Scope N_scope.
Strategy 1000 [rounds24 plain_round plain_last thetaRhoPiChiIotaPrepareTheta thetaRhoPiChiIota v64_round v64_last v128_round].

(** ** The settings that can be compiled and run *)
(** Unrolling is 24, 12, 8, 6, 4, 3, 2 or 1; big-endian machines have neither MMX nor SSE; with 128-bit SSE the state is aligned as the header
    asks; local variables contain anything that fits.  Any of the fast functions may be left out. *)
Definition usable (S : settings) : Prop :=
  In (fst (s_unrolling S)) [24; 12; 8; 6; 4; 3; 2; 1]%nat /\ In (s_unrolling S) unrollings /\
  (s_big S = true -> s_simd S = Scalar true \/ s_simd S = Scalar false) /\
  (s_simd S = SSE128 -> s_state16 S = true) /\
  forall i, fst (s_junk S i) < 2 ^ 64 /\ snd (s_junk S i) < 2 ^ 64.
Lemma usable_valid S : usable S -> valid S.
Proof.
  intros (_ & U & B & A & J). split; try assumption. intros Q. destruct (B Q) as [E|E]; rewrite E; eauto.
Qed.
(** An object of the package built with some settings, and what the calls on it give. *)
Definition seen_with (S : settings) (fuel : nat) (bits : Z) (ops : list kop) : list kout :=
  observe (set_Write (core_of S) fuel) (set_Sum (core_of S) fuel) (set_Reset (core_of S)) (set_newKeccak (core_of S) bits) ops.

(** Whatever the settings, Write, Sum and Reset do what hash.Hash promises, with the published Keccak. *)
Theorem c111_published_hash S fuel ops : usable S -> (64 < fuel)%nat -> Forall ordinary ops ->
  seen_with S fuel 224 ops = promised (Keccak 224) [] ops /\ seen_with S fuel 256 ops = promised (Keccak 256) [] ops /\
  seen_with S fuel 384 ops = promised (Keccak 384) [] ops /\ seen_with S fuel 512 ops = promised (Keccak 512) [] ops.
Proof.
  intros U Hf HO. assert (HK : Forall kop_ok ops) by (eapply Forall_impl; [|exact HO]; exact ordinary_ok).
  assert (G : forall bits, offered bits -> seen_with S fuel bits ops = observe (Write fuel) (Sum fuel) Reset (newKeccak bits) ops)
    by (intros bits O; apply settings_observe; [now apply usable_valid|exact O|exact HK]).
  rewrite !G by (unfold offered; auto).
  split; [apply (c81_published_hash fuel New224 ops Hf HO); reflexivity|]. split; [apply (c81_published_hash fuel New256 ops Hf HO); reflexivity|].
  split; [apply (c81_published_hash fuel New384 ops Hf HO)|apply (c81_published_hash fuel New512 ops Hf HO)]; reflexivity.
Qed.
Print Assumptions c111_published_hash.

(** Two builds cannot be told apart by a user, for writes of any size: they also hang or corrupt memory at the same calls (see C82). *)
Theorem c111_same_behaviour S T fuel bits ops : usable S -> usable T -> In bits [224; 256; 384; 512]%Z -> Forall kop_ok ops ->
  seen_with S fuel bits ops = seen_with T fuel bits ops.
Proof.
  intros U V HI HO. assert (O : offered bits) by (unfold offered; cbn in HI; intuition). unfold seen_with.
  rewrite !settings_observe by (assumption || now apply usable_valid). reflexivity.
Qed.
Print Assumptions c111_same_behaviour.
Theorem c111_any_size S fuel bits ops : usable S -> (64 < fuel)%nat -> In bits [224; 256; 384; 512]%Z -> Forall kop_ok ops ->
  seen_with S fuel bits ops = delivered (200 - Z.to_nat bits / 4) (Keccak (Z.to_nat bits)) [] ops.
Proof.
  intros U Hf HI HO. rewrite <- (c82_any_size fuel bits ops Hf HI HO). apply settings_observe; [now apply usable_valid| |exact HO].
  unfold offered; cbn in HI; intuition.
Qed.
Print Assumptions c111_any_size.

(** The settings in the repository are usable, provide every length that the permutation is called
    with, and give the package of C81 and C82 (CkModel.v), step for step. *)
Theorem c111_repository fuel bits ops : In bits [224; 256; 384; 512]%Z -> Forall kop_ok ops ->
  usable repo_settings /\ (forall b, In b (s_provided repo_settings) <-> In b [576; 832; 1024; 1088; 1152; 1344]) /\
  seen_with repo_settings fuel bits ops = observe (Write fuel) (Sum fuel) Reset (newKeccak bits) ops.
Proof.
  intros HI HO. assert (U : usable repo_settings).
  { split; [cbn; tauto|]. split; [unfold unrollings; cbn [In s_unrolling repo_settings]; tauto|]. split; [discriminate|]. split; [discriminate|]. intros i. split; reflexivity. }
  split; [exact U|]. split; [reflexivity|]. unfold seen_with. apply settings_observe; [now apply usable_valid|unfold offered; cbn in HI; intuition|exact HO].
Qed.
Print Assumptions c111_repository.

(** ** One call of the permutation *)
(** With UseBebigokimisa six lanes are kept complemented. *)
Definition stored (S : settings) (A : list N) : list N := if complementing S then complemented A else A.
(** The first n lanes with words exclusive-ored into them. *)
Definition xored_lanes (n : nat) (A input : list N) : list N :=
  map (fun i => if Nat.ltb i n then N.lxor (nth i A 0) (nth i input 0) else nth i A 0) (seq 0 25).
Theorem c111_permutation S bits A input : usable S -> In bits [0; 576; 832; 1024; 1088; 1152; 1344] ->
  length A = 25%nat -> Forall (fun x => x < 2 ^ 64) A -> Forall (fun x => x < 2 ^ 64) input ->
  permute S bits (stored S A) input = Ok (stored S (keccak_f 24 (xored_lanes (N.to_nat (bits / 64)) A input))).
Proof.
  intros U HB L F FI. assert (HA : KeccakProofs.state_ok A) by (split; assumption).
  assert (E : forall X, KeccakProofs.state_ok X -> stored S X = view S X) by (intros X HX; unfold stored, view; destruct (complementing S); [now apply complemented_eq|reflexivity]).
  assert (EN : N.to_nat (bits / 64) = as_words bits) by (cbn in HB; intuition (subst; reflexivity)). rewrite EN.
  assert (HX : KeccakProofs.state_ok (xor_words (as_words bits) A input)) by now apply xor_words_ok.
  change (xored_lanes (as_words bits) A input) with (xor_words (as_words bits) A input).
  rewrite !E by (assumption || now apply kf_ok). apply permute_ok; try assumption. now apply usable_valid.
Qed.
Print Assumptions c111_permutation.

(** ** Concrete builds *)
Definition dirt (i : nat) : N * N := (0x0123456789abcdef, 0xfedcba9876543210).
Definition sse_build : settings := mkSettings SSE128 (3%nat, body3) [1088; 1024] false true dirt.
Definition mmx_build : settings := mkSettings MMX (1%nat, body1) [] false false dirt.
Definition sse64_build : settings := mkSettings SSE64 (8%nat, body8) [576] false false dirt.
Definition big_build : settings := mkSettings (Scalar true) (6%nat, body6) [1024; 1152] true false dirt.
Definition plain_build : settings := mkSettings (Scalar false) (2%nat, body2) [832] true false dirt.
Lemma usable_build S : In S [sse_build; mmx_build; sse64_build; big_build; plain_build] -> usable S.
Proof.
  cbn [In]. intros H. unfold usable.
  destruct H as [<-|[<-|[<-|[<-|[<-|[]]]]]]; (split; [cbn; tauto|]; split; [unfold unrollings; cbn [In s_unrolling]; tauto|];
    split; [cbn [s_big s_simd]; (discriminate || auto)|]; split; [cbn [s_simd s_state16]; (discriminate || reflexivity)|]; intros i; split; reflexivity).
Qed.
Example c111_repository_nonvacuous : Forall kop_ok abc.
Proof. eapply Forall_impl; [exact ordinary_ok|exact (proj1 c81_published_hash_nonvacuous)]. Qed.
Example c111_published_hash_nonvacuous : usable sse_build /\ usable big_build /\ Forall ordinary abc.
Proof. split; [apply usable_build; cbn; tauto|]. split; [apply usable_build; cbn; tauto|]. exact (proj1 c81_published_hash_nonvacuous). Qed.
(** The published permutation of the state of zeros, computed by four of the implementations. *)
Definition of_zeros : list N :=
  [0xf1258f7940e1dde7; 0x84d5ccf933c0478a; 0xd598261ea65aa9ee; 0xbd1547306f80494d; 0x8b284e056253d057;
   0xff97a42d7f8e6fd4; 0x90fee5a0a44647c4; 0x8c5bda0cd6192e76; 0xad30a6f71b19059c; 0x30935ab7d08ffc64;
   0xeb5aa93f2317d635; 0xa9a6e6260d712103; 0x81a57c16dbcf555f; 0x43b831cd0347c826; 0x01f22f1a11a5569f;
   0x05e5635a21d9ae61; 0x64befef28cc970f2; 0x613670957bc46611; 0xb87c5a554fd00ecb; 0x8c3ee88a1ccf32c8;
   0x940c7922ae3a2614; 0x1841f924a2c509e4; 0x16f53526e70465c2; 0x75f644e97f30a13b; 0xeaf1ff7b5ceca249].
Example c111_permutation_nonvacuous : Forall (fun x => x < 2 ^ 64) (repeat 0 25) /\
  permute sse_build 0 (repeat 0 25) [] = Ok of_zeros /\ permute sse64_build 0 (repeat 0 25) [] = Ok of_zeros /\
  permute mmx_build 1088 (repeat 0 25) (repeat 0 17) = Ok of_zeros /\ permute plain_build 576 (repeat 0 25) (repeat 0 9) = Ok of_zeros.
Proof.
  split; [apply Forall_forall; intros x H; apply repeat_spec in H; subst; reflexivity|].
  split; [vm_compute; reflexivity|]. split; [vm_compute; reflexivity|]. split; vm_compute; reflexivity.
Qed.
(** A big-endian build, and one with 128-bit SSE, on "abc". *)
Definition abc256 : list N :=
  [0x4e; 0x03; 0x65; 0x7a; 0xea; 0x45; 0xa9; 0x4f; 0xc7; 0xd4; 0x7b; 0xa8; 0x26; 0xc8; 0xd6; 0x67;
   0xc0; 0xd1; 0xe6; 0xe3; 0x3a; 0x64; 0xa0; 0x36; 0xec; 0x44; 0xf5; 0x8f; 0xa1; 0x2d; 0x6c; 0x45].
Example c111_same_behaviour_nonvacuous : usable sse_build /\ usable big_build /\
  seen_with big_build 65 256 [KWrite [97; 98; 99]; KSum []] = [Wrote 3; Summed abc256] /\
  seen_with sse_build 65 256 [KWrite [97; 98; 99]; KSum []] = [Wrote 3; Summed abc256].
Proof.
  split; [apply usable_build; cbn; tauto|]. split; [apply usable_build; cbn; tauto|]. split; vm_compute; reflexivity.
Qed.
Example c111_any_size_nonvacuous : usable mmx_build /\ Forall kop_ok (KWrite [7] :: [KWrite (big (2 ^ 29))]) /\
  delivered (200 - 64) (Keccak 256) [] [KWrite [7]; KWrite (big (2 ^ 29 - 1))] = [Wrote 1; CorruptsMemory].
Proof.
  split; [apply usable_build; cbn; tauto|]. split.
  - constructor; [split; [repeat constructor|reflexivity]|]. constructor; [apply big_ok; reflexivity|constructor].
  - cbn [delivered app length]. change (write_fate (N.of_nat (200 - 64)) (N.of_nat 0) (N.of_nat 1)) with Takes. cbn iota.
    replace (N.of_nat (length (big (2 ^ 29 - 1)))) with (2 ^ 29 - 1) by (unfold big; rewrite repeat_length; now rewrite N2Nat.id).
    reflexivity.
Qed.

(** ** The state misaligned *)
(** With 128-bit SSE the program faults in the first permutation if the state is not at an address divisible by 16. *)
Lemma misaligned S bits state input : s_simd S = SSE128 -> s_state16 S = false -> In bits widths -> permute S bits state input = Panics.
Proof. intros E A H. unfold permute. rewrite E, A. now rewrite (proj2 (load128_aligned bits H)). Qed.
Lemma misaligned_absorb S r state data : s_simd S = SSE128 -> s_state16 S = false -> length data = queue_bytes -> r <= 1536 -> set_absorb S r state data = Panics.
Proof.
  intros E A L HR. unfold set_absorb.
  assert (FAST : forall b, In b widths -> (as_words b <= 24)%nat -> set_absorb_fast S b state data = Panics).
  { intros b W H. unfold set_absorb_fast. rewrite words_read_ok by assumption.
    replace (if s_big S then as_words b else as_words b) with (as_words b) by (destruct (s_big S); reflexivity).
    rewrite Nat.leb_refl, L. unfold queue_bytes. rewrite (proj2 (Nat.leb_le _ _)) by lia. now apply misaligned. }
  repeat (match goal with |- context [if ?c then set_absorb_fast S ?b state data else _] => destruct c; [apply FAST; [cbn; tauto|cbn; lia]|] end).
  unfold set_KeccakAbsorb. assert (H24 : r / 64 <= 24) by (apply N.div_le_upper_bound; lia). rewrite (proj2 (Nat.leb_le _ 25)) by lia.
  rewrite (proj2 (Nat.leb_le _ _)) by (unfold queue_bytes in L; lia). apply misaligned; try assumption. left. reflexivity.
Qed.
(** Only loads of the state need alignment, and each is at an even word; with the state elsewhere every load that needs it
    is at a bad address, and the permutation faults. *)
Theorem c111_alignment S bits state input : s_simd S = SSE128 -> In bits widths ->
  Forall (at16 true false) (loads_of (load128 bits ++ v128_store 0)) /\ loads_of (load128 bits ++ v128_store 0) <> [] /\
  (~ Forall (at16 (s_state16 S) false) (loads_of (load128 bits ++ v128_store 0)) <-> s_state16 S = false) /\
  (~ Forall (at16 (s_state16 S) false) (loads_of (load128 bits ++ v128_store 0)) -> permute S bits state input = Panics).
Proof.
  intros E H. destruct (load128_aligned bits H) as [A B]. split; [now apply paligned_iff|].
  split; [intros Z; unfold paligned in B; assert (X : paligned false false (load128 bits ++ v128_store 0) = true) by (apply paligned_iff; rewrite Z; constructor); unfold paligned in X; congruence|].
  rewrite <- paligned_iff. destruct (s_state16 S) eqn:F.
  - rewrite A. split; [split; [tauto|discriminate]|tauto].
  - rewrite B. split; [split; [reflexivity|discriminate]|]. intros _. now apply misaligned.
Qed.
Print Assumptions c111_alignment.
Example c111_alignment_nonvacuous : In 1024 widths /\ In (MState, 2%nat) (loads_of (load128 1024 ++ v128_store 0)) /\
  Forall (fun l => fst l = MState) (loads_of (load128 1024 ++ v128_store 0)).
Proof. split; [cbn; tauto|]. split; [vm_compute; tauto|]. vm_compute. repeat constructor. Qed.
Theorem c111_misaligned S fuel bits b : s_simd S = SSE128 -> s_state16 S = false -> In bits [224; 256; 384; 512]%Z ->
  seen_with S fuel bits [KSum b] = [Panicked].
Proof.
  intros E A HI. unfold seen_with. cbn [observe].
  assert (G : set_Sum (core_of S) fuel (set_newKeccak (core_of S) bits) b = Panics); [|now rewrite G].
  assert (P : set_Pad (core_of S) (hashState (set_newKeccak (core_of S) bits)) = Panics).
  { assert (Q : forall r c F, In r [1152; 1088; 832; 576] -> set_Pad (core_of S) (mkSponge (set_init S) (repeat 0 queue_bytes) r c 0 F false 0) = Panics).
    { intros r c F HR. unfold set_Pad. cbn [bitsInQueue rate dataQueue]. cbv zeta.
      assert (D : exists q, length q = queue_bytes /\ (q <~ memset0 (repeat 0 queue_bytes) (add32 0 7 / 8) (r / 8 - add32 0 7 / 8) ;; q <~ set_bit q 0 ;; set_bit q (r - 1)) = Ok q).
      { cbn in HR. destruct HR as [<-|[<-|[<-|[<-|[]]]]]; eexists; (split; [|vm_compute; reflexivity]; reflexivity). }
      destruct D as (q & LQ & D). assert (NE : (add32 0 1 =? r) = false) by (cbn in HR; destruct HR as [<-|[<-|[<-|[<-|[]]]]]; reflexivity). rewrite NE.
      destruct (memset0 _ _ _) as [q1| | |]; cbn [rbind] in D |- *; try discriminate. destruct (set_bit q1 0) as [q2| | |]; cbn [rbind] in D |- *; try discriminate.
      cbn [dataQueue withQueue rate]. rewrite D. cbn [rbind]. unfold set_AbsorbQueue. cbn [rate state dataQueue withQueue k_absorb core_of].
      rewrite misaligned_absorb; [reflexivity|assumption|assumption|assumption|]. cbn in HR. destruct HR as [<-|[<-|[<-|[<-|[]]]]]; discriminate. }
    cbn [In] in HI. destruct HI as [<-|[<-|[<-|[<-|[]]]]]; [apply (Q 1152)|apply (Q 1088)|apply (Q 832)|apply (Q 576)]; cbn; tauto. }
  unfold set_Sum, set_Final, set_Squeeze.
  assert (SQ : squeezing (hashState (set_newKeccak (core_of S) bits)) = false) by (cbn [In] in HI; destruct HI as [<-|[<-|[<-|[<-|[]]]]]; reflexivity).
  rewrite SQ, P. reflexivity.
Qed.
Print Assumptions c111_misaligned.
Example c111_misaligned_nonvacuous :
  let S := mkSettings SSE128 (24%nat, body24) [] false false dirt in s_simd S = SSE128 /\ s_state16 S = false /\ seen_with S 65 224 [KSum [1]] = [Panicked].
Proof. split; [reflexivity|]. split; [reflexivity|]. vm_compute. reflexivity. Qed.
