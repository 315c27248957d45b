(** Properties C81-C84: package keccak. *)
From Coq Require Import NArith ZArith List Arith Lia String.
From Verif Require Import Words WordLemmas ListLemmas Mem SLP KeccakSpec CkProg CkModel CkSpec CkRounds CkProofs CkProofs2 CkProofs3 CkProofs4.
From Verif Require KeccakModel KeccakHist KeccakProofs KeccakProofs3 KeccakProofs4 KeccakProofs5 KeccakProps HashfModel HashfSpec HashfProofs HashfProps.
Import ListNotations.
Open Scope N_scope.
Strategy 1000 [rounds24].

Lemma bytes_ok_repeat x n : x < 256 -> bytes_ok (repeat x n).
Proof. intros H. apply Forall_forall. intros y Hy. apply repeat_spec in Hy. subst. exact H. Qed.

(** ** C81 *)
(** Keccak as submitted to NIST: capacity twice the output. *)
Definition Keccak (bits : nat) : list N -> list N := sponge 24 (200 - bits / 4) (bits / 8).
(** Writes that are not gigantic. *)
Definition ordinary (o : kop) : Prop := match o with KWrite p => bytes_ok p /\ N.of_nat (length p) <= 2 ^ 29 - 200 | _ => True end.

Lemma fate_ordinary B have n : 0 < B <= 200 -> n <= 2 ^ 29 - 200 -> write_fate B have n = Takes.
Proof.
  intros HB Hn. unfold write_fate. pose proof (N.mod_upper_bound have B ltac:(lia)) as U. set (q := have mod B) in *.
  change (2 ^ 29) with 536870912 in Hn. change (2 ^ 32) with 4294967296. rewrite N.mod_small by lia.
  destruct (N.eqb_spec (8 * q) 0); [reflexivity|]. destruct (N.leb_spec 4294967296 (8 * n + 8 * q)); [lia|].
  destruct (N.ltb_spec (8 * n) 4294967296); [reflexivity|lia].
Qed.
Lemma delivered_ordinary B h ops : (0 < B <= 200)%nat -> Forall ordinary ops -> forall d, delivered B h d ops = promised h d ops.
Proof.
  intros HB. induction ops as [|o ops IH]; intros HO d; [reflexivity|]. inversion HO as [|? ? Ho HO']; subst.
  destruct o as [p|b|]; cbn [delivered promised]; try (f_equal; now apply IH).
  rewrite fate_ordinary by (lia || apply Ho). f_equal. now apply IH.
Qed.
Lemma ordinary_ok o : ordinary o -> kop_ok o.
Proof. destruct o; [|trivial|trivial]. unfold ordinary, kop_ok. intros [H L]. split; [exact H|]. change (2 ^ 29) with 536870912 in L. change (2 ^ 64) with 18446744073709551616. lia. Qed.

Theorem c81_published_hash fuel k ops : (64 < fuel)%nat -> Forall ordinary ops ->
  (k = New224 -> observe (Write fuel) (Sum fuel) Reset k ops = promised (Keccak 224) [] ops) /\
  (k = New256 -> observe (Write fuel) (Sum fuel) Reset k ops = promised (Keccak 256) [] ops) /\
  (k = New384 -> observe (Write fuel) (Sum fuel) Reset k ops = promised (Keccak 384) [] ops) /\
  (k = New512 -> observe (Write fuel) (Sum fuel) Reset k ops = promised (Keccak 512) [] ops).
Proof.
  intros Hf HO.
  assert (HK : Forall kop_ok ops) by (eapply Forall_impl; [|exact HO]; exact ordinary_ok).
  assert (G : forall bits n, offered bits -> bits = Z.of_nat n -> k = newKeccak bits -> observe (Write fuel) (Sum fuel) Reset k ops = promised (Keccak n) [] ops).
  { intros bits n O E ->. rewrite (observe_ok bits fuel O Hf ops _ [] HK) by (unfold newKeccak; now apply Reset_ok).
    pose proof (rate_bytes_ok bits O) as (R0 & [_ R1] & _). rewrite delivered_ordinary by (assumption || lia).
    replace (khash bits) with (Keccak n); [reflexivity|]. unfold Keccak, khash, rate_bytes, digest_bytes. subst bits.
    destruct O as [O|[O|[O|O]]]; [replace n with 224%nat by lia|replace n with 256%nat by lia|replace n with 384%nat by lia|replace n with 512%nat by lia]; reflexivity. }
  split; [|split; [|split]]; intros E; (eapply G; [|reflexivity|exact E]); unfold offered; auto.
Qed.
Print Assumptions c81_published_hash.
Definition abc : list kop := [KWrite [97]; KSum [1; 2]; KWrite [98; 99]; KSum []; KWrite (repeat 7 400); KReset; KSum []].
Example c81_published_hash_nonvacuous : Forall ordinary abc /\
  firstn 4 (observe (Write 65) (Sum 65) Reset New256 abc) =
    [Wrote 1; Summed ([1; 2] ++ Keccak 256 [97]); Wrote 2;
     Summed [0x4e; 0x03; 0x65; 0x7a; 0xea; 0x45; 0xa9; 0x4f; 0xc7; 0xd4; 0x7b; 0xa8; 0x26; 0xc8; 0xd6; 0x67;
             0xc0; 0xd1; 0xe6; 0xe3; 0x3a; 0x64; 0xa0; 0x36; 0xec; 0x44; 0xf5; 0x8f; 0xa1; 0x2d; 0x6c; 0x45]].
Proof.
  split.
  - assert (O : forall p, bytes_ok p -> N.of_nat (length p) <= 536870712 -> ordinary (KWrite p)) by (intros p H L; split; [exact H|exact L]).
    unfold abc. repeat constructor; vm_compute; first [discriminate | repeat constructor].
  - vm_compute. reflexivity.
Qed.
(** Size and BlockSize, at any time. *)
Theorem c81_sizes fuel k bits : In (k, bits) [(New224, 224%Z); (New256, 256%Z); (New384, 384%Z); (New512, 512%Z)] ->
  (Size k * 8 = bits /\ BlockSize k = 200 - 2 * (bits / 8))%Z /\ bitlen (Reset k) = bits /\
  forall p k' n e, Write fuel k p = Ok (k', n, e) -> bitlen k' = bits.
Proof.
  intros HI. assert (E : bitlen k = bits) by (destruct HI as [H|[H|[H|[H|[]]]]]; injection H as <- <-; reflexivity).
  assert (O : offered bits) by (unfold offered; destruct HI as [H|[H|[H|[H|[]]]]]; injection H as <- <-; auto).
  split; [unfold BlockSize, Size; rewrite E; destruct O as [->|[->|[->| ->]]]; split; reflexivity|].
  split; [exact E|]. intros p k' n e. unfold Write. destruct (Nat.eqb (length p) 0); [now intros [= <- <- <-]|].
  destruct (Update fuel (hashState k) p (mul64 (N.of_nat (length p)) 8)) as [[s ret]| | |]; try discriminate. cbn [rbind].
  destruct (ret =? SUCCESS); intros [= <- <- <-]; exact E.
Qed.
Print Assumptions c81_sizes.
Example c81_sizes_nonvacuous : Size New384 = 48%Z /\ BlockSize New384 = 104%Z.
Proof. split; reflexivity. Qed.

(** ** C82 *)
(** What every program sees, however large its writes are. *)
Theorem c82_any_size fuel bits ops : (64 < fuel)%nat -> In bits [224; 256; 384; 512]%Z -> Forall kop_ok ops ->
  observe (Write fuel) (Sum fuel) Reset (newKeccak bits) ops =
  delivered (200 - Z.to_nat bits / 4) (Keccak (Z.to_nat bits)) [] ops.
Proof.
  intros Hf HI HO. assert (O : offered bits) by (unfold offered; cbn in HI; intuition).
  rewrite (observe_ok bits fuel O Hf ops _ [] HO) by (unfold newKeccak; now apply Reset_ok).
  destruct O as [->|[->|[->| ->]]]; reflexivity.
Qed.
Print Assumptions c82_any_size.
(** A Write to an object whose queue is empty, in particular a new one, is always fine. *)
Theorem c82_aligned B have n : B <> 0 -> have mod B = 0 -> write_fate B have n = Takes.
Proof. intros _ H. unfold write_fate. rewrite H. reflexivity. Qed.
Print Assumptions c82_aligned.
Example c82_aligned_nonvacuous : write_fate 136 272 (2 ^ 40 + 5) = Takes /\ write_fate 136 236 (2 ^ 40 + 5) = Hangs.
Proof. split; vm_compute; reflexivity. Qed.

Definition big (n : N) : list N := repeat 65 (N.to_nat n).
Lemma big_ok n : 8 * n < 2 ^ 64 -> kop_ok (KWrite (big n)).
Proof. intros H. split; [now apply (bytes_ok_repeat 65)|]. unfold big. rewrite repeat_length, N2Nat.id. exact H. Qed.
Lemma seen_big bits fuel n f : (64 < fuel)%nat -> In bits [224; 256; 384; 512]%Z -> 8 * n < 2 ^ 64 ->
  write_fate (N.of_nat (200 - Z.to_nat bits / 4)) 1 n = f -> f <> Takes ->
  observe (Write fuel) (Sum fuel) Reset (newKeccak bits) [KWrite [120]; KWrite (big n); KSum []] =
  [Wrote 1; match f with Hangs => NeverReturns | _ => CorruptsMemory end].
Proof.
  intros Hf HI Hn E NT. rewrite c82_any_size; [|assumption|assumption|].
  2:{ constructor; [split; [repeat constructor|reflexivity]|]. constructor; [now apply big_ok|]. repeat constructor. }
  cbn [delivered length app]. unfold write_fate at 1. change (N.of_nat 0 mod _) with 0.
  replace (N.of_nat 0 mod N.of_nat (200 - Z.to_nat bits / 4)) with 0 by (cbn in HI; intuition; subst; reflexivity).
  change (8 * 0 =? 0) with true. cbn iota.
  unfold big at 1. rewrite repeat_length, N2Nat.id. change (N.of_nat 1) with 1. rewrite E. destruct f; [contradiction|reflexivity|reflexivity].
Qed.
(** Not every sequence of writes that fits in memory is hashed: after one byte, a write of 512 MiB
    does not return, and a write of one byte less overruns the 192 bytes of the queue. *)
Theorem c82_every_write_is_hashed_refuted : exists ops ops',
  Forall kop_ok ops /\ Forall kop_ok ops' /\
  (forall fuel, (64 < fuel)%nat -> observe (Write fuel) (Sum fuel) Reset New256 ops = [Wrote 1; NeverReturns]) /\
  (forall fuel, (64 < fuel)%nat -> observe (Write fuel) (Sum fuel) Reset New256 ops' = [Wrote 1; CorruptsMemory]) /\
  length (promised (Keccak 256) [] ops) = 3%nat.
Proof.
  exists [KWrite [120]; KWrite (big (2 ^ 29)); KSum []], [KWrite [120]; KWrite (big (2 ^ 29 - 1)); KSum []].
  split; [|split; [|split; [|split]]].
  - constructor; [split; [repeat constructor|reflexivity]|]. constructor; [now apply big_ok|]. repeat constructor.
  - constructor; [split; [repeat constructor|reflexivity]|]. constructor; [now apply big_ok|]. repeat constructor.
  - intros fuel Hf. apply (seen_big 256 fuel (2 ^ 29) Hangs); [exact Hf|cbn; auto|reflexivity|vm_compute; reflexivity|discriminate].
  - intros fuel Hf. apply (seen_big 256 fuel (2 ^ 29 - 1) Spills); [exact Hf|cbn; auto|reflexivity|vm_compute; reflexivity|discriminate].
  - reflexivity.
Qed.
Print Assumptions c82_every_write_is_hashed_refuted.
(** For each remaining length of a large write and any bytes pending the three outcomes occur
    exactly as follows. *)
Theorem c82_when B have n : 0 < B <= 200 -> have mod B <> 0 ->
  (write_fate B have n = Spills <-> 2 ^ 29 <= n mod 2 ^ 29 + have mod B) /\
  (write_fate B have n = Hangs <-> 2 ^ 29 <= n /\ n mod 2 ^ 29 + have mod B < B).
Proof.
  intros HB Hq. unfold write_fate. set (q := have mod B) in *.
  assert (E : (8 * n) mod 2 ^ 32 = 8 * (n mod 2 ^ 29)).
  { change (2 ^ 32) with (8 * 2 ^ 29). now rewrite N.mul_mod_distr_l. }
  rewrite E. change (2 ^ 32) with 4294967296. change (2 ^ 29) with 536870912.
  pose proof (N.mod_upper_bound n 536870912 ltac:(discriminate)) as U. set (r := n mod 536870912) in *.
  destruct (N.eqb_spec (8 * q) 0); [lia|]. destruct (N.leb_spec 4294967296 (8 * r + 8 * q)), (N.ltb_spec (8 * n) 4294967296), (N.leb_spec (8 * B) (8 * r + 8 * q));
    (split; split; [intros K; try discriminate; lia|intros K; try reflexivity; lia|intros K; try discriminate; lia|intros K; try reflexivity; lia]).
Qed.
Print Assumptions c82_when.
Example c82_when_nonvacuous : write_fate 144 (144 * 5 + 3) (2 ^ 29 - 3) = Spills /\ write_fate 144 (144 * 5 + 3) (2 ^ 29 - 4) = Takes /\
  write_fate 144 3 (3 * 2 ^ 29 + 140) = Hangs /\ write_fate 144 3 (3 * 2 ^ 29 + 141) = Takes.
Proof. vm_compute. auto. Qed.
Example c82_any_size_nonvacuous : Forall kop_ok [KWrite [1; 2; 3]; KWrite (big 100); KSum [9]] /\
  length (observe (Write 65) (Sum 65) Reset (newKeccak 512) [KWrite [1; 2; 3]; KWrite (big 100); KSum [9]]) = 3%nat.
Proof. split; [repeat constructor; vm_compute; repeat constructor|vm_compute; reflexivity]. Qed.

(** ** C83 *)
(** The two packages agree: whatever pieces the bytes are written in to keccakpg's object, and
    written at once here, the digests are the same. *)

(** ** C83 *)
(** The two packages agree: whatever pieces the bytes of a buffer are written in to keccakpg's
    object, and written at once here, the digests are the same. *)
Theorem c83_same_as_keccakpg grow h s ns fuel bits kp : (64 < fuel)%nat ->
  Forall bytes_ok h -> KeccakHist.slice_ok h s -> fold_right Nat.add 0%nat ns = KeccakModel.len s -> 8 * N.of_nat (length (KeccakModel.read h s)) < 2 ^ 64 ->
  In (bits, kp) [(224%Z, KeccakModel.New224); (256%Z, KeccakModel.New256); (384%Z, KeccakModel.New384); (512%Z, KeccakModel.New512)] ->
  exists h' k' d, KeccakProofs5.write_all grow h kp (KeccakProofs5.chunks s ns) = Ok (h', k') /\
    (forall t, KeccakModel.Sum grow h' k' t = Ok (KeccakModel.append grow h' t d)) /\
    observe (Write fuel) (Sum fuel) Reset (newKeccak bits) [KWrite (KeccakModel.read h s); KSum []] = [Wrote (length (KeccakModel.read h s)); Summed d].
Proof.
  intros Hf Hh W Es H64 HI. set (m := KeccakModel.read h s) in *.
  assert (Hm : bytes_ok m) by now apply KeccakProofs3.read_ok.
  exists (fst (match KeccakProofs5.write_all grow h kp (KeccakProofs5.chunks s ns) with Ok x => x | _ => (h, kp) end)),
         (snd (match KeccakProofs5.write_all grow h kp (KeccakProofs5.chunks s ns) with Ok x => x | _ => (h, kp) end)), (Keccak (Z.to_nat bits) m).
  assert (O : In bits [224; 256; 384; 512]%Z) by (destruct HI as [H|[H|[H|[H|[]]]]]; injection H as <- <-; cbn; auto).
  assert (A : exists h' k', KeccakProofs5.write_all grow h kp (KeccakProofs5.chunks s ns) = Ok (h', k') /\
    forall t, KeccakModel.Sum grow h' k' t = Ok (KeccakModel.append grow h' t (Keccak (Z.to_nat bits) m))).
  { destruct HI as [H|[H|[H|[H|[]]]]]; injection H as <- <-.
    - destruct (KeccakProps.c37_one_buffer_in_chunks grow 224 24 7 KeccakModel.New224 h s ns) as (h' & k' & E & _ & _ & G); try assumption; [split; [reflexivity|lia]|repeat split|]. now exists h', k'.
    - destruct (KeccakProps.c37_one_buffer_in_chunks grow 256 24 8 KeccakModel.New256 h s ns) as (h' & k' & E & _ & _ & G); try assumption; [split; [reflexivity|lia]|repeat split|]. now exists h', k'.
    - destruct (KeccakProps.c37_one_buffer_in_chunks grow 384 24 12 KeccakModel.New384 h s ns) as (h' & k' & E & _ & _ & G); try assumption; [split; [reflexivity|lia]|repeat split|]. now exists h', k'.
    - destruct (KeccakProps.c37_one_buffer_in_chunks grow 512 24 16 KeccakModel.New512 h s ns) as (h' & k' & E & _ & _ & G); try assumption; [split; [reflexivity|lia]|repeat split|]. now exists h', k'. }
  destruct A as (h' & k' & E & G). rewrite E. cbn [fst snd]. split; [reflexivity|]. split; [exact G|].
  rewrite c82_any_size; [|assumption|assumption|constructor; [now split|repeat constructor]].
  cbn [delivered app length]. rewrite c82_aligned; [reflexivity| |]; cbn in O; intuition; subst; try discriminate; reflexivity.
Qed.
Print Assumptions c83_same_as_keccakpg.
Example c83_same_as_keccakpg_nonvacuous :
  observe (Write 65) (Sum 65) Reset (newKeccak 224) [KWrite [97; 98; 99]; KSum []] =
    [Wrote 3; Summed (KeccakModel.read (fst (match (let '(h, k, _) := match KeccakModel.Write (fun _ n => n) 9 [[97; 98; 99; 0]] KeccakModel.New224 (KeccakModel.mkSlice 0 0 3 4) with Ok x => x | _ => ([], KeccakModel.New224, 0%nat) end in KeccakModel.Sum (fun _ n => n) h k KeccakModel.nil_slice) with Ok x => x | _ => ([], KeccakModel.nil_slice) end))
      (snd (match (let '(h, k, _) := match KeccakModel.Write (fun _ n => n) 9 [[97; 98; 99; 0]] KeccakModel.New224 (KeccakModel.mkSlice 0 0 3 4) with Ok x => x | _ => ([], KeccakModel.New224, 0%nat) end in KeccakModel.Sum (fun _ n => n) h k KeccakModel.nil_slice) with Ok x => x | _ => ([], KeccakModel.nil_slice) end)))].
Proof. vm_compute. reflexivity. Qed.

(** Hashf("keccak224"), when the digest is what this package gives for Reset, Write, Sum on an
    object of New224 in any state: the first eight bytes of Keccak-224 of the key. *)
Definition from_keccak (fuel : nat) (obj : keccak) (e : HashfModel.ext) : Prop := forall m, bytes_ok m -> 8 * N.of_nat (length m) < 2 ^ 64 ->
  HashfModel.keccak224 e m = digest_seen (observe (Write fuel) (Sum fuel) Reset obj [KReset; KWrite m; KSum []]).
Lemma reset_write_sum fuel obj m : (64 < fuel)%nat -> bitlen obj = 224%Z -> bytes_ok m -> 8 * N.of_nat (length m) < 2 ^ 64 ->
  digest_seen (observe (Write fuel) (Sum fuel) Reset obj [KReset; KWrite m; KSum []]) = Keccak 224 m.
Proof.
  intros Hf Hb Hm Hl. change (observe (Write fuel) (Sum fuel) Reset obj [KReset; KWrite m; KSum []])
    with (WasReset :: observe (Write fuel) (Sum fuel) Reset (Reset obj) [KWrite m; KSum []]).
  rewrite (observe_ok 224 fuel (or_introl eq_refl) Hf [KWrite m; KSum []] (Reset obj) []); [|repeat constructor; assumption|apply Reset_ok; [left; reflexivity|assumption]].
  cbn [delivered app length]. rewrite c82_aligned; [reflexivity|discriminate|reflexivity].
Qed.
Theorem c83_hashf e grow w k seed fuel obj : (64 < fuel)%nat -> bitlen obj = 224%Z -> HashfProofs.ext_ok e -> from_keccak fuel obj e ->
  HashfProofs.world_ok w -> HashfSpec.slice_in (HashfModel.mem w) k -> 8 * N.of_nat (KeccakModel.len k) < 2 ^ 64 -> seed < 2 ^ 64 ->
  exists w', HashfModel.Hashf e grow w "keccak224" k seed = Ok (w', HashfSpec.top8 (Keccak 224 (KeccakModel.read (HashfModel.mem w) k))).
Proof.
  intros Hf Hb He Fe Hw Hk Hl Hs.
  pose proof (HashfProofs.Hashf_right e grow w "keccak224" k seed He Hw Hk ltac:(lia) Hs eq_refl) as R. unfold HashfProofs.right in R.
  assert (Lr : length (KeccakModel.read (HashfModel.mem w) k) = KeccakModel.len k) by now apply KeccakProofs3.read_length.
  assert (E : HashfSpec.reference e "keccak224" (KeccakModel.read (HashfModel.mem w) k) seed
    = Some (HashfSpec.top8 (HashfModel.keccak224 e (KeccakModel.read (HashfModel.mem w) k)))) by reflexivity.
  rewrite E in R. destruct R as (w' & R & _). exists w'. rewrite R. do 3 f_equal.
  assert (Hr : bytes_ok (KeccakModel.read (HashfModel.mem w) k)) by (apply KeccakProofs3.read_ok; apply Hw).
  rewrite Fe by (assumption || now rewrite Lr). apply reset_write_sum; try assumption. now rewrite Lr.
Qed.
Print Assumptions c83_hashf.
Definition with_keccak : HashfModel.ext :=
  HashfModel.mkExt (HashfModel.aes_Hash HashfProps.toy) (HashfModel.aes_Hash64 HashfProps.toy) (HashfModel.adler32 HashfProps.toy) (HashfModel.sha1 HashfProps.toy)
    (HashfModel.whirlpool HashfProps.toy) (HashfModel.blake2b HashfProps.toy) (Keccak 224).
Example c83_hashf_nonvacuous : HashfProofs.ext_ok with_keccak /\ from_keccak 65 New224 with_keccak /\
  match HashfModel.Hashf with_keccak (fun _ n => n) (HashfModel.init [[97; 98; 99]]) "keccak224" (KeccakModel.mkSlice 0 0 3 3) 5 with
  | Ok (_, h) => h = 0xc30411768506ebe1 | _ => False end.
Proof.
  split; [|split].
  - destruct HashfProps.toy_ok as [T1 T2 T3 T4]. constructor; try assumption. intros m Hm. cbn [with_keccak HashfModel.keccak224]. unfold Keccak.
    change (200 - 224 / 4)%nat with 144%nat. change (224 / 8)%nat with 28%nat.
    rewrite KeccakProofs4.sponge_final by (reflexivity || lia). split.
    + rewrite firstn_length, state_len; [reflexivity|]. apply KeccakProofs4.final_ok; [lia|lia|exact Hm].
    + apply bytes_ok_firstn. apply KeccakProofs5.state_bytes_ok.
  - intros m Hm Hl. rewrite reset_write_sum; [reflexivity|lia|reflexivity|assumption|assumption].
  - vm_compute. reflexivity.
Qed.

(** ** C84 *)
(** The unrolled rounds work on a state in which six lanes are complemented, and give the
    permutation Keccak-f[1600], whatever the local variables contain at the start. *)
Lemma complemented_eq A : KeccakProofs.state_ok A -> complemented A = flipl lanesA A.
Proof.
  intros [L F]. unfold complemented, flipl, lanesA. apply map_ext_in. intros i Hi. apply in_seq in Hi.
  destruct (existsb (Nat.eqb i) [1; 2; 8; 12; 17; 20]%nat); [|reflexivity].
  assert (Hx : fits 64 (nth i A 0)) by now apply nth_fits. unfold KeccakModel.ones64, xor.
  change (2 ^ 64 - 1) with (N.ones 64). rewrite N.sub_nocarry_ldiff.
  - apply N.bits_inj. intros j. rewrite N.ldiff_spec, N.lxor_spec.
    destruct (N.ltb_spec j 64) as [Hj|Hj].
    + change 0xffffffffffffffff with (N.ones 64). rewrite N.ones_spec_low by exact Hj. now destruct (N.testbit (nth i A 0) j).
    + change 0xffffffffffffffff with (N.ones 64). rewrite N.ones_spec_high by exact Hj. rewrite (proj1 (fits_testbit 64 _) Hx j Hj). reflexivity.
  - apply N.bits_inj. intros j. rewrite N.ldiff_spec, N.bits_0. destruct (N.ltb_spec j 64) as [Hj|Hj].
    + rewrite N.ones_spec_low by exact Hj. now destruct (N.testbit (nth i A 0) j).
    + now rewrite (proj1 (fits_testbit 64 _) Hx j Hj).
Qed.
Theorem c84_permutation A junk : length A = 25%nat -> Forall (fun x => x < 2 ^ 64) A -> length junk = 60%nat -> Forall (fun x => x < 2 ^ 64) junk ->
  firstn 25 (fold_left (fun r p => exec 64 p r) rounds24 (complemented A ++ junk)) = complemented (keccak_f 24 A).
Proof.
  intros LA FA LJ FJ. assert (HA : KeccakProofs.state_ok A) by (split; assumption).
  assert (HF : KeccakProofs.state_ok (keccak_f 24 A)) by (apply (KeccakProofs3.keccak_f_ok 24 A); [lia|exact HA]).
  rewrite (complemented_eq A HA), (complemented_eq _ HF).
  pose proof (run24_ok A junk HA (conj LJ FJ)) as H. unfold run24 in H. rewrite H. reflexivity.
Qed.
Print Assumptions c84_permutation.
Example c84_permutation_nonvacuous :
  firstn 2 (fold_left (fun r p => exec 64 p r) rounds24 (complemented (repeat 0 25) ++ repeat 12345 60)) = [0xF1258F7940E1DDE7; 2 ^ 64 - 1 - 0x84D5CCF933C0478A].
Proof. vm_compute. reflexivity. Qed.
