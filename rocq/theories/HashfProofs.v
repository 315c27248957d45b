(** Proofs about package hashf. *)
From Coq Require Import NArith ZArith List Arith Lia String.
From Verif Require Import Words WordLemmas ListLemmas Mem Blocks KeccakModel KeccakSpec KeccakProofs3 KeccakProofs4 KeccakProofs5 KeccakHist KeccakProps
  Mm3Model Mm3Spec Mm3Proofs HashfModel HashfSpec.
From Verif Require GomapModel GomapSpec GomapProofs GomapProps SmallModel SmallSpec SmallProofs SmallProps JenkinsModel JenkinsSpec JenkinsProps
  SpookyModel SpookySpec SpookyProps FarmModel FarmSpec FarmProps MetroModel MetroSpec MetroProofs MetroProps SipModel SipSpec SipProps.
Import ListNotations.
Open Scope N_scope.

(** ** Bytes put together *)
Lemma lor_step a b y k : a = b * 2 ^ k -> y < 2 ^ k -> N.lor a y = a + y.
Proof. intros -> H. rewrite N.lor_comm, SmallProofs.lor_add by assumption. lia. Qed.
Lemma shl64_byte x k : x < 256 -> k <= 56 -> shl64 x k = x * 2 ^ k.
Proof.
  intros H K. unfold shl64, shlw. rewrite N.shiftl_mul_pow2. apply wrap_small. unfold fits.
  apply N.lt_le_trans with (2 ^ 8 * 2 ^ k); [apply N.mul_lt_mono_pos_r; [apply N.neq_0_lt_0, N.pow_nonzero; lia|exact H]|].
  rewrite <- N.pow_add_r. apply N.pow_le_mono_r; lia.
Qed.
Ltac bytes8 := rewrite !shl64_byte by (assumption || lia);
  change (2 ^ 56) with 72057594037927936; change (2 ^ 48) with 281474976710656; change (2 ^ 40) with 1099511627776;
  change (2 ^ 32) with 4294967296; change (2 ^ 24) with 16777216; change (2 ^ 16) with 65536; change (2 ^ 8) with 256; change (2 ^ 0) with 1.
Lemma be8_ok x : bytes_ok x -> (8 <= length x)%nat -> be8 x = Ok (top8 x).
Proof.
  intros H L. destruct x as [|x0 [|x1 [|x2 [|x3 [|x4 [|x5 [|x6 [|x7 x]]]]]]]]; cbn [length] in L; try lia.
  unfold bytes_ok in H. repeat rewrite Forall_cons_iff in H. destruct H as (H0 & H1 & H2 & H3 & H4 & H5 & H6 & H7 & _). unfold byte_ok in *. change (2 ^ 8) with 256 in *.
  unfold be8, top8. cbn [idx nth_error rbind firstn rev app le_int]. f_equal. bytes8.
  rewrite (lor_step (x0 * 72057594037927936) (x0) (x1 * 281474976710656) 56) by (change (2 ^ 56) with 72057594037927936; lia).
  rewrite (lor_step ((x0 * 72057594037927936) + (x1 * 281474976710656)) ((x0) * 256 + x1) (x2 * 1099511627776) 48) by (change (2 ^ 48) with 281474976710656; lia).
  rewrite (lor_step (((x0 * 72057594037927936) + (x1 * 281474976710656)) + (x2 * 1099511627776)) (((x0) * 256 + x1) * 256 + x2) (x3 * 4294967296) 40) by (change (2 ^ 40) with 1099511627776; lia).
  rewrite (lor_step ((((x0 * 72057594037927936) + (x1 * 281474976710656)) + (x2 * 1099511627776)) + (x3 * 4294967296)) ((((x0) * 256 + x1) * 256 + x2) * 256 + x3) (x4 * 16777216) 32) by (change (2 ^ 32) with 4294967296; lia).
  rewrite (lor_step (((((x0 * 72057594037927936) + (x1 * 281474976710656)) + (x2 * 1099511627776)) + (x3 * 4294967296)) + (x4 * 16777216)) (((((x0) * 256 + x1) * 256 + x2) * 256 + x3) * 256 + x4) (x5 * 65536) 24) by (change (2 ^ 24) with 16777216; lia).
  rewrite (lor_step ((((((x0 * 72057594037927936) + (x1 * 281474976710656)) + (x2 * 1099511627776)) + (x3 * 4294967296)) + (x4 * 16777216)) + (x5 * 65536)) ((((((x0) * 256 + x1) * 256 + x2) * 256 + x3) * 256 + x4) * 256 + x5) (x6 * 256) 16) by (change (2 ^ 16) with 65536; lia).
  rewrite (lor_step (((((((x0 * 72057594037927936) + (x1 * 281474976710656)) + (x2 * 1099511627776)) + (x3 * 4294967296)) + (x4 * 16777216)) + (x5 * 65536)) + (x6 * 256)) (((((((x0) * 256 + x1) * 256 + x2) * 256 + x3) * 256 + x4) * 256 + x5) * 256 + x6) (x7 * 1) 8) by (change (2 ^ 8) with 256; lia).
  lia.
Qed.
Lemma be8_short x : (length x < 8)%nat -> be8 x = Panics.
Proof. intros L. destruct x as [|x0 [|x1 [|x2 [|x3 [|x4 [|x5 [|x6 [|x7 x]]]]]]]]; cbn [length] in L; try lia; reflexivity. Qed.
Lemma lor4_ok a b c d : a < 256 -> b < 256 -> c < 256 -> d < 256 ->
  N.lor (N.lor (N.lor (shl64 a 24) (shl64 b 16)) (shl64 c 8)) (shl64 d 0) = ((a * 256 + b) * 256 + c) * 256 + d.
Proof.
  intros. bytes8.
  rewrite (lor_step (a * 16777216) (a) (b * 65536) 24) by (change (2 ^ 24) with 16777216; lia).
  rewrite (lor_step ((a * 16777216) + (b * 65536)) ((a) * 256 + b) (c * 256) 16) by (change (2 ^ 16) with 65536; lia).
  rewrite (lor_step (((a * 16777216) + (b * 65536)) + (c * 256)) (((a) * 256 + b) * 256 + c) (d * 1) 8) by (change (2 ^ 8) with 256; lia).
  lia.
Qed.

(** ** The package's own memory *)
Definition fps (w : world) : list slice := [fp8 w; fp20 w; fp28 w; fp32 w; fp64 w].
Definition fp_ok (m : heap) (c : nat) (s : slice) : Prop := wf m s /\ cap s = c /\ (arr s < length m)%nat.
Record world_ok (w : world) : Prop := {
  o_mem : heap_ok (mem w);
  o_8 : fp_ok (mem w) 8 (fp8 w); o_20 : fp_ok (mem w) 20 (fp20 w); o_28 : fp_ok (mem w) 28 (fp28 w);
  o_32 : fp_ok (mem w) 32 (fp32 w); o_64 : fp_ok (mem w) 64 (fp64 w);
  o_643 : digest_of 64 3 (k643 w); o_644 : digest_of 64 4 (k644 w); o_648 : digest_of 64 8 (k648 w); o_160 : digest_of 160 24 (k160 w);
  o_m332 : exists x, MmInv 4 mm32_block 0 (m332 w) x;
  o_m364 : exists x, MmInv 16 mm128_block (0, 0) (m364 w) x }.
(** Only the package's own arrays change, and they stay where they are. *)
Definition keeps_mem (w : world) (m' : heap) : Prop :=
  length m' = length (mem w) /\ (forall a, ~ In a (map arr (fps w)) -> array m' a = array (mem w) a) /\
  (forall a, length (array m' a) = length (array (mem w) a)).
Record keeps (w w' : world) : Prop := {
  kp_mem : keeps_mem w (mem w');
  kp_fps : map arr (fps w') = map arr (fps w);
  kp_nh : nh w' = nh w;
  kp_nhf64 : nhf64 w' = nhf64 w }.
Lemma keeps_mem_refl w : keeps_mem w (mem w).
Proof. repeat split. Qed.
Lemma keeps_refl w w' : mem w' = mem w -> fps w' = fps w -> nh w' = nh w -> nhf64 w' = nhf64 w -> keeps w w'.
Proof. intros E F G H. constructor; rewrite ?E, ?F; auto. apply keeps_mem_refl. Qed.
Lemma fp_ok_keeps w m' c s : keeps_mem w m' -> fp_ok (mem w) c s -> fp_ok m' c s.
Proof.
  intros (L & _ & A) (W & C & R). split; [|split; [exact C|lia]].
  destruct W as (W1 & W2 & W3). repeat split; [exact W1|now rewrite A|lia].
Qed.

(** Writing a digest to the front of a buffer. *)
Lemma append_fp grow w c s dg : world_ok w -> In s (fps w) -> fp_ok (mem w) c s -> bytes_ok dg -> (length dg <= c)%nat ->
  let m' := store (mem w) (arr s) (off s) dg in let s' := mkSlice (arr s) (off s) (length dg) (cap s) in
  append grow (mem w) (upto s 0) dg = (m', s') /\ read m' s' = dg /\ keeps_mem w m' /\ heap_ok m' /\ fp_ok m' c s'.
Proof.
  intros O I F Hd Ld m' s'. destruct F as ((W1 & W2 & W3) & C & R).
  assert (E : append grow (mem w) (upto s 0) dg = (m', s')).
  { unfold append. cbn [len cap upto arr off]. rewrite (proj2 (Nat.leb_le _ _)) by lia. unfold m', s'. now rewrite Nat.add_0_r. }
  assert (K : keeps_mem w m').
  { split; [apply store_length|]. split.
    - intros a Ha. apply array_store_other. intros ->. apply Ha. now apply in_map.
    - intros a. apply store_array_length; lia. }
  assert (Fs : fp_ok m' c s').
  { destruct K as (K1 & K2 & K3). split; [|split; [exact C|cbn [arr s']; lia]].
    repeat split; cbn [len cap off arr s']; rewrite ?K3; lia. }
  repeat split; try assumption; try apply K; try apply Fs.
  - unfold read, s'. cbn [len off arr]. unfold m'. rewrite array_store_same by assumption.
    rewrite skipn_app, skipn_all2 by (rewrite firstn_length; lia). cbn [app].
    rewrite firstn_length, Nat.min_l by lia. rewrite Nat.sub_diag. cbn [skipn]. rewrite firstn_app, firstn_all2 by lia.
    rewrite Nat.sub_diag. cbn [firstn]. apply app_nil_r.
  - apply store_ok; [apply O|assumption].
Qed.
Lemma ext_digest_ok grow w c s dg : world_ok w -> In s (fps w) -> fp_ok (mem w) c s -> bytes_ok dg -> (8 <= length dg <= c)%nat ->
  exists m' s', ext_digest grow (mem w) s dg = Ok (m', s', top8 dg) /\ keeps_mem w m' /\ heap_ok m' /\ fp_ok m' c s' /\ arr s' = arr s.
Proof.
  intros O I F Hd Ld. destruct (append_fp grow w c s dg O I F Hd ltac:(lia)) as (E & R & K & H & F').
  do 2 eexists. unfold ext_digest. rewrite E, R. rewrite be8_ok by (assumption || lia). cbn [rbind].
  split; [reflexivity|]. auto.
Qed.
Lemma hash_bytes r q data : (q <= 16)%nat -> (Z.to_nat r <= 24)%nat -> bytes_ok data ->
  length (hash r q data) = (4 * q)%nat /\ bytes_ok (hash r q data).
Proof.
  intros Hq Hr Hd. rewrite hash_final by assumption. split.
  - rewrite firstn_length, state_bytes_length. rewrite (proj1 (final_ok (rate q) (Z.to_nat r) data ltac:(unfold rate; lia) Hr Hd)). lia.
  - apply bytes_ok_firstn, state_bytes_ok.
Qed.
Lemma pg_digest_ok grow w c s bits r q d k : world_ok w -> In s (fps w) -> fp_ok (mem w) c s -> usual bits r q -> digest_of bits r d ->
  (8 <= 4 * q <= c)%nat -> wf (mem w) k ->
  exists m' s' d', pg_digest grow (mem w) s d k = Ok (m', s', d', top8 (hash r q (read (mem w) k))) /\
    keeps_mem w m' /\ heap_ok m' /\ fp_ok m' c s' /\ arr s' = arr s /\ digest_of bits r d'.
Proof.
  intros O I F U D Q W. destruct (usual_valid bits r q d U D) as [V Sz]. destruct U as (U1 & U2 & U3).
  pose proof (Reset_holds (mem w) d _ _ V (proj1 D)) as H0.
  destruct (append grow (mem w) (buf (Reset d)) (firstn (room (rate q) (Reset d) k) (read (mem w) k))) as [h1 nb] eqn:Ea.
  destruct (Write_core grow (S (len k)) (mem w) (Reset d) k (rate q) (Z.to_nat r) [] h1 nb H0 (o_mem w O) W ltac:(lia) Ea) as
    (h' & d' & E & H' & Hh' & Sz' & Rn & Same & _).
  { cbn [buf Reset len nil_slice]. lia. }
  rewrite (Same eq_refl) in *. clear h' Same. cbn [app] in H'.
  assert (Szd : size (Reset d) = Z.of_nat (4 * q)) by exact Sz.
  assert (Kb : bytes_ok (read (mem w) k)) by apply (h_bytes _ _ _ _ _ H').
  assert (V24 : (Z.to_nat r <= 24)%nat) by apply V.
  destruct (hash_bytes r q (read (mem w) k) U2 V24 Kb) as [Hl Hb].
  destruct (append_fp grow w c s (hash r q (read (mem w) k)) O I F Hb ltac:(lia)) as (E' & R & K & H & F').
  do 3 eexists. unfold pg_digest. rewrite E. cbn [rbind].
  rewrite (Sum_ok grow (mem w) d' (rate q) (Z.to_nat r) (read (mem w) k) (upto s 0) (4 * q) H' (o_mem w O)) by (lia || congruence).
  rewrite <- hash_final by assumption. rewrite E'. cbn [rbind]. rewrite R, be8_ok by (assumption || lia). cbn [rbind].
  split; [reflexivity|]. split; [exact K|]. split; [exact H|]. split; [exact F'|]. split; [reflexivity|].
  pose proof (h_valid _ _ _ _ _ H') as V'. destruct D as (D1 & D2 & D3 & D4).
  split; [apply (holds_state_ok _ _ _ _ _ H')|]. split; [rewrite Sz'; exact D2|]. split; [|rewrite Rn; exact D4].
  rewrite (v_bs _ _ _ V'), <- (v_bs _ _ _ V). exact D3.
Qed.

(** ** The other packages *)
Record ext_ok (e : ext) : Prop := {
  e_sha1 : forall k, bytes_ok k -> length (sha1 e k) = 20%nat /\ bytes_ok (sha1 e k);
  e_keccak224 : forall k, bytes_ok k -> length (keccak224 e k) = 28%nat /\ bytes_ok (keccak224 e k);
  e_blake2b : forall k, bytes_ok k -> length (blake2b e k) = 32%nat /\ bytes_ok (blake2b e k);
  e_whirlpool : forall k, bytes_ok k -> length (whirlpool e k) = 64%nat /\ bytes_ok (whirlpool e k) }.
Lemma low32_fits s : fits 32 (low32 s).
Proof. unfold fits, low32. apply N.mod_lt. discriminate. Qed.
Lemma wrap_low32 s : wrap 32 s = low32 s.
Proof. apply wrap_mod. Qed.
Lemma land_low32 h : N.land h 0xFFFFFFFF = low32 h.
Proof. change 0xFFFFFFFF with (N.ones 32). apply N.land_ones. Qed.
Lemma high32_fits h : h < 2 ^ 64 -> high32 h < 2 ^ 32.
Proof. intros H. unfold high32. apply N.div_lt_upper_bound; [discriminate|exact H]. Qed.
Lemma land_high32 h : h < 2 ^ 64 -> N.land (shr h 32) 0xFFFFFFFF = high32 h.
Proof.
  intros H. rewrite land_low32. unfold shr. rewrite N.shiftr_div_pow2. unfold low32. apply N.mod_small. now apply high32_fits.
Qed.
Lemma hash232_seen k s : bytes_ok k -> fits 32 s -> JenkinsModel.hash232 k s = Ok (JenkinsSpec.lookup2_gen false false (seen232 k) s).
Proof.
  intros Hk Hs. rewrite JenkinsProps.c58_hash232_truncates by assumption. fold (low32 (N.of_nat (length k))). fold (seen232 k).
  refine (proj1 (JenkinsProps.c57_lookup2_variant (seen232 k) s (bytes_ok_firstn _ k Hk)) Hs _). unfold seen232. rewrite firstn_length.
  pose proof (low32_fits (N.of_nat (length k))) as H. unfold fits in H. lia.
Qed.
Lemma lookup8v_fits k s : JenkinsSpec.lookup8v k s < 2 ^ 64.
Proof.
  rewrite JenkinsProofs5.l8_spec_form. destruct (absorb _ _ _ _) as [[[a b] c] r].
  assert (T : JenkinsProofs.tri_ok 64 (JenkinsModel.mix64alt (JenkinsSpec.l8_last (a, b, c) (N.of_nat (length r)) r))).
  { apply JenkinsProofs.mix64alt_bij. cbn [JenkinsSpec.l8_last]. repeat split; apply N.mod_lt; discriminate. }
  destruct (JenkinsModel.mix64alt _) as [[x y] z]. apply T.
Qed.
Lemma sipSeedSet_eq seed : sipSeedSet seed = le_store 8 seed ++ le_store 8 seed.
Proof.
  unfold sipSeedSet. cbn [le_store app]. unfold shr. rewrite !N.shiftr_shiftr. cbn [N.add Pos.add Pos.succ].
  change 0xFF with (N.ones 8). reflexivity.
Qed.
Lemma sipSeedSet_ok seed : seed < 2 ^ 64 -> length (sipSeedSet seed) = 16%nat /\ SipProps.key_lo (sipSeedSet seed) = seed /\ SipProps.key_hi (sipSeedSet seed) = seed.
Proof.
  intros H. rewrite sipSeedSet_eq. split; [reflexivity|]. unfold SipProps.key_lo, SipProps.key_hi.
  split; (cbn [le_store app firstn skipn]; change (le_load (le_store 8 seed) = seed); now apply le_load_store).
Qed.

(** ** The dispatcher *)
Definition counter (name : string) : bool := ((name =? "nullhash") || (name =? "nullhashF64ns"))%string.
Definition right (e : ext) (grow : nat -> nat -> nat) (w : world) (name : string) (k : slice) (seed : N) : Prop :=
  match reference e name (read (mem w) k) seed with
  | Some h => exists w', Hashf e grow w name k seed = Ok (w', h) /\ world_ok w' /\ keeps w w'
  | None => Hashf e grow w name k seed = Panics
  end.
Lemma Hashf_right e grow w name k seed : ext_ok e -> world_ok w -> wf (mem w) k -> N.of_nat (len k) < 2 ^ 64 -> seed < 2 ^ 64 ->
  counter name = false -> right e grow w name k seed.
Proof.
  intros Ee O W Lk Hs Hc. unfold right. pose proof (read_ok (mem w) k (o_mem w O)) as Hk.
  pose proof (read_length (mem w) k W) as Lr.
  pose proof (low32_fits seed) as H32. assert (H64 : fits 64 (low32 seed)) by (unfold fits in *; eapply N.lt_trans; [exact H32|reflexivity]).
  apply Bool.orb_false_iff in Hc. destruct Hc as [Hn1 Hn2].
  set (kb := read (mem w) k) in *.
  assert (Pure : forall x r, r = Ok x -> exists w', pure w r = Ok (w', x) /\ world_ok w' /\ keeps w w').
  { intros x r ->. exists w. split; [reflexivity|]. split; [exact O|now apply keeps_refl]. }
  unfold reference, Hashf. cbv zeta. fold kb. rewrite Hn1, Hn2, !wrap_low32, <- Lr. cbn [assoc table].
  destruct (name =? "perfecthash")%string.
  { unfold needs. destruct kb as [|k0 [|k1 [|k2 [|k3 r]]]]; try reflexivity. cbn [length Nat.ltb Nat.leb].
    unfold bytes_ok in Hk. repeat rewrite Forall_cons_iff in Hk. destruct Hk as (B0 & B1 & B2 & B3 & _).
    apply Pure. cbn [idx nth_error rbind]. rewrite lor4_ok by assumption. f_equal. cbn [firstn le_int]. lia. }
  destruct (name =? "gomap64")%string.
  { unfold needs. destruct (Nat.ltb_spec (length kb) 1).
    - assert (E : kb = []) by (apply length_zero_iff_nil; lia). rewrite E. now rewrite (proj2 (GomapProps.c41_empty_key_panics seed)).
    - apply Pure, GomapProps.c41_hash64_value; [assumption|]. intros E. rewrite E in *. cbn [length] in *. lia. }
  destruct (name =? "gomap32")%string.
  { unfold needs. destruct (Nat.ltb_spec (length kb) 1).
    - assert (E : kb = []) by (apply length_zero_iff_nil; lia). rewrite E. now rewrite (proj1 (GomapProps.c41_empty_key_panics _)).
    - apply Pure, GomapProps.c41_hash32_value; [assumption|]. intros E. rewrite E in *. cbn [length] in *. lia. }
  destruct (name =? "aeshash64")%string; [now apply Pure|].
  destruct (name =? "aeshash32I")%string.
  { unfold needs. destruct kb as [|k0 [|k1 [|k2 [|k3 r]]]]; try reflexivity. cbn [length Nat.ltb Nat.leb].
    unfold bytes_ok in Hk. repeat rewrite Forall_cons_iff in Hk. destruct Hk as (B0 & B1 & B2 & B3 & _).
    apply Pure. cbn [idx nth_error rbind]. rewrite lor4_ok by assumption. do 2 f_equal. cbn [firstn rev app le_int]. lia. }
  destruct (name =? "aeshash64I")%string.
  { unfold needs. destruct (Nat.ltb_spec (length kb) 8).
    - now rewrite be8_short.
    - apply Pure. now rewrite be8_ok. }
  destruct (name =? "adler32")%string; [now apply Pure|].
  destruct (name =? "sbox")%string; [now apply Pure, SmallProps.c69_value|].
  destruct (name =? "CrapWow")%string; [now apply Pure, SmallProps.c70_value|].
  destruct (name =? "MaHash8v64")%string; [now apply Pure, SmallProps.c43_value|].
  pose proof (proj1 (JenkinsProps.c55_lookup3_reference kb (low32 seed) (low32 seed) Hk)) as L3.
  pose proof (JenkinsProofs6.lookup3_ok kb (low32 seed) (low32 seed)) as R3.
  destruct (JenkinsSpec.lookup3 kb (low32 seed) (low32 seed)) as [c b] eqn:E3. cbn [fst snd] in R3. destruct R3 as [Rc Rb].
  destruct (name =? "j364")%string.
  { cbv beta iota. rewrite E3. apply Pure. rewrite L3. cbn [rbind]. f_equal. unfold shl64, shlw. rewrite N.shiftl_mul_pow2.
    rewrite wrap_small by (unfold fits in *; change (2 ^ 64) with (2 ^ 32 * 2 ^ 32); now apply N.mul_lt_mono_pos_r).
    now apply (lor_step _ b _ 32). }
  destruct (name =? "j332c")%string; [cbv beta iota; rewrite E3; apply Pure; now rewrite L3|].
  destruct (name =? "j332b")%string; [cbv beta iota; rewrite E3; apply Pure; now rewrite L3|].
  clear L3 E3 Rc Rb b c.
  destruct (name =? "j232")%string; [now apply Pure, hash232_seen|].
  assert (H8 : JenkinsModel.hash264 kb seed = Ok (JenkinsSpec.lookup8v kb seed)).
  { refine (proj2 (JenkinsProps.c57_lookup2_variant kb seed Hk) Hs _). now rewrite Lr. }
  pose proof (lookup8v_fits kb seed) as F8.
  destruct (name =? "j264")%string; [now apply Pure|].
  destruct (name =? "j264l")%string; [apply Pure; rewrite H8; cbn [rbind]; now rewrite land_low32|].
  destruct (name =? "j264h")%string; [apply Pure; rewrite H8; cbn [rbind]; now rewrite land_high32|].
  destruct (name =? "j264xor")%string.
  { apply Pure. rewrite H8. cbn [rbind]. rewrite land_low32, land_high32 by assumption.
    rewrite !wrap_small; [reflexivity|now apply high32_fits|apply low32_fits]. }
  clear H8 F8.
  destruct (SpookyProps.c32_widths_agree kb seed Hk Hs) as (sa & sb & S1 & _ & _ & S2 & S3 & _).
  destruct (SpookyProps.c32_widths_agree kb (low32 seed) Hk H64) as (ta & tb & _ & _ & _ & T2 & _ & T4). specialize (T4 H32).
  destruct (name =? "spooky32")%string; [cbv beta iota; rewrite <- T2; now apply Pure|].
  destruct (name =? "spooky64")%string; [cbv beta iota; rewrite <- S2; now apply Pure|].
  destruct (name =? "spooky128h")%string; [cbv beta iota; rewrite <- S2; apply Pure; now rewrite S1|].
  destruct (name =? "spooky128l")%string; [cbv beta iota; rewrite <- S2; apply Pure; now rewrite S1|].
  destruct (name =? "spooky128xor")%string; [cbv beta iota; rewrite <- S2; apply Pure; now rewrite S1|].
  clear S1 S2 S3 T2 T4.
  destruct (name =? "murmur332")%string.
  { destruct (o_m332 w O) as [x Hx]. apply mm_reset_inv in Hx; [|lia].
    apply (mm_write_inv 4 mm32_block 0 _ _ kb) in Hx; [|lia]. destruct Hx as [Hx _]. cbn [app] in Hx.
    cbv beta iota. eexists. split; [rewrite <- mm_sum32_reference by assumption; rewrite <- (mm_sum32_inv _ _ Hx); reflexivity|].
    split; [|now apply keeps_refl]. destruct O. constructor; try assumption. cbn [m332 set_m332]. now exists kb. }
  destruct (name =? "murmur364")%string.
  { destruct (o_m364 w O) as [x Hx]. apply mm_reset_inv in Hx; [|lia].
    apply (mm_write_inv 16 mm128_block (0, 0) _ _ kb) in Hx; [|lia]. destruct Hx as [Hx _]. cbn [app] in Hx.
    cbv beta iota. eexists. split; [rewrite <- mm_sum128_reference by assumption; rewrite <- (mm_sum128_inv _ _ Hx); reflexivity|].
    split; [|now apply keeps_refl]. destruct O. constructor; try assumption. cbn [m364 set_m364]. now exists kb. }
  destruct (name =? "siphash64")%string; [apply Pure; f_equal; now apply SipProps.c51_is_siphash_2_4|].
  destruct (name =? "siphash64pg")%string.
  { destruct (sipSeedSet_ok seed Hs) as (Q1 & Q2 & Q3). cbv beta iota zeta. cbn [seeds set_seeds].
    rewrite (proj1 (SipProps.c13_pg_agrees kb (sipSeedSet seed) Q1 Hk)), Q2, Q3.
    rewrite (proj1 (SipProps.c51_is_siphash_2_4 seed seed kb Hk)). eexists. split; [reflexivity|].
    split; [|now apply keeps_refl]. destruct O. now constructor. }
  destruct (FarmProps.c31_farm_in_bounds kb Hk) as (F1 & F2 & F3 & _).
  pose proof (FarmMore.spec_hash32_fits kb) as G1.
  destruct (name =? "FarmHash32")%string.
  { apply Pure. rewrite F1. cbn [rbind]. f_equal. rewrite land_low32. now apply N.mod_small. }
  destruct (name =? "FarmHash64")%string; [now apply Pure|].
  destruct (FarmSpec.spec_hash128 kb) as [fa fb] eqn:EF.
  destruct (name =? "FarmHash128-high")%string; [cbv beta iota; rewrite EF; apply Pure; now rewrite F3|].
  destruct (name =? "FarmHash128-low")%string; [cbv beta iota; rewrite EF; apply Pure; now rewrite F3|].
  destruct (name =? "FarmHash128-xor")%string; [cbv beta iota; rewrite EF; apply Pure; now rewrite F3|].
  clear F1 F2 F3 G1.
  destruct (MetroProps.c61_published kb (low32 seed)) as (M1 & M2 & M3 & _).
  destruct (name =? "MetroHash64-1")%string; [apply Pure, MetroProofs.hash64_1_gen|].
  destruct (name =? "MetroHash64-2")%string; [now apply Pure|].
  destruct (MetroSpec.metro128 MetroSpec.p128_1 kb (low32 seed)) as [p q] eqn:EM1.
  destruct (name =? "MetroHash128-1h")%string; [cbv beta iota; rewrite EM1; apply Pure; now rewrite M2|].
  destruct (name =? "MetroHash128-1l")%string; [cbv beta iota; rewrite EM1; apply Pure; now rewrite M2|].
  destruct (name =? "MetroHash128-1xor")%string; [cbv beta iota; rewrite EM1; apply Pure; now rewrite M2|].
  destruct (MetroSpec.metro128 MetroSpec.p128_2 kb (low32 seed)) as [p' q'] eqn:EM2.
  destruct (name =? "MetroHash128-2h")%string; [cbv beta iota; rewrite EM2; apply Pure; now rewrite M3|].
  destruct (name =? "MetroHash128-2l")%string; [cbv beta iota; rewrite EM2; apply Pure; now rewrite M3|].
  destruct (name =? "MetroHash128-2xor")%string; [cbv beta iota; rewrite EM2; apply Pure; now rewrite M3|].
  clear M1 M2 M3.
  assert (Done : forall w' c m' s' i (_ : N), keeps_mem w m' -> heap_ok m' -> mem w' = m' -> fp_ok m' c s' -> nth_error [8; 20; 28; 32; 64]%nat i = Some c ->
    fps w' = upd (fps w) i s' -> arr s' = nth i (map arr (fps w)) 0%nat -> nh w' = nh w -> nhf64 w' = nhf64 w ->
    digest_of 64 3 (k643 w') -> digest_of 64 4 (k644 w') -> digest_of 64 8 (k648 w') -> digest_of 160 24 (k160 w') ->
    m332 w' = m332 w -> m364 w' = m364 w -> world_ok w' /\ keeps w w').
  { intros w' c m' s' i h K Hh Em Fs Ei Ef Ea N1 N2 D1 D2 D3 D4 E1 E2. destruct O. split.
    - assert (F : forall j c0, nth_error [8; 20; 28; 32; 64]%nat j = Some c0 -> fp_ok m' c0 (nth j (fps w') nil_slice)).
      { intros j c0 Ej. rewrite Ef. destruct (Nat.eq_dec j i) as [->|Hn].
        - rewrite upd_same; [congruence|]. destruct i as [|[|[|[|[|i]]]]]; [cbn; lia..|destruct i; discriminate].
        - rewrite upd_other by assumption. destruct j as [|[|[|[|[|j]]]]]; [injection Ej as <-..|destruct j; discriminate]; eapply fp_ok_keeps; eassumption. }
      constructor; rewrite ?Em, ?E1, ?E2; try assumption.
      + exact (F 0%nat _ eq_refl).
      + exact (F 1%nat _ eq_refl).
      + exact (F 2%nat _ eq_refl).
      + exact (F 3%nat _ eq_refl).
      + exact (F 4%nat _ eq_refl).
    - constructor; rewrite ?Em; try assumption. rewrite Ef.
      destruct i as [|[|[|[|[|i]]]]]; try (destruct i; discriminate); cbn in Ea |- *; now rewrite Ea. }
  destruct (name =? "keccak224")%string.
  { destruct (e_keccak224 e Ee kb Hk) as [El Eb].
    destruct (ext_digest_ok grow w 28 (fp28 w) (keccak224 e kb) O ltac:(cbn; auto) (o_28 w O) Eb ltac:(lia)) as (m' & s' & E & K & Hh & Fs & Ea).
    cbv beta iota. rewrite E. cbn [rbind]. eexists. split; [reflexivity|]. destruct O. now apply (Done _ 28%nat m' s' 2%nat 0). }
  destruct (name =? "keccakpg643")%string.
  { destruct (pg_digest_ok grow w 8 (fp8 w) 64 3 2 (k643 w) k O ltac:(cbn; auto) (o_8 w O) ltac:(repeat split; lia) (o_643 w O) ltac:(lia) W) as (m' & s' & d' & E & K & Hh & Fs & Ea & D).
    cbv beta iota. rewrite E. cbn [rbind]. eexists. split; [reflexivity|]. destruct O. now apply (Done _ 8%nat m' s' 0%nat 0). }
  destruct (name =? "keccakpg644")%string.
  { destruct (pg_digest_ok grow w 8 (fp8 w) 64 4 2 (k644 w) k O ltac:(cbn; auto) (o_8 w O) ltac:(repeat split; lia) (o_644 w O) ltac:(lia) W) as (m' & s' & d' & E & K & Hh & Fs & Ea & D).
    cbv beta iota. rewrite E. cbn [rbind]. eexists. split; [reflexivity|]. destruct O. now apply (Done _ 8%nat m' s' 0%nat 0). }
  destruct (name =? "keccakpg648")%string.
  { destruct (pg_digest_ok grow w 8 (fp8 w) 64 8 2 (k648 w) k O ltac:(cbn; auto) (o_8 w O) ltac:(repeat split; lia) (o_648 w O) ltac:(lia) W) as (m' & s' & d' & E & K & Hh & Fs & Ea & D).
    cbv beta iota. rewrite E. cbn [rbind]. eexists. split; [reflexivity|]. destruct O. now apply (Done _ 8%nat m' s' 0%nat 0). }
  destruct (name =? "keccakpg160")%string.
  { destruct (pg_digest_ok grow w 32 (fp32 w) 160 24 5 (k160 w) k O ltac:(cbn; auto) (o_32 w O) ltac:(repeat split; lia) (o_160 w O) ltac:(lia) W) as (m' & s' & d' & E & K & Hh & Fs & Ea & D).
    cbv beta iota. rewrite E. cbn [rbind]. eexists. split; [reflexivity|]. destruct O. now apply (Done _ 32%nat m' s' 3%nat 0). }
  destruct (name =? "whirlpool")%string.
  { destruct (e_whirlpool e Ee kb Hk) as [El Eb].
    destruct (ext_digest_ok grow w 64 (fp64 w) (whirlpool e kb) O ltac:(cbn; auto 6) (o_64 w O) Eb ltac:(lia)) as (m' & s' & E & K & Hh & Fs & Ea).
    cbv beta iota. rewrite E. cbn [rbind]. eexists. split; [reflexivity|]. destruct O. now apply (Done _ 64%nat m' s' 4%nat 0). }
  destruct (name =? "blake2b")%string.
  { destruct (e_blake2b e Ee kb Hk) as [El Eb].
    destruct (ext_digest_ok grow w 32 (fp32 w) (blake2b e kb) O ltac:(cbn; auto) (o_32 w O) Eb ltac:(lia)) as (m' & s' & E & K & Hh & Fs & Ea).
    cbv beta iota. rewrite E. cbn [rbind]. eexists. split; [reflexivity|]. destruct O. now apply (Done _ 32%nat m' s' 3%nat 0). }
  destruct (name =? "sha1")%string.
  { destruct (e_sha1 e Ee kb Hk) as [El Eb].
    destruct (ext_digest_ok grow w 20 (fp20 w) (sha1 e kb) O ltac:(cbn; auto) (o_20 w O) Eb ltac:(lia)) as (m' & s' & E & K & Hh & Fs & Ea).
    cbv beta iota. rewrite E. cbn [rbind]. eexists. split; [reflexivity|]. destruct O. now apply (Done _ 20%nat m' s' 1%nat 0). }
  reflexivity.
Qed.

(** ** Programs *)
Lemma array_app_l m x a : (a < length m)%nat -> array (m ++ x) a = array m a.
Proof. intros H. unfold array. now apply app_nth1. Qed.
Lemma init_ok m : Forall bytes_ok m -> world_ok (init m).
Proof.
  intros H. assert (A : forall i c, (i < 5)%nat -> nth i [8; 20; 28; 32; 64]%nat 0%nat = c -> fp_ok (mem (init m)) c (mkSlice (length m + i) 0 c c)).
  { intros i c Hi <-. assert (L : length (mem (init m)) = (length m + 5)%nat) by (cbn [mem init]; now rewrite app_length).
    split; [|split; [reflexivity|cbn [arr]; lia]]. repeat split; cbn [len cap off arr]; [lia| |right; lia].
    unfold array. cbn [mem init]. rewrite app_nth2 by lia. replace (length m + i - length m)%nat with i by lia.
    destruct i as [|[|[|[|[|i]]]]]; try lia; cbn; lia. }
  constructor.
  - cbn [mem init]. apply Forall_app. split; [exact H|]. repeat (constructor; [apply Forall_forall; intros x Hx; apply repeat_spec in Hx; subst; reflexivity|]). constructor.
  - cbn [fp8 init]. rewrite <- (Nat.add_0_r (length m)) at 1. apply (A 0%nat); [lia|reflexivity].
  - apply (A 1%nat); [lia|reflexivity].
  - apply (A 2%nat); [lia|reflexivity].
  - apply (A 3%nat); [lia|reflexivity].
  - apply (A 4%nat); [lia|reflexivity].
  - repeat split.
  - repeat split.
  - repeat split.
  - repeat split.
  - exists []. apply mm_new_inv. lia.
  - exists []. apply mm_new_inv. lia.
Qed.
Record inv (a0 : nat) (w : world) (m : heap) (c1 c2 : N) : Prop := {
  i_ok : world_ok w;
  i_fps : map arr (fps w) = [a0; a0 + 1; a0 + 2; a0 + 3; a0 + 4]%nat;
  i_len : length (mem w) = length m;
  i_same : forall a, foreign a0 a -> array (mem w) a = array m a;
  i_alen : forall a, length (array (mem w) a) = length (array m a);
  i_c1 : nh w = c1 mod 2 ^ 64;
  i_c2 : nhf64 w = c2 mod 2 ^ 64 }.
Lemma not_mine a0 a : foreign a0 a -> ~ In a [a0; a0 + 1; a0 + 2; a0 + 3; a0 + 4]%nat.
Proof. intros H. cbn [In]. unfold foreign in H. lia. Qed.
Lemma succ_mod c : (c mod 2 ^ 64 + 1) mod 2 ^ 64 = (c + 1) mod 2 ^ 64.
Proof. now rewrite N.add_mod_idemp_l. Qed.
Lemma withMem_ok w m' : world_ok w -> heap_ok m' -> (length (mem w) <= length m')%nat ->
  (forall a, (a < length (mem w))%nat -> length (array m' a) = length (array (mem w) a)) -> world_ok (withMem w m').
Proof.
  intros [] H L A.
  assert (F : forall c s, fp_ok (mem w) c s -> fp_ok m' c s).
  { intros c s (W & C & R). split; [|split; [exact C|lia]]. now apply (wf_mono (mem w)). }
  constructor; cbn [mem withMem fp8 fp20 fp28 fp32 fp64 k643 k644 k648 k160 m332 m364]; auto.
Qed.
Lemma execute_ok e grow a0 ops : ext_ok e -> forall w m c1 c2, inv a0 w m c1 c2 -> hops_ok a0 m ops ->
  execute e grow w ops = answers e c1 c2 m ops.
Proof.
  intros Ee. induction ops as [|op ops IH]; intros w m c1 c2 I Hok; [reflexivity|].
  destruct Hok as [Hop Hok]. destruct op as [bs|a o bs|name k seed]; cbn [execute answers hop_mem hop_ok] in *.
  - apply IH; [|exact Hok]. destruct I as [O F L S A C1 C2].
    assert (E : forall a, array (m ++ [bs]) a = if Nat.eq_dec a (length m) then bs else array m a).
    { intros a. unfold array. destruct (Nat.eq_dec a (length m)) as [->|Hn]; [now rewrite nth_middle|].
      destruct (Nat.lt_ge_cases a (length m)); [now apply app_nth1|]. rewrite !nth_overflow; [reflexivity|lia|rewrite app_length; cbn; lia]. }
    assert (E' : forall a, array (mem w ++ [bs]) a = if Nat.eq_dec a (length m) then bs else array (mem w) a).
    { intros a. rewrite <- L. unfold array. destruct (Nat.eq_dec a (length (mem w))) as [->|Hn]; [now rewrite nth_middle|].
      destruct (Nat.lt_ge_cases a (length (mem w))); [now apply app_nth1|]. rewrite !nth_overflow; [reflexivity|lia|rewrite app_length; cbn; lia]. }
    constructor; cbn [mem withMem nh nhf64]; try assumption.
    + apply withMem_ok; [exact O|apply Forall_app; split; [apply O|now constructor]|rewrite app_length; lia|].
      intros a Ha. now rewrite array_app_l.
    + rewrite !app_length. lia.
    + intros a Ha. rewrite E, E'. destruct (Nat.eq_dec a (length m)); [reflexivity|now apply S].
    + intros a. rewrite E, E'. destruct (Nat.eq_dec a (length m)); [reflexivity|apply A].
  - destruct Hop as (Hf & Ha & Hl & Hb). apply IH; [|exact Hok]. destruct I as [O F L S A C1 C2].
    constructor; cbn [mem withMem nh nhf64]; try assumption.
    + apply withMem_ok; [exact O|apply store_ok; [apply O|exact Hb]|now rewrite store_length|].
      intros b _. apply store_array_length; [lia|now rewrite A].
    + now rewrite !store_length.
    + intros b Hbf. destruct (Nat.eq_dec b a) as [->|Hn].
      * rewrite !array_store_same by lia. now rewrite S.
      * rewrite !array_store_other by assumption. now apply S.
    + intros b. rewrite !store_array_length; try lia; [apply A|]. now rewrite A.
  - destruct Hop as ((W1 & W2 & W3) & Hf & Lk & Hs). destruct I as [O F L S A C1 C2].
    destruct (name =? "nullhash")%string eqn:N1.
    { unfold Hashf. apply String.eqb_eq in N1. subst name. cbn -[N.pow N.modulo mem read].
      unfold SmallModel.null_Reset, SmallModel.null_Write, SmallModel.null_Sum64, add64, addw. rewrite wrap_mod, C1, succ_mod.
      f_equal. apply IH; [|exact Hok]. destruct O. constructor; try assumption; try reflexivity. now constructor. }
    destruct (name =? "nullhashF64ns")%string eqn:N2.
    { unfold Hashf. apply String.eqb_eq in N2. subst name. cbn -[N.pow N.modulo mem read].
      unfold SmallModel.null_Hash64S, add64, addw. rewrite wrap_mod, C2, succ_mod.
      f_equal. apply IH; [|exact Hok]. destruct O. constructor; try assumption; try reflexivity. now constructor. }
    assert (W : wf (mem w) k) by (repeat split; rewrite ?A, ?L; assumption).
    assert (R : read m k = read (mem w) k).
    { destruct Hf as [Hf|Hf]; [|apply read_same; now rewrite S].
      rewrite (read_cap0 (mem w) k W Hf). apply read_cap0; [repeat split|]; assumption. }
    pose proof (Hashf_right e grow w name k seed Ee O W Lk Hs) as H. unfold counter in H. rewrite N1, N2 in H. specialize (H eq_refl).
    unfold right in H. rewrite R. destruct (reference e name (read (mem w) k) seed) as [h|].
    + destruct H as (w' & E & O' & [[K1 [K2 K3]] K4 K5 K6]). rewrite E. f_equal. apply IH; [|exact Hok].
      constructor; [exact O'|congruence|congruence| | |congruence|congruence].
      * intros a Ha. rewrite K2; [now apply S|]. rewrite F. now apply not_mine.
      * intros a. now rewrite K3.
    + now rewrite H.
Qed.
Lemma init_inv m : Forall bytes_ok m -> inv (length m) (init m) (mem (init m)) 0 0.
Proof. intros H. constructor; try reflexivity. now apply init_ok. Qed.
