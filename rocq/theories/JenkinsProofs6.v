(** Package jenkins: collisions, digests, bounds. *)
From Coq Require Import ZArith.
From Verif Require Import Words WordLemmas ListLemmas Blocks DigestSpec Bij Mem Mm3Spec Mm3Proofs Mm3More
  JenkinsModel JenkinsSpec JenkinsProofs JenkinsProofs2 JenkinsProofs3 JenkinsProofs4 JenkinsProofs5.
Open Scope N_scope.

(** ** Collisions of Hash232 *)
Lemma pad0_snoc y r : (length r <= 10)%nat -> pad0 12 (y :: r ++ [0]) = pad0 12 (y :: r).
Proof.
  intros H. unfold pad0. rewrite <- app_comm_cons, <- app_assoc. rewrite <- app_comm_cons. do 2 f_equal.
  cbn [length]. rewrite app_length. cbn [length app].
  replace (12 - S (length r))%nat with (S (12 - S (length r + 1)))%nat by lia. reflexivity.
Qed.
Lemma l2_last_collide s x r : (length r <= 9)%nat -> 1 <= x ->
  l2_last false s (N.of_nat (length (x :: r))) (x :: r) =
  l2_last false s (N.of_nat (length (x - 1 :: r ++ [0]))) (x - 1 :: r ++ [0]).
Proof.
  intros Hr Hx. unfold l2_last. destruct s as [[a b] c]. rewrite pad0_snoc by lia.
  unfold pad0. cbn [length]. rewrite <- !app_comm_cons. cbn [nth skipn]. 
  f_equal. rewrite !madd32_eq, !add32_add32. f_equal. rewrite app_length. cbn [length]. lia.
Qed.
Lemma absorb_multiple s p : (length p mod 12 = 0)%nat -> exists s', absorb 12 l2_block s p = (s', []).
Proof.
  intros H. pose proof (absorb_rest_length 12 l2_block pos12 s p) as L.
  destruct (absorb 12 l2_block s p) as [s' r]. cbn [snd] in L. rewrite H in L. destruct r; [eauto|discriminate].
Qed.
Lemma lookup2_collide p x r seed : (length p mod 12 = 0)%nat -> (length r <= 9)%nat -> 1 <= x ->
  lookup2_gen false false (p ++ x :: r) seed = lookup2_gen false false (p ++ (x - 1) :: r ++ [0]) seed.
Proof.
  intros Hp Hr Hx. rewrite !l2_spec_form, !(absorb_app 12 l2_block pos12).
  destruct (absorb_multiple (0x9e3779b9, 0x9e3779b9, seed) p Hp) as [s' E]. rewrite E. cbn [app].
  rewrite !(absorb_short 12 l2_block pos12) by (cbn [length]; rewrite ?app_length; cbn [length]; lia).
  now rewrite l2_last_collide.
Qed.
Lemma hash232_short k seed : bytes_ok k -> fits 32 seed -> N.of_nat (length k) < 2 ^ 32 ->
  hash232 k seed = Ok (lookup2_gen false false k seed).
Proof.
  intros Hk Hs Hl. unfold hash232. rewrite hash232_gen by assumption.
  rewrite N.mod_small, Nnat.Nat2N.id, firstn_all by assumption. reflexivity.
Qed.
Lemma hash232_collide p x r seed : bytes_ok (p ++ x :: r) -> fits 32 seed ->
  (length p mod 12 = 0)%nat -> (length r <= 9)%nat -> 1 <= x -> N.of_nat (length p) + 11 < 2 ^ 32 ->
  hash232 (p ++ x :: r) seed = hash232 (p ++ (x - 1) :: r ++ [0]) seed.
Proof.
  intros Hk Hs Hp Hr Hx Hl. apply bytes_ok_app in Hk. destruct Hk as [Hkp Hk']. inversion_clear Hk' as [|? ? Hkx Hkr].
  assert (Hz : byte_ok 0) by (unfold byte_ok; lia).
  rewrite !hash232_short; auto.
  - now rewrite lookup2_collide.
  - apply bytes_ok_app. split; auto. constructor; [unfold byte_ok in *; lia|]. apply bytes_ok_app. split; auto. repeat constructor.
  - rewrite app_length. cbn [length]. rewrite app_length. cbn [length]. lia.
  - apply bytes_ok_app. split; auto. constructor; auto.
  - rewrite app_length. cbn [length]. lia.
Qed.
Lemma hash232_truncates k seed : bytes_ok k -> fits 32 seed ->
  hash232 k seed = hash232 (firstn (N.to_nat (N.of_nat (length k) mod 2 ^ 32)) k) seed.
Proof.
  intros Hk Hs. unfold hash232 at 1. rewrite hash232_gen by assumption. symmetry. apply hash232_short; auto.
  - now apply bytes_ok_firstn.
  - rewrite firstn_length. pose proof (N.mod_lt (N.of_nat (length k)) (2 ^ 32) (pow2_nz 32)). lia.
Qed.

(** ** Range of lookup3 *)
Lemma l3_run_ok f : forall s m, tri_ok 32 s -> tri_ok 32 (l3_run f s m).
Proof.
  induction f as [|f IH]; intros s m Hs; cbn [l3_run]; auto. destruct (length m <=? 12)%nat.
  - rewrite l3_final_eq by apply add_block_ok32. apply final12_ok, add_block_ok32.
  - apply IH. rewrite l3_mix_eq by apply add_block_ok32. apply mix12_ok, add_block_ok32.
Qed.
Lemma lookup3_ok m pc pb : fits 32 (fst (lookup3 m pc pb)) /\ fits 32 (snd (lookup3 m pc pb)).
Proof.
  unfold lookup3. set (i := (_ + pc) mod 2 ^ 32). assert (Hi : fits 32 i) by (apply N.mod_lt, pow2_nz).
  assert (Hj : fits 32 ((i + pb) mod 2 ^ 32)) by (apply N.mod_lt, pow2_nz).
  destruct m as [|x m]; [split; assumption|].
  pose proof (l3_run_ok (length (x :: m)) (i, i, (i + pb) mod 2 ^ 32) (x :: m)) as H.
  destruct (l3_run _ _ _) as [[a b] c]. destruct H as (_ & Hb & Hc); [repeat split; assumption|]. split; assumption.
Qed.

(** ** Digests *)
Lemma jenkins364_tail_eq k pc pb : bytes_ok k -> jenkins364 k (Z.of_nat (length k)) pc pb = Ok (lookup3 k pc pb).
Proof. apply jenkins364_full. Qed.

Lemma run332_chain seed ops : forall d, s332_seed d = seed -> bytes_ok (s332_tail d) -> Forall dop_ok ops ->
  run_history_res write332 sum_332 sum32_332 reset332 d ops =
  Ok (chain_history (fun v => be_store 4 (fst v)) fst (seed, seed) (s332_tail d) (s332_pc d, s332_pb d) ops).
Proof.
  induction ops as [|o ops IH]; intros d Hd Ht Ho; [reflexivity|]. inversion_clear Ho as [|? ? H1 H2].
  destruct o as [p|inp| |]; cbn [run_history_res chain_history fst snd].
  - cbn [write332]. rewrite IH; cbn; auto. apply bytes_ok_app. auto.
  - unfold sum_332, sum32_332. rewrite jenkins364_full by assumption. cbn [rbind].
    destruct (lookup3 _ _ _) as [pc pb] eqn:E. cbn [rbind].
    rewrite IH; cbn [s332_seed s332_tail s332_pc s332_pb rbind fst]; auto.
  - unfold sum32_332. rewrite jenkins364_full by assumption. cbn [rbind].
    destruct (lookup3 _ _ _) as [pc pb] eqn:E. cbn [rbind].
    rewrite IH; cbn [s332_seed s332_tail s332_pc s332_pb rbind fst]; auto.
  - rewrite IH; cbn [reset332 s332_seed s332_tail s332_pc s332_pb rbind]; auto; [|constructor]. now rewrite Hd.
Qed.
Lemma lor_halves pc pb : fits 32 pc -> fits 32 pb -> N.lor (shl64 pb 32) pc = word64_of (pc, pb).
Proof.
  intros H1 H2. unfold word64_of. cbn [fst snd]. unfold shl64, shlw.
  rewrite wrap_small.
  - rewrite N.lor_comm, (land_disjoint_add pc (N.shiftl pb 32)).
    + rewrite N.shiftl_mul_pow2, (N.mul_comm pb). reflexivity.
    + apply N.bits_inj. intro i. rewrite N.bits_0, N.land_spec. destruct (N.lt_ge_cases i 32).
      * rewrite N.shiftl_spec_low by assumption. apply andb_false_r.
      * rewrite (fits_high 32 pc i) by assumption. reflexivity.
  - unfold fits in *. rewrite N.shiftl_mul_pow2. change (2 ^ 64) with (2 ^ 32 * 2 ^ 32). apply N.mul_lt_mono_pos_r; auto. reflexivity.
Qed.
Lemma shl32_32 x : shl32 x 32 = 0. Proof. apply shlw_big. lia. Qed.
Lemma run364_chain seed ops : fits 64 seed -> forall d, s364_seed d = seed -> bytes_ok (s364_tail d) -> Forall dop_ok ops ->
  run_history_res write364 sum_364 sum64_364 reset364 d ops =
  Ok (chain_history (fun v => be_store 8 (fst v)) word64_of (seed mod 2 ^ 32, seed / 2 ^ 32)
        (s364_tail d) (s364_pc d, s364_pb d) ops).
Proof.
  intros Hseed. induction ops as [|o ops IH]; intros d Hd Ht Ho; [reflexivity|]. inversion_clear Ho as [|? ? H1 H2].
  destruct o as [p|inp| |]; cbn [run_history_res chain_history fst snd].
  - cbn [write364]. rewrite IH; cbn; auto. apply bytes_ok_app. auto.
  - unfold sum_364. rewrite jenkins364_full by assumption. cbn [rbind].
    destruct (lookup3 _ _ _) as [pc pb] eqn:E. cbn [rbind].
    rewrite IH; cbn [s364_seed s364_tail s364_pc s364_pb rbind fst]; auto.
    rewrite shl32_32, N.lor_0_l. reflexivity.
  - unfold sum64_364. rewrite jenkins364_full by assumption. cbn [rbind].
    pose proof (lookup3_ok (s364_tail d) (s364_pc d) (s364_pb d)) as [F1 F2].
    destruct (lookup3 _ _ _) as [pc pb] eqn:E. cbn [rbind fst snd] in *.
    rewrite IH; cbn [s364_seed s364_tail s364_pc s364_pb rbind fst]; auto.
    now rewrite lor_halves.
  - rewrite IH; cbn [reset364 s364_seed s364_tail s364_pc s364_pb rbind]; auto; [|constructor]. rewrite Hd.
    rewrite wrap_mod. unfold shr. rewrite N.shiftr_div_pow2, wrap_small; auto.
    unfold fits in *. apply N.div_lt_upper_bound; [discriminate|]. exact Hseed.
Qed.
Lemma chain_writes es ew init chunks : forall data v last,
  chain_history es ew init data v (map DWrite chunks ++ [last]) =
  map (fun c => OWrote (length c)) chunks ++ chain_history es ew init (data ++ concat chunks) v [last].
Proof.
  induction chunks as [|c chunks IH]; intros data v last; cbn [map app concat].
  - now rewrite app_nil_r.
  - cbn [chain_history]. rewrite IH. now rewrite app_assoc.
Qed.

(** lookup2 digest: the seed is always zero. *)
Inductive reach232 : st232 -> Prop :=
| r232_new seed : reach232 (new232 seed)
| r232_write d p : reach232 d -> reach232 (fst (write232 d p))
| r232_sum d b d' o : reach232 d -> sum_232 d b = Ok (d', o) -> reach232 d'
| r232_sum32 d d' o : reach232 d -> sum32_232 d = Ok (d', o) -> reach232 d'
| r232_hash32 d b seeds d' o : reach232 d -> hash32_232 d b seeds = Ok (d', o) -> reach232 d'
| r232_reset d : reach232 d -> reach232 (reset232 d).
Lemma sum32_232_state d d' o : sum32_232 d = Ok (d', o) -> s232_seed d' = s232_seed d.
Proof. unfold sum32_232. destruct (hash232 _ _); cbn [rbind]; try discriminate. intros [= <- _]. reflexivity. Qed.
Lemma reach232_seed d : reach232 d -> s232_seed d = 0.
Proof.
  induction 1 as [|d p _ IH|d b d' o _ IH E|d d' o _ IH E|d b seeds d' o _ IH E|d _ IH]; auto.
  - unfold sum_232 in E. destruct (sum32_232 d) as [[d1 h]| | |] eqn:E1; cbn [rbind] in E; try discriminate.
    injection E as <- _. now rewrite (sum32_232_state _ _ _ E1).
  - now rewrite (sum32_232_state _ _ _ E).
  - unfold hash32_232 in E. destruct (hash232 _ _); cbn [rbind] in E; try discriminate. injection E as <- _.
    cbn [s232_seed]. destruct seeds; auto.
Qed.
Definition h2 (data : list N) : N := lookup2_gen false false (firstn (N.to_nat (N.of_nat (length data) mod 2 ^ 32)) data) 0.
Lemma run232_spec ops : forall d, s232_seed d = 0 -> bytes_ok (s232_tail d) -> Forall dop_ok ops ->
  run_history_res write232 sum_232 sum32_232 reset232 d ops =
  Ok (spec_history (fun m => be_store 4 (h2 m)) h2 (s232_tail d) ops).
Proof.
  induction ops as [|o ops IH]; intros d Hd Ht Ho; [reflexivity|]. inversion_clear Ho as [|? ? H1 H2].
  destruct o as [p|inp| |]; cbn [run_history_res spec_history].
  - cbn [write232]. rewrite IH; cbn; auto. apply bytes_ok_app. auto.
  - unfold sum_232, sum32_232, hash232. rewrite hash232_gen by (auto; rewrite Hd; apply fits_0). cbn [rbind].
    rewrite IH; cbn [s232_seed s232_tail rbind]; auto. unfold h2. now rewrite Hd.
  - unfold sum32_232, hash232. rewrite hash232_gen by (auto; rewrite Hd; apply fits_0). cbn [rbind].
    rewrite IH; cbn [s232_seed s232_tail rbind]; auto. unfold h2. now rewrite Hd.
  - rewrite IH; cbn [reset232 s232_seed s232_tail rbind]; auto. constructor.
Qed.
Lemma hash32_232_eq d b seeds : reach232 d -> bytes_ok b -> exists d', hash32_232 d b seeds = Ok (d', h2 b).
Proof.
  intros Hd Hb. unfold hash32_232, hash232. pose proof (reach232_seed d Hd) as E.
  replace (match seeds with [] => s232_seed d | _ :: _ => 0 end) with 0 by (destruct seeds; auto).
  rewrite hash232_gen by (auto using fits_0). cbn [rbind]. eauto.
Qed.
Lemma hash32_332_eq d b seeds : bytes_ok b -> exists d', hash32_332 d b seeds = Ok (d', fst (lookup3 b 0 0)).
Proof.
  intros Hb. unfold hash32_332. rewrite jenkins364_full by assumption. cbn [rbind].
  destruct (lookup3 b 0 0) as [pc pb]. cbn [rbind fst]. eauto.
Qed.
Lemma hash64s_364_eq d b seed : bytes_ok b -> fits 64 seed ->
  exists d', hash64s_364 d b seed = Ok (d', word64_of (lookup3 b (seed mod 2 ^ 32) (seed / 2 ^ 32))) /\
             hash64_364 d b [seed] = Ok (d', word64_of (lookup3 b (seed mod 2 ^ 32) (seed / 2 ^ 32))).
Proof.
  intros Hb Hs. unfold hash64s_364, hash64_364. rewrite jenkins364_full by assumption. cbn [rbind].
  rewrite wrap_mod. unfold shr. rewrite N.shiftr_div_pow2, wrap_small.
  2:{ unfold fits in *. apply N.div_lt_upper_bound; [discriminate|]. exact Hs. }
  pose proof (lookup3_ok b (seed mod 2 ^ 32) (seed / 2 ^ 32)) as [F1 F2].
  destruct (lookup3 _ _ _) as [pc pb]. cbn [rbind fst snd] in *. rewrite lor_halves by assumption. eauto.
Qed.

(** ** Bounds *)
Lemma j364_negative k z s : (z < 0)%Z -> j364_tail k z s = Ok (inr s).
Proof. intros H. destruct s as [[a b] c]. destruct z as [|p|p]; try lia. reflexivity. Qed.
Lemma jenkins364_total k z pc pb : bytes_ok k -> (z <= Z.of_nat (length k))%Z -> exists r, jenkins364 k z pc pb = Ok r.
Proof.
  intros Hk Hz. destruct (Z.lt_trichotomy z 0) as [H|[H|H]].
  - unfold jenkins364. replace (z =? 0)%Z with false by (symmetry; apply Z.eqb_neq; lia).
    cbn [j364_loop]. replace (12 <? z)%Z with false by (symmetry; apply Z.ltb_ge; lia). cbn [rbind].
    rewrite j364_negative by assumption. cbn [rbind]. destruct (final2 _) as [[? ?] ?]. eauto.
  - subst z. rewrite jenkins364_0, jenkins364_full by assumption. eauto.
  - replace z with (Z.of_nat (Z.to_nat z)) by lia. rewrite jenkins364_prefix by (auto; lia). eauto.
Qed.

(** Explicit lengths beyond the slice: which of the two failures it is. *)
Definition beyond (n : nat) (z : Z) : res (N * N) :=
  if ((n mod 4 =? 0)%nat || (negb (z mod 4 =? 0)%Z && (z <=? 12 * Z.of_nat (n / 12) + 12)%Z))%bool then Panics else Overread.
Lemma j364_tail_beyond k z s : (length k < 12)%nat -> (Z.of_nat (length k) < z <= 12)%Z ->
  (r <~ j364_tail k z s ;; match r with inl v => Ok v | inr s => let '(a, b, c) := final2 (final1 s) in Ok (c, b) end) =
  beyond (length k) z.
Proof.
  intros Hk Hz. destruct s as [[a b] c].
  assert (C : (z = 1 \/ z = 2 \/ z = 3 \/ z = 4 \/ z = 5 \/ z = 6 \/ z = 7 \/ z = 8 \/ z = 9 \/ z = 10 \/ z = 11 \/ z = 12)%Z) by lia.
  do 12 (destruct k as [|? k];
    [cbn [length Z.of_nat Pos.of_succ_nat Pos.succ] in Hz; decompose [or] C; subst z; try (exfalso; lia); reflexivity|]).
  cbn [length] in Hk. lia.
Qed.
Lemma beyond_step n z : (12 <= n)%nat -> beyond (n - 12) (z - 12) = beyond n z.
Proof.
  intros H. unfold beyond.
  replace ((n - 12) mod 4)%nat with (n mod 4)%nat.
  2:{ replace n with (n - 12 + 3 * 4)%nat at 1 by lia. now rewrite Nat.mod_add. }
  replace ((z - 12) mod 4)%Z with (z mod 4)%Z.
  2:{ replace (z - 12)%Z with (z + (-3) * 4)%Z by lia. now rewrite Z.mod_add. }
  replace (n / 12)%nat with ((n - 12) / 12 + 1)%nat.
  2:{ replace n with (n - 12 + 1 * 12)%nat at 2 by lia. now rewrite Nat.div_add. }
  replace (z <=? 12 * Z.of_nat ((n - 12) / 12 + 1) + 12)%Z with (z - 12 <=? 12 * Z.of_nat ((n - 12) / 12) + 12)%Z; auto.
  destruct (Z.leb_spec (z - 12) (12 * Z.of_nat ((n - 12) / 12) + 12)), (Z.leb_spec z (12 * Z.of_nat ((n - 12) / 12 + 1) + 12)); lia.
Qed.
Lemma j364_beyond n : forall fuel k z s, length k = n -> (Z.of_nat n < z)%Z -> (n < fuel)%nat ->
  ('(k, len, s) <~ j364_loop fuel k z s ;; r <~ j364_tail k len s ;;
   match r with inl v => Ok v | inr s => let '(a, b, c) := final2 (final1 s) in Ok (c, b) end) = beyond n z.
Proof.
  induction n as [n IH] using lt_wf_ind. intros fuel k z s Hl Hz Hf. destruct fuel as [|fuel]; [lia|]. cbn [j364_loop].
  destruct (Z.ltb_spec 12 z) as [B|B].
  - destruct s as [[a b] c]. destruct (Nat.le_gt_cases 12 n) as [G|G].
    + rewrite !peek_le_ok by lia. cbn [rbind]. rewrite tail_from_ok by lia. cbn [rbind].
      rewrite <- (beyond_step n z) by exact G. apply IH; try lia. rewrite skipn_length. lia.
    + subst n. assert (E : beyond (length k) z = if (length k mod 4 =? 0)%nat then Panics else Overread).
      { unfold beyond. rewrite (Nat.div_small (length k) 12) by lia.
        replace (z <=? 12 * Z.of_nat 0 + 12)%Z with false by (symmetry; apply Z.leb_gt; lia).
        rewrite Bool.andb_false_r, Bool.orb_false_r. reflexivity. }
      rewrite E. clear E IH Hz.
      do 12 (destruct k as [|? k]; [reflexivity|]). cbn [length] in G. lia.
  - cbn [rbind]. subst n. apply j364_tail_beyond; lia.
Qed.
Lemma jenkins364_beyond k z pc pb : (Z.of_nat (length k) < z)%Z -> jenkins364 k z pc pb = beyond (length k) z.
Proof.
  intros H. unfold jenkins364. replace (z =? 0)%Z with false by (symmetry; apply Z.eqb_neq; lia). cbv zeta.
  apply j364_beyond; lia.
Qed.
