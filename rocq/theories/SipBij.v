(** SipHash rounds and block absorption are permutations of the state. *)
From Verif Require Import Words WordLemmas ListLemmas Blocks SLP Bij SipModel SipProofs SipAsmProofs.
Open Scope N_scope.

Definition sst_ok (s : sst) : Prop :=
  let '(v0, v1, v2, v3) := s in fits 64 v0 /\ fits 64 v1 /\ fits 64 v2 /\ fits 64 v3.

Definition enc4 (s : sst) : list N := let '(a, b, c, d) := s in [a; b; c; d].
Definition dec4 (l : list N) : sst := (nth 0 l 0, nth 1 l 0, nth 2 l 0, nth 3 l 0).
Lemma enc4_ok s : sst_ok s -> regs_ok 64 4 (enc4 s).
Proof. destruct s as [[[a b] c] d]. intros (H1 & H2 & H3 & H4). split; [reflexivity|]. repeat constructor; assumption. Qed.
Lemma dec4_ok l : regs_ok 64 4 l -> sst_ok (dec4 l) /\ enc4 (dec4 l) = l.
Proof.
  intros [Hl Hf]. do 4 (destruct l as [|? l]; [discriminate|]). destruct l; [|discriminate].
  inversion Hf as [|? ? F1 G1]; subst. inversion G1 as [|? ? F2 G2]; subst.
  inversion G2 as [|? ? F3 G3]; subst. inversion G3; subst. repeat split; assumption.
Qed.

Lemma sip_round_ok s : sst_ok s -> sst_ok (sip_round s).
Proof.
  destruct s as [[[a b] c] d]. unfold sst_ok, sip_round. intros (H1 & H2 & H3 & H4).
  repeat split; auto 20 using xor_fits', add64_fits, rotl64_fits.
Qed.
Lemma sip_round_bij : bijection_on sst_ok sip_round.
Proof.
  apply (bij_transfer sst_ok (regs_ok 64 4) enc4 dec4 sip_round (exec 64 (round_prog 0 1 2 3))).
  - apply enc4_ok.
  - apply dec4_ok.
  - intros [[[a b] c] d] _. reflexivity.
  - intros [[[a b] c] d] _. reflexivity.
  - apply sip_round_ok.
  - apply exec_bijection. vm_compute. reflexivity.
Qed.

Lemma xor3_bij m : fits 64 m -> bijection_on sst_ok (fun '(v0, v1, v2, v3) => (v0, v1, v2, xor v3 m)).
Proof.
  intros Hm. apply bij_involution; intros [[[a b] c] d] (H1 & H2 & H3 & H4).
  - repeat split; auto using xor_fits'.
  - now rewrite xor_cancel.
Qed.
Lemma xor0_bij m : fits 64 m -> bijection_on sst_ok (fun '(v0, v1, v2, v3) => (xor v0 m, v1, v2, v3)).
Proof.
  intros Hm. apply bij_involution; intros [[[a b] c] d] (H1 & H2 & H3 & H4).
  - repeat split; auto using xor_fits'.
  - now rewrite xor_cancel.
Qed.
Lemma compress_n_bij n m : fits 64 m -> bijection_on sst_ok (fun s => compress_n n s m).
Proof.
  intros Hm.
  pose proof (bij_comp _ _ _ (bij_comp _ _ _ (xor3_bij m Hm) (bij_iter _ _ n sip_round_bij)) (xor0_bij m Hm)) as B.
  eapply bij_ext; [|exact B]. intros [[[a b] c] d] _. reflexivity.
Qed.
Lemma sip_compress_bij m : fits 64 m -> bijection_on sst_ok (fun s => sip_compress s m).
Proof. intros Hm. eapply bij_ext; [|apply (compress_n_bij 2 m Hm)]. intros; apply compress_2. Qed.

Lemma sip_absorb_bij p : bytes_ok p -> bijection_on sst_ok (fun s => fst (absorb 8 sip_block s p)).
Proof.
  induction p as [p Hp|b p Hb IH] using (absorb_ind 8 pos8); intros Hok.
  - eapply bij_ext; [|apply bij_id]. intros s _. now rewrite (absorb_short 8 _ pos8).
  - apply bytes_ok_app in Hok. destruct Hok as [Hb' Hok].
    assert (F : fits 64 (le_load b)) by (apply le_load_fits; auto; rewrite Hb; cbn; lia).
    eapply bij_ext; [|apply (bij_comp _ _ _ (sip_compress_bij (le_load b) F) (IH Hok))].
    intros s _. now rewrite (absorb_block 8 _ pos8).
Qed.

(** Distinct keys give distinct initial states. *)
Lemma sip_iv_inj k0 k1 k0' k1' : sip_iv k0 k1 = sip_iv k0' k1' -> k0 = k0' /\ k1 = k1'.
Proof. unfold sip_iv. intros H. injection H as H1 H2 _ _. split; eapply lxor_inj_r; eassumption. Qed.
Lemma sip_iv_ok k0 k1 : fits 64 k0 -> fits 64 k1 -> sst_ok (sip_iv k0 k1).
Proof. intros H0 H1. repeat split; apply xor_fits'; auto; reflexivity. Qed.

(** ** Statements used by SipProps.v *)
From Coq Require Import ZArith.
From Verif Require Import DigestSpec SipSpec.

Lemma rounds_bij : bijection_on sst_ok sip_round /\ bijection_on sst_ok pg_sipround.
Proof.
  split; [apply sip_round_bij|]. eapply bij_ext; [|apply sip_round_bij].
  intros; symmetry; apply pg_sipround_eq.
Qed.
Lemma sip_keys_never_merge : forall k0 k1 k0' k1' p m n,
  fits 64 k0 -> fits 64 k1 -> fits 64 k0' -> fits 64 k1' -> bytes_ok p -> fits 64 m ->
  (k0, k1) <> (k0', k1') ->
  Nat.iter n sip_round (sip_compress (fst (absorb 8 sip_block (sip_iv k0 k1) p)) m) <>
  Nat.iter n sip_round (sip_compress (fst (absorb 8 sip_block (sip_iv k0' k1') p)) m).
Proof.
  intros k0 k1 k0' k1' p m n H0 H1 H0' H1' Hp Hm Hne E. apply Hne.
  pose proof (bij_comp _ _ _ (sip_absorb_bij p Hp)
               (bij_comp _ _ _ (sip_compress_bij m Hm) (bij_iter _ _ n sip_round_bij))) as B.
  apply (bij_inj _ _ B) in E; [|now apply sip_iv_ok|now apply sip_iv_ok].
  apply sip_iv_inj in E. destruct E; congruence.
Qed.

Lemma sip_stream64 : forall key d chunks,
  sip_new key = Some d -> Forall bytes_ok chunks ->
  sip_history d (map DWrite chunks ++ [DSum64]) =
  map (fun p => OWrote (length p)) chunks ++
  [OWord (sip_hash (le_load (firstn 8 key)) (le_load (firstn 8 (skipn 8 key))) (concat chunks))].
Proof.
  intros key d chunks Hn Hc. rewrite (sip_history64 key d _ Hn) by (apply writes_ok; [assumption|exact I]).
  cbv zeta. now rewrite spec_history_writes.
Qed.
Lemma sip_stream128 : forall key d chunks inp,
  sip_new128 key = Some d -> Forall bytes_ok chunks ->
  sip_history d (map DWrite chunks ++ [DSum inp]) =
  map (fun p => OWrote (length p)) chunks ++
  [OBytes (inp ++ let '(r0, r1) := sip_hash128 (le_load (firstn 8 key)) (le_load (firstn 8 (skipn 8 key))) (concat chunks) in
                  le_store 8 r0 ++ le_store 8 r1)].
Proof.
  intros key d chunks inp Hn Hc. rewrite (sip_history128 key d _ Hn).
  - cbv zeta. rewrite spec_history_writes. cbn [app spec_history].
    now destruct (sip_hash128 _ _ (concat chunks)).
  - apply writes_ok; [assumption|exact I].
  - intros H. apply in_app_or in H. destruct H as [H|[H|[]]]; [|discriminate].
    apply in_map_iff in H. destruct H as (? & ? & _). discriminate.
Qed.
Lemma sip_new_facts : forall size key,
  (sip_new_digest size key = None <-> ~ (size = 8%nat \/ size = 16%nat) \/ (length key < 16)%nat) /\
  (forall d, sip_new_digest size key = Some d -> sip_size d = size /\
     forall inp, firstn (length inp) (sip_sum d inp) = inp /\ length (sip_sum d inp) = (length inp + sip_size d)%nat).
Proof.
  intros size key. split; [apply sip_new_panics|].
  intros d H. apply sip_new_inv in H. destruct H as (Hs & _ & _ & _ & Hd & _).
  unfold sip_size. split; [exact Hd|]. intros inp. unfold sip_sum. rewrite Hd.
  destruct Hs as [-> | ->]; cbn [Nat.eqb].
  - rewrite ListLemmas.firstn_app_exact, app_length, le_store_length by reflexivity. auto.
  - destruct (sip_sum128 d) as [a b].
    rewrite ListLemmas.firstn_app_exact, !app_length, !le_store_length by reflexivity. auto.
Qed.
Lemma pg_agrees : forall inp k, length k = 16%nat -> bytes_ok inp ->
  pg_siphash inp k 2 4 false =
    Some (sip_hash (le_load (firstn 8 k)) (le_load (firstn 8 (skipn 8 k))) inp, 0) /\
  pg_siphash inp k 2 4 true =
    Some (sip_hash128 (le_load (firstn 8 k)) (le_load (firstn 8 (skipn 8 k))) inp).
Proof.
  intros inp k Hk Hok. rewrite !pg_spec by (auto; lia).
  rewrite sip_hash_spec, sip_hash128_spec by assumption. split; reflexivity.
Qed.
Lemma sip_is_spec : forall k0 k1 m, bytes_ok m ->
  sip_hash k0 k1 m = sip_spec 2 4 k0 k1 m /\ sip_hash128 k0 k1 m = sip_spec128 2 4 k0 k1 m.
Proof. intros. split; [now apply sip_hash_spec|now apply sip_hash128_spec]. Qed.

Lemma u64tou8le_eq v : u64tou8le v = le_store 8 v.
Proof.
  unfold u64tou8le. generalize 8%nat as n. intros n. revert v. induction n as [|n IH]; intros v; cbn; auto.
  rewrite IH. f_equal. change 0xFF with (N.ones 8). fold (wrap 8 v). apply wrap_wrap.
Qed.
Lemma le_load_digit p i : bytes_ok p -> (le_load p / 256 ^ N.of_nat i) mod 256 = nth i p 0.
Proof.
  revert i. induction p as [|b p IH]; intros i Hok.
  - cbn [le_load]. rewrite N.div_0_l by (apply N.pow_nonzero; lia). destruct i; reflexivity.
  - pose proof (le_load_cons b p Hok) as ->. inversion Hok as [|? ? Hb Hp]; subst.
    destruct i as [|i]; cbn [nth].
    + cbn [N.of_nat]. rewrite N.pow_0_r, N.div_1_r, N.mul_comm, N.mod_add by lia. now apply N.mod_small.
    + rewrite Nat2N.inj_succ, N.pow_succ_r', <- N.div_div by (try apply N.pow_nonzero; lia).
      replace ((b + 256 * le_load p) / 256) with (le_load p); [now apply IH|].
      rewrite N.mul_comm, N.div_add by lia. rewrite (N.div_small b) by assumption. lia.
Qed.
Lemma le_roundtrip :
  (forall v, fits 64 v -> length (u64tou8le v) = 8%nat /\ bytes_ok (u64tou8le v) /\
     forall rest, u8tou64le (u64tou8le v ++ rest) = Some v) /\
  (forall p v, length p = 8%nat -> bytes_ok p -> u8tou64le p = Some v -> u64tou8le v = p) /\
  (forall p, u8tou64le p = None <-> (length p < 8)%nat) /\
  (forall p, (8 <= length p)%nat -> bytes_ok p ->
     exists v, u8tou64le p = Some v /\ fits 64 v /\
       forall i, (i < 8)%nat -> (v / 256 ^ N.of_nat i) mod 256 = nth i p 0).
Proof.
  unfold u8tou64le. repeat split.
  - rewrite u64tou8le_eq. apply le_store_ok.
  - intros rest. rewrite u64tou8le_eq.
    rewrite load64_some by (rewrite app_length, le_store_length; lia).
    cbn [skipn]. rewrite ListLemmas.firstn_app_exact by apply le_store_length. f_equal. now apply le_load_store.
  - intros p v Hl Hok H. rewrite load64_some in H by lia. change (skipn 0 p) with p in H.
    rewrite (firstn_all2 p) in H by lia. assert (Hv : v = le_load p) by congruence.
    rewrite u64tou8le_eq, Hv.
    rewrite <- Hl. now apply le_store_load.
  - intros H. destruct (Nat.lt_ge_cases (length p) 8); auto. rewrite load64_some in H by lia. discriminate.
  - intros H. unfold load64. rewrite slice_none by lia. reflexivity.
  - intros p Hl Hok. rewrite load64_some by lia. eexists. split; [reflexivity|]. cbn [skipn]. split.
    + apply le_load_firstn_fits; [assumption|cbn; lia].
    + intros i Hi. rewrite le_load_digit by now apply bytes_ok_firstn.
      rewrite <- (firstn_skipn 8 p) at 2. rewrite app_nth1; [reflexivity|]. rewrite firstn_length. lia.
Qed.
