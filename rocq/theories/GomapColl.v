(** gomap: differences that cancel in the next word, whatever the seed. *)
From Coq Require Import NArith List Arith Lia.
From Verif Require Import Words WordLemmas ListLemmas Mem Bij WordBij Blocks SipModel Mm3Spec Mm3Proofs GomapModel GomapSpec GomapProofs CollSpec Mm3Coll.
Import ListNotations.
Open Scope N_scope.
Open Scope list_scope.

Lemma msb_mul w x m : 1 <= w -> N.odd m = true -> fits w x -> (N.lxor x (2 ^ (w - 1)) * m) mod 2 ^ w = N.lxor ((x * m) mod 2 ^ w) (2 ^ (w - 1)).
Proof.
  intros Hw Ho Hx. rewrite (msb w x Hw Hx), (msb w _ Hw (mod_fits w _)).
  assert (Wn : 2 ^ w <> 0) by (apply N.pow_nonzero; lia). assert (E : 2 ^ w = 2 * 2 ^ (w - 1)) by (rewrite <- N.pow_succ_r'; f_equal; lia).
  rewrite N.mul_mod_idemp_l, N.add_mod_idemp_l by assumption. apply N.odd_spec in Ho. destruct Ho as (q & ->).
  replace ((x + 2 ^ (w - 1)) * (2 * q + 1)) with (x * (2 * q + 1) + 2 ^ (w - 1) + q * 2 ^ w) by (rewrite E; lia). now rewrite N.mod_add.
Qed.
(** The top bit turned around. *)
Lemma rot_flip_top w x k : fits w x -> 1 <= k -> k <= w -> rotlw w (N.lxor x (2 ^ (w - 1))) k = N.lxor (rotlw w x k) (2 ^ (k - 1)).
Proof.
  intros Hx H1 Hk. assert (F : fits w (2 ^ (w - 1))) by (unfold fits; apply N.pow_lt_mono_r; lia).
  apply N.bits_inj. intros i. rewrite N.lxor_spec, !rotlw_testbit by (auto with fits). rewrite !N.lxor_spec, !N.pow2_bits_eqb.
  destruct (N.ltb_spec i w); cbn [andb].
  - destruct (N.leb_spec k i).
    + f_equal. destruct (N.eqb_spec (w - 1) (i - k)), (N.eqb_spec (k - 1) i); try reflexivity; lia.
    + f_equal. destruct (N.eqb_spec (w - 1) (i + (w - k))), (N.eqb_spec (k - 1) i); try reflexivity; lia.
  - destruct (N.eqb_spec (k - 1) i); [lia|reflexivity].
Qed.

Section Variant.
  Variable V : variant.
  Hypothesis Hn : W V = 8 * N.of_nat (nb V).
  Hypothesis Hnb : (0 < nb V)%nat.
  Hypothesis Hr1 : 1 <= r1 V < W V.
  Hypothesis Hr2 : 1 <= r2 V < W V.
  Hypothesis Ho1 : N.odd (m1 V) = true.
  Hypothesis Ho2 : N.odd (m2 V) = true.
  Let top := 2 ^ (W V - 1).
  Definition times (w : N) : N := (w * m1 V) mod 2 ^ W V.
  Lemma lane_flip h w y : fits (W V) h -> times y = N.lxor (times w) (2 ^ (W V - 1 - r1 V)) -> lane V h y = N.lxor (lane V h w) top.
  Proof.
    intros Hh E. unfold lane, inject. fold (times y). fold (times w). rewrite E, <- N.lxor_assoc.
    assert (F : fits (W V) (N.lxor h (times w))) by (apply xor_fits; [exact Hh|apply mod_fits]).
    rewrite !rol_rotl by (try apply flip_fits; auto; lia). rewrite rot_flip by (auto; lia).
    replace (r1 V + (W V - 1 - r1 V)) with (W V - 1) by lia. apply msb_mul; [lia|exact Ho2|now apply rotlw_fits].
  Qed.
  Lemma lane_cancel v w y : times y = N.lxor (times w) top -> lane V (N.lxor v top) y = lane V v w.
  Proof.
    intros E. unfold lane, inject. fold (times y). fold (times w). rewrite E. do 2 f_equal.
    rewrite (N.lxor_comm (times w) top), N.lxor_assoc, <- (N.lxor_assoc top top), N.lxor_nilpotent, N.lxor_0_l. reflexivity.
  Qed.
  Lemma times_other x j : fits (W V) x -> j < W V -> exists y, fits (W V) y /\ y <> x /\ times y = N.lxor (times x) (2 ^ j).
  Proof. intros Hx Hj. apply (other_word (W V) times); auto. apply bij_mulmod; [exact Ho1|lia]. Qed.
  Lemma at_store x y r : fits (W V) y -> at_ (x ++ le_store (nb V) y ++ r) (length x) (nb V) = y.
  Proof.
    intros Hy. unfold at_. rewrite (skipn_app_exact (length x)) by reflexivity. rewrite firstn_app_exact by apply le_store_length.
    rewrite le_int_load by apply le_store_ok. apply le_load_store. now rewrite <- Hn.
  Qed.
  (** Two words. *)
  Lemma two_words b : bytes_ok b -> length b = (2 * nb V)%nat -> exists c, bytes_ok c /\ length c = (2 * nb V)%nat /\ c <> b /\
    forall h, fits (W V) h -> inject_all V h [at_ c 0 (nb V); at_ c (nb V) (nb V)] = inject_all V h [at_ b 0 (nb V); at_ b (nb V) (nb V)].
  Proof.
    intros Hb L. assert (F0 : fits (W V) (at_ b 0 (nb V))) by (apply at_fits; [exact Hb|lia]).
    assert (F1 : fits (W V) (at_ b (nb V) (nb V))) by (apply at_fits; [exact Hb|lia]).
    destruct (times_other _ (W V - 1 - r1 V) F0 ltac:(lia)) as (y0 & G0 & N0 & E0).
    destruct (times_other _ (r2 V - 1) F1 ltac:(lia)) as (y1 & G1 & _ & E1).
    exists (le_store (nb V) y0 ++ le_store (nb V) y1). split; [apply bytes_ok_app; split; apply le_store_ok|]. split; [rewrite app_length, !le_store_length; lia|].
    assert (A0 : at_ (le_store (nb V) y0 ++ le_store (nb V) y1) 0 (nb V) = y0) by exact (at_store [] y0 _ G0).
    assert (A1 : at_ (le_store (nb V) y0 ++ le_store (nb V) y1) (nb V) (nb V) = y1).
    { pose proof (at_store (le_store (nb V) y0) y1 [] G1) as A. rewrite le_store_length, app_nil_r in A. exact A. }
    split; [intros <-; rewrite A0 in N0; now apply N0|]. intros h Hh. rewrite A0, A1. cbn [inject_all].
    rewrite (lane_flip h (at_ b 0 (nb V)) y0 Hh E0). unfold inject. fold (times y1). rewrite E1.
    rewrite !rol_rotl by (try apply flip_fits; try apply lane_fits; lia). unfold top. rewrite rot_flip_top by (try apply lane_fits; lia).
    fold (times (at_ b (nb V) (nb V))). set (a := rotlw _ _ _). set (t := times _). set (z := 2 ^ (r2 V - 1)).
    rewrite (N.lxor_comm t z), N.lxor_assoc, <- (N.lxor_assoc z z), N.lxor_nilpotent, N.lxor_0_l. reflexivity.
  Qed.
  (** Two blocks of four words: the first word of each. *)
  Lemma two_blocks b : bytes_ok b -> length b = (8 * nb V)%nat -> exists c, bytes_ok c /\ length c = (8 * nb V)%nat /\ c <> b /\
    forall p r s, (length p mod (4 * nb V) = 0)%nat -> Forall (fits (W V)) s -> absorb (4 * nb V) (lanes V) s (p ++ b ++ r) = absorb (4 * nb V) (lanes V) s (p ++ c ++ r).
  Proof.
    intros Hb L. set (k1 := firstn (4 * nb V) b). set (k2 := skipn (4 * nb V) b). assert (Eb : b = k1 ++ k2) by (symmetry; apply firstn_skipn).
    assert (L1 : length k1 = (4 * nb V)%nat) by (unfold k1; rewrite firstn_length; lia). assert (L2 : length k2 = (4 * nb V)%nat) by (unfold k2; rewrite skipn_length; lia).
    assert (B1 : bytes_ok k1) by now apply bytes_ok_firstn. assert (B2 : bytes_ok k2) by now apply bytes_ok_skipn.
    destruct (times_other (at_ k1 0 (nb V)) (W V - 1 - r1 V)) as (y1 & G1 & N1 & E1); [apply at_fits; [exact B1|lia]|lia|].
    destruct (times_other (at_ k2 0 (nb V)) (W V - 1)) as (y2 & G2 & _ & E2); [apply at_fits; [exact B2|lia]|lia|].
    set (c1 := le_store (nb V) y1 ++ skipn (nb V) k1). set (c2 := le_store (nb V) y2 ++ skipn (nb V) k2).
    assert (M1 : length c1 = (4 * nb V)%nat) by (unfold c1; rewrite app_length, le_store_length, skipn_length; lia).
    assert (M2 : length c2 = (4 * nb V)%nat) by (unfold c2; rewrite app_length, le_store_length, skipn_length; lia).
    assert (A : forall y k i, (nb V <= i)%nat -> at_ (le_store (nb V) y ++ skipn (nb V) k) i (nb V) = at_ k i (nb V)).
    { intros y k i Hi. unfold at_. replace i with (nb V + (i - nb V))%nat by lia. rewrite !skipn_add. rewrite skipn_app_exact by apply le_store_length. reflexivity. }
    exists (c1 ++ c2). split; [unfold c1, c2; repeat (apply bytes_ok_app; split); try apply le_store_ok; now apply bytes_ok_skipn|]. split; [rewrite app_length; lia|]. split.
    { intros E. apply N1. assert (Ec : c1 = k1) by (unfold k1; rewrite <- E, firstn_app_exact by exact M1; reflexivity).
      rewrite <- Ec. symmetry. exact (at_store [] y1 (skipn (nb V) k1) G1). }
    intros p r s Hp Hs. rewrite Eb, <- !app_assoc.
    apply (cancel (4 * nb V) ltac:(lia) (Forall (fits (W V))) (lanes V)); auto.
    { intros v k _. unfold lanes. repeat constructor; apply lane_fits. }
    intros v Hv. unfold lanes. cbn [map nth]. replace (nb V * 0)%nat with 0%nat by lia. unfold c1, c2.
    rewrite (A y1 k1 (nb V * 1)%nat), (A y1 k1 (nb V * 2)%nat), (A y1 k1 (nb V * 3)%nat), (A y2 k2 (nb V * 1)%nat), (A y2 k2 (nb V * 2)%nat), (A y2 k2 (nb V * 3)%nat) by lia.
    f_equal. pose proof (at_store [] y1 (skipn (nb V) k1) G1) as Q1. pose proof (at_store [] y2 (skipn (nb V) k2) G2) as Q2. cbn [app length] in Q1, Q2.
    rewrite Q1, Q2. rewrite (lane_flip (nth 0 v 0) (at_ k1 0 (nb V)) y1).
    - symmetry. now apply lane_cancel.
    - destruct Hv; [unfold fits; cbn [nth]; pose proof (N.pow_nonzero 2 (W V)); lia|assumption].
    - exact E1.
  Qed.
  Lemma body_two rest b : length b = (2 * nb V)%nat -> rest b = [at_ b 0 (nb V); at_ b (nb V) (nb V)] -> forall h, body V rest b h = inject_all V h [at_ b 0 (nb V); at_ b (nb V) (nb V)].
  Proof. intros L E h. unfold body. destruct (Nat.leb_spec (length b) (4 * nb V)); [|lia]. now rewrite E. Qed.
  Lemma body_blocks rest b c p r : length b = (8 * nb V)%nat -> length c = (8 * nb V)%nat -> (length p mod (4 * nb V) = 0)%nat ->
    (forall s, Forall (fits (W V)) s -> absorb (4 * nb V) (lanes V) s (p ++ b ++ r) = absorb (4 * nb V) (lanes V) s (p ++ c ++ r)) ->
    forall h, fits (W V) h -> body V rest (p ++ b ++ r) h = body V rest (p ++ c ++ r) h.
  Proof.
    intros Lb Lc Hp E h Hh. unfold body. destruct (Nat.leb_spec (length (p ++ b ++ r)) (4 * nb V)) as [Q|_]; [rewrite !app_length in Q; lia|].
    destruct (Nat.leb_spec (length (p ++ c ++ r)) (4 * nb V)) as [Q|_]; [rewrite !app_length in Q; lia|].
    set (s := [h; _; _; _]). specialize (E s). rewrite <- !fold_blocks in E by lia.
    destruct (blocks (4 * nb V) (p ++ b ++ r)) as [x y], (blocks (4 * nb V) (p ++ c ++ r)) as [x' y'].
    assert (F : Forall (fits (W V)) s) by (unfold s; repeat (constructor; [exact Hh || apply mod_fits|]); constructor).
    specialize (E F). pose proof (f_equal fst E) as Ef. pose proof (f_equal snd E) as Es. cbn [fst snd] in Ef, Es. now rewrite Ef, Es.
  Qed.
  Lemma start_len k k' seed : length k = length k' -> start V k seed = start V k' seed.
  Proof. intros E. unfold start. now rewrite E. Qed.
End Variant.
