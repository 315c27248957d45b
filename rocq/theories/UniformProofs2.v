(** The three Jenkins hashes: the last whole block of a key enters a permutation of the registers. *)
From Coq Require Import NArith ZArith List Lia Arith.
From Verif Require Import Words Mem WordLemmas ListLemmas Bij Mm3Spec Mm3Proofs JenkinsModel JenkinsSpec JenkinsProofs JenkinsProofs2 UniformSpec UniformProofs.
Import ListNotations.
Open Scope N_scope.

(** A block as three words of [n] bytes, and back. *)
Definition to3 (n : nat) (b : list N) : N * N * N :=
  (le_int (firstn n b), le_int (firstn n (skipn n b)), le_int (firstn n (skipn (n + n) b))).
Definition of3 (n : nat) (t : N * N * N) : list N := let '(x, y, z) := t in le_store n x ++ le_store n y ++ le_store n z.
Lemma le_int_fits l : bytes_ok l -> fits (8 * N.of_nat (length l)) (le_int l).
Proof. intros H. rewrite le_int_load by exact H. apply le_load_fits; [exact H|apply N.le_refl]. Qed.
Lemma to3_ok n b : bytes_ok b -> length b = (3 * n)%nat -> tri_ok (8 * N.of_nat n) (to3 n b).
Proof.
  intros Hb Hl. unfold to3, tri_ok.
  assert (G : forall i, (i + n <= length b)%nat -> fits (8 * N.of_nat n) (le_int (firstn n (skipn i b)))).
  { intros i Hi. pose proof (le_int_fits (firstn n (skipn i b))) as F. rewrite firstn_length_le in F by (rewrite skipn_length; lia).
    apply F. apply bytes_ok_firstn, bytes_ok_skipn, Hb. }
  split; [apply (G 0%nat); lia|]. split; apply G; lia.
Qed.
Lemma of3_to3 n b : bytes_ok b -> length b = (3 * n)%nat -> of3 n (to3 n b) = b.
Proof.
  intros Hb Hl. unfold of3, to3.
  assert (G : forall i, (i + n <= length b)%nat -> le_store n (le_int (firstn n (skipn i b))) = firstn n (skipn i b)).
  { intros i Hi. assert (O : bytes_ok (firstn n (skipn i b))) by (apply bytes_ok_firstn, bytes_ok_skipn, Hb).
    rewrite le_int_load by exact O. rewrite <- (firstn_length_le (skipn i b) (n := n)) at 1 by (rewrite skipn_length; lia).
    now apply le_store_load. }
  pose proof (G 0%nat ltac:(lia)) as G0. cbn [skipn] in G0. rewrite G0, !G by lia.
  rewrite <- (firstn_skipn n b) at 4. f_equal. rewrite <- (firstn_skipn n (skipn n b)) at 2. f_equal.
  rewrite <- skipn_add. apply firstn_all2. rewrite skipn_length. lia.
Qed.
Lemma of3_ok n t : length (of3 n t) = (3 * n)%nat /\ bytes_ok (of3 n t).
Proof.
  destruct t as [[x y] z]. unfold of3. split; [rewrite !app_length, !le_store_length; lia|].
  unfold bytes_ok. rewrite !Forall_app. split; [|split]; apply le_store_ok.
Qed.
Lemma to3_of3 n t : tri_ok (8 * N.of_nat n) t -> to3 n (of3 n t) = t.
Proof.
  destruct t as [[x y] z]. intros (Hx & Hy & Hz). unfold to3, of3.
  assert (G : forall v, fits (8 * N.of_nat n) v -> le_int (le_store n v) = v).
  { intros v Hv. rewrite le_int_load by apply le_store_ok. now apply le_load_store. }
  rewrite firstn_app_exact by apply le_store_length.
  rewrite skipn_app_exact by apply le_store_length. rewrite firstn_app_exact by apply le_store_length.
  rewrite app_assoc. rewrite skipn_app_exact by (rewrite app_length, !le_store_length; reflexivity).
  rewrite firstn_all2 by (rewrite le_store_length; lia). now rewrite !G.
Qed.

(** If the hash is [out] of a permutation of the words of the block, and the triples with a given
    [out] are described by strings of [r] bytes, the hash is even. *)
Lemma even_tri n r W (F : tri -> tri) (out : tri -> N) (mk : N -> list N -> tri) h :
  8 * N.of_nat (3 * n) = W + 8 * N.of_nat r ->
  bijection_on (tri_ok (8 * N.of_nat n)) F ->
  (forall b, length b = (3 * n)%nat -> bytes_ok b -> h b = Some (out (F (to3 n b)))) ->
  (forall v x, v < 2 ^ W -> length x = r -> bytes_ok x -> tri_ok (8 * N.of_nat n) (mk v x) /\ out (mk v x) = v) ->
  (forall v x y, length x = r -> bytes_ok x -> length y = r -> bytes_ok y -> mk v x = mk v y -> x = y) ->
  (forall t, tri_ok (8 * N.of_nat n) t -> exists x, length x = r /\ bytes_ok x /\ mk (out t) x = t) ->
  even (3 * n) W h.
Proof.
  intros E [F1 [G F2]] Hh M1 M2 M3. apply (even_param _ r); [exact E|]. intros v Hv.
  exists (fun x => of3 n (G (mk v x))).
  assert (K : forall x, In x (all_keys r) -> tri_ok (8 * N.of_nat n) (mk v x) /\ out (mk v x) = v).
  { intros x Hx. apply in_all_keys in Hx. apply M1; tauto. }
  split; [|split].
  - intros x Hx. destruct (K x Hx) as [K1 K2]. destruct (F2 _ K1) as (G1 & _ & G3).
    destruct (of3_ok n (G (mk v x))) as [L O]. split; [now apply in_all_keys|].
    rewrite Hh by assumption. rewrite to3_of3 by exact G1. now rewrite G3, K2.
  - intros x y Hx Hy Exy. destruct (K x Hx) as [K1 _]. destruct (K y Hy) as [K1' _].
    destruct (F2 _ K1) as (Gx & _ & Gx3). destruct (F2 _ K1') as (Gy & _ & Gy3).
    apply (f_equal (to3 n)) in Exy. rewrite !to3_of3 in Exy by assumption.
    apply in_all_keys in Hx, Hy. apply (M2 v); try tauto. congruence.
  - intros b Hb Eb. apply in_all_keys in Hb. destruct Hb as [L O]. rewrite Hh in Eb by assumption. injection Eb as Eb.
    pose proof (to3_ok n b O L) as T. destruct (M3 _ (F1 _ T)) as (x & X1 & X2 & X3).
    exists x. split; [now apply in_all_keys|]. rewrite Eb in X3. rewrite X3.
    destruct (F2 _ T) as (_ & -> & _). now apply of3_to3.
Qed.
(** The two ways the results are taken: words c and b together, or c alone. *)
Lemma mk_pair_ok n v x : fits (8 * N.of_nat (n + n)) v -> length x = n -> bytes_ok x ->
  tri_ok (8 * N.of_nat n) (le_int x, v / 2 ^ (8 * N.of_nat n), v mod 2 ^ (8 * N.of_nat n)).
Proof.
  intros Hv <- Hx. split; [|split].
  - now apply le_int_fits.
  - apply N.div_lt_upper_bound; [apply pow2_nz|]. rewrite <- N.pow_add_r. unfold fits in Hv. eapply N.lt_le_trans; [exact Hv|].
    apply N.pow_le_mono_r; lia.
  - apply N.mod_lt, pow2_nz.
Qed.
Lemma le_int_inj x y : length x = length y -> bytes_ok x -> bytes_ok y -> le_int x = le_int y -> x = y.
Proof.
  intros L Hx Hy E. rewrite !le_int_load in E by assumption.
  rewrite <- (le_store_load x Hx), <- (le_store_load y Hy), L, E. reflexivity.
Qed.
Lemma le_int_of n v : fits (8 * N.of_nat n) v -> le_int (le_store n v) = v.
Proof. intros Hv. rewrite le_int_load by apply le_store_ok. now apply le_load_store. Qed.
Lemma even_pair n (F : tri -> tri) h : bijection_on (tri_ok (8 * N.of_nat n)) F ->
  (forall b, length b = (3 * n)%nat -> bytes_ok b ->
     h b = Some (let '(_, y, z) := F (to3 n b) in z + 2 ^ (8 * N.of_nat n) * y)) ->
  even (3 * n) (8 * N.of_nat (n + n)) h.
Proof.
  intros BF Hh.
  apply (even_tri n n _ F (fun t => let '(_, y, z) := t in z + 2 ^ (8 * N.of_nat n) * y)
           (fun v x => (le_int x, v / 2 ^ (8 * N.of_nat n), v mod 2 ^ (8 * N.of_nat n)))); auto.
  - lia.
  - intros v x Hv Hl Hx. split; [now apply mk_pair_ok|]. pose proof (N.div_mod v (2 ^ (8 * N.of_nat n)) (pow2_nz _)). lia.
  - intros v x y <- Hx Hl Hy E. injection E as E. now apply le_int_inj.
  - intros [[x y] z] (Hx & Hy & Hz). exists (le_store n x). split; [apply le_store_length|]. split; [apply le_store_ok|].
    rewrite le_int_of by exact Hx. rewrite (N.mul_comm (2 ^ _) y), N.div_add, N.mod_add by apply pow2_nz.
    rewrite N.div_small, N.mod_small by assumption. reflexivity.
Qed.
Lemma even_single n (F : tri -> tri) h : bijection_on (tri_ok (8 * N.of_nat n)) F ->
  (forall b, length b = (3 * n)%nat -> bytes_ok b -> h b = Some (snd (F (to3 n b)))) ->
  even (3 * n) (8 * N.of_nat n) h.
Proof.
  intros BF Hh.
  apply (even_tri n (n + n) _ F snd (fun v x => (le_int (firstn n x), le_int (skipn n x), v))); auto.
  - lia.
  - intros v x Hv Hl Hx. split; [|reflexivity]. split; [|split; [|exact Hv]].
    + pose proof (le_int_fits (firstn n x)) as G. rewrite firstn_length_le in G by lia. now apply G, bytes_ok_firstn.
    + pose proof (le_int_fits (skipn n x)) as G. rewrite skipn_length in G. replace (length x - n)%nat with n in G by lia.
      now apply G, bytes_ok_skipn.
  - intros v x y Hl Hx Hl' Hy E. injection E as E1 E2.
    apply le_int_inj in E1; [|rewrite !firstn_length; lia|now apply bytes_ok_firstn|now apply bytes_ok_firstn].
    apply le_int_inj in E2; [|rewrite !skipn_length; lia|now apply bytes_ok_skipn|now apply bytes_ok_skipn].
    rewrite <- (firstn_skipn n x), <- (firstn_skipn n y). congruence.
  - intros [[x y] z] (Hx & Hy & Hz). exists (le_store n x ++ le_store n y).
    split; [rewrite app_length, !le_store_length; reflexivity|]. split; [unfold bytes_ok; rewrite Forall_app; split; apply le_store_ok|].
    rewrite firstn_app_exact, skipn_app_exact by apply le_store_length. now rewrite !le_int_of.
Qed.

(** Adding the block is a permutation. *)
Lemma add3_bij w s : tri_ok w s ->
  bijection_on (tri_ok w) (fun t => let '(a, b, c) := s in let '(x, y, z) := t in (madd w a x, madd w b y, madd w c z)).
Proof.
  destruct s as [[a b] c]. intros (Ha & Hb & Hc).
  assert (P : forall x : N, x mod 2 ^ w < 2 ^ w) by (intros; apply N.mod_lt, pow2_nz).
  assert (Q : forall p x, fits w p -> fits w x -> ((x + (2 ^ w - p)) mod 2 ^ w + p) mod 2 ^ w = x).
  { intros p x Hp Hx. rewrite N.add_mod_idemp_l by apply pow2_nz. unfold fits in *. replace (x + (2 ^ w - p) + p) with (x + 1 * 2 ^ w) by lia.
    rewrite N.mod_add by apply pow2_nz. now apply N.mod_small. }
  assert (R : forall p x, fits w p -> fits w x -> ((p + x) mod 2 ^ w + (2 ^ w - p)) mod 2 ^ w = x).
  { intros p x Hp Hx. rewrite N.add_mod_idemp_l by apply pow2_nz. unfold fits in *. replace (p + x + (2 ^ w - p)) with (x + 1 * 2 ^ w) by lia.
    rewrite N.mod_add by apply pow2_nz. now apply N.mod_small. }
  apply (bij_inverse _ _ (fun t => let '(x, y, z) := t in
    ((x + (2 ^ w - a)) mod 2 ^ w, (y + (2 ^ w - b)) mod 2 ^ w, (z + (2 ^ w - c)) mod 2 ^ w))).
  - intros [[x y] z] _. unfold madd. repeat split; apply P.
  - intros [[x y] z] _. repeat split; apply P.
  - intros [[x y] z] (Hx & Hy & Hz). unfold madd. now rewrite !R.
  - intros [[x y] z] (Hx & Hy & Hz). unfold madd. rewrite (N.add_comm a), (N.add_comm b), (N.add_comm c). now rewrite !Q.
Qed.
Lemma add_block_to3 w n s b : add_block w n s b = (let '(a, b', c) := s in let '(x, y, z) := to3 n b in (madd w a x, madd w b' y, madd w c z)).
Proof. destruct s as [[a b'] c]. reflexivity. Qed.

(** ** lookup3 *)
Lemma l3_last p : forall fuel s, (length p mod 12 = 0)%nat -> (length p + 12 <= fuel)%nat -> bytes_ok p -> tri_ok 32 s ->
  exists s', tri_ok 32 s' /\ forall b, length b = 12%nat -> bytes_ok b -> l3_run fuel s (p ++ b) = l3_final (add_block 32 4 s' b).
Proof.
  remember (length p) as n eqn:En. revert p En. induction n as [n IH] using lt_wf_ind. intros p En fuel s Hm Hf Hp Hs.
  destruct fuel as [|fuel]; [lia|].
  destruct (Nat.eq_dec n 0) as [Z|NZ].
  - destruct p as [|]; [|cbn in En; lia]. exists s. split; [exact Hs|]. intros b Hb Ob. cbn [app l3_run]. rewrite Hb.
    cbn [Nat.leb]. unfold pad0. rewrite Hb. cbn [Nat.sub repeat]. now rewrite app_nil_r.
  - assert (12 <= n)%nat by (pose proof (Nat.div_mod n 12 ltac:(lia)); nia).
    destruct (IH (n - 12)%nat ltac:(lia) (skipn 12 p) ltac:(rewrite skipn_length; lia) fuel (l3_mix (add_block 32 4 s (firstn 12 p))))
      as (s' & Hs' & R).
    + replace n with (n - 12 + 1 * 12)%nat in Hm by lia. now rewrite Nat.mod_add in Hm by lia.
    + lia.
    + now apply bytes_ok_skipn.
    + rewrite l3_mix_eq by apply add_block_ok32. apply mix12_bij. apply add_block_ok32.
    + exists s'. split; [exact Hs'|]. intros b Hb Ob. cbn [l3_run].
      replace (length (p ++ b) <=? 12)%nat with false by (symmetry; apply Nat.leb_gt; rewrite app_length; lia).
      rewrite firstn_app, skipn_app. replace (12 - length p)%nat with 0%nat by lia. cbn [firstn skipn]. rewrite app_nil_r. now apply R.
Qed.
Lemma even_lookup3 p pc pb : bytes_ok p -> (length p mod 12 = 0)%nat ->
  even 12 64 (fun b => Some (word64_of (lookup3 (p ++ b) pc pb))).
Proof.
  intros Hp Hm. set (i := (0xdeadbeef + N.of_nat (length p + 12) + pc) mod 2 ^ 32).
  destruct (l3_last p (length p + 12) (i, i, (i + pb) mod 2 ^ 32)) as (s' & Hs & R); auto.
  { repeat split; apply N.mod_lt; discriminate. }
  change 12%nat with (3 * 4)%nat. change 64 with (8 * N.of_nat (4 + 4)).
  apply (even_pair 4 (fun t => l3_final (let '(a, b, c) := s' in let '(x, y, z) := t in (madd 32 a x, madd 32 b y, madd 32 c z)))).
  - change (8 * N.of_nat 4) with 32. apply (bij_comp _ _ l3_final (add3_bij 32 s' Hs)).
    apply (bij_ext _ final12); [intros x Hx; symmetry; now apply l3_final_eq|exact final12_bij].
  - intros b Hb Ob. rewrite <- add_block_to3, <- R by assumption. unfold lookup3. rewrite app_length, Hb. fold i.
    change (4 + (4 + 4))%nat with 12%nat. destruct (p ++ b) eqn:E; [destruct p, b; discriminate|]. rewrite <- E.
    cbv zeta. change (3 * 4)%nat with 12%nat. destruct (l3_run (length p + 12) _ (p ++ b)) as [[x y] z]. reflexivity.
Qed.

(** ** lookup2 and its 64-bit relative *)
Lemma blocks_last B p b : (0 < B)%nat -> (length p mod B = 0)%nat -> length b = B ->
  blocks B (p ++ b) = (fst (blocks B p) ++ [b], []).
Proof.
  intros HB Hm Hb. unfold blocks.
  assert (G : forall n fuel fuel' p, length p = n -> (n mod B = 0)%nat -> (n + B <= fuel)%nat -> (n <= fuel')%nat ->
    cut fuel B (p ++ b) = (fst (cut fuel' B p) ++ [b], [])).
  { clear p Hm. induction n as [n IH] using lt_wf_ind. intros fuel fuel' p Hl Hm Hf Hf'. destruct fuel as [|fuel]; [lia|].
    cbn [cut]. replace (length (p ++ b) <? B)%nat with false by (symmetry; apply Nat.ltb_ge; rewrite app_length; lia).
    destruct (Nat.eq_dec n 0) as [Z|NZ].
    - destruct p; [|cbn in Hl; lia]. cbn [app]. rewrite <- Hb, firstn_all, skipn_all. rewrite Hb.
      destruct fuel' as [|fuel']; destruct fuel as [|fuel]; cbn [cut length fst app]; rewrite ?(proj2 (Nat.ltb_lt 0 B) HB); reflexivity.
    - assert (B <= n)%nat by (destruct (Nat.lt_ge_cases n B) as [C|C]; [rewrite Nat.mod_small in Hm by exact C; lia|exact C]). destruct fuel' as [|fuel']; [lia|].
      cbn [cut]. replace (length p <? B)%nat with false by (symmetry; apply Nat.ltb_ge; lia).
      rewrite firstn_app, skipn_app. replace (B - length p)%nat with 0%nat by lia. cbn [firstn skipn]. rewrite app_nil_r.
      rewrite (IH (n - B)%nat ltac:(lia) fuel fuel' (skipn B p)); try lia.
      + destruct (cut fuel' B (skipn B p)). reflexivity.
      + rewrite skipn_length. lia.
      + replace n with (n - B + 1 * B)%nat in Hm by lia. now rewrite Nat.mod_add in Hm by lia. }
  apply (G (length p)); rewrite ?app_length; lia.
Qed.
Lemma even_lookup2 x y p seed : bytes_ok p -> (length p mod 12 = 0)%nat -> fits 32 seed ->
  even 12 32 (fun b => Some (lookup2_gen x y (p ++ b) seed)).
Proof.
  intros Hp Hm Hseed. set (s' := fold_left (fun s b => l2_mix (add_block 32 4 s b)) (fst (blocks 12 p)) (0x9e3779b9, 0x9e3779b9, seed)).
  assert (Hs : tri_ok 32 s').
  { unfold s'. generalize (fst (blocks 12 p)). intros l.
    assert (S0 : tri_ok 32 (0x9e3779b9, 0x9e3779b9, seed)) by (split; [reflexivity|split; [reflexivity|exact Hseed]]).
    revert S0. generalize (0x9e3779b9, 0x9e3779b9, seed). induction l as [|b l IH]; intros s S0; [exact S0|].
    cbn [fold_left]. apply IH. rewrite l2_mix_eq. apply mix32_bij, add_block_ok32. }
  set (n := N.of_nat (if x then length p + 12 else 0)%nat).
  change 12%nat with (3 * 4)%nat. change 32 with (8 * N.of_nat 4).
  apply (even_single 4 (fun t => l2_mix (l2_last y (l2_mix (let '(a, b, c) := s' in let '(x, y, z) := t in (madd 32 a x, madd 32 b y, madd 32 c z))) n []))).
  - change (8 * N.of_nat 4) with 32.
    assert (M : bijection_on (tri_ok 32) l2_mix) by (apply (bij_ext _ mix32); [intros; symmetry; apply l2_mix_eq|exact mix32_bij]).
    apply (bij_comp _ (fun t => l2_last y (l2_mix (let '(a, b, c) := s' in let '(x, y, z) := t in (madd 32 a x, madd 32 b y, madd 32 c z))) n []) l2_mix); [|exact M].
    apply (bij_comp _ (fun t => l2_mix (let '(a, b, c) := s' in let '(x, y, z) := t in (madd 32 a x, madd 32 b y, madd 32 c z))) (fun t => l2_last y t n [])).
    { exact (bij_comp _ _ l2_mix (add3_bij 32 s' Hs) M). }
    apply (bij_ext _ (fun t => let '(a, b, c) := (0, 0, n mod 2 ^ 32) in let '(x, y, z) := t in (madd 32 a x, madd 32 b y, madd 32 c z))).
    2:{ apply (add3_bij 32 (0, 0, n mod 2 ^ 32)). split; [reflexivity|split; [reflexivity|apply N.mod_lt; discriminate]]. }
    intros [[u v] w] (Hu & Hv & Hw). cbn [l2_last pad0 app length Nat.sub repeat nth firstn skipn le_int].
    unfold madd. rewrite !N.mul_0_r, !N.add_0_r, !N.add_0_l. rewrite !(N.add_comm (n mod 2 ^ 32)), N.add_mod_idemp_r by discriminate.
    unfold fits in *. rewrite !(N.mod_small u), !(N.mod_small v) by assumption. destruct y; [reflexivity|].
    now rewrite N.mod_mod by discriminate.
  - intros b Hb Ob. unfold lookup2_gen. change (3 * 4)%nat with 12%nat in Hb. rewrite (blocks_last 12) by (assumption || lia). rewrite fold_left_app. cbn [fold_left].
    fold s'. rewrite add_block_to3. f_equal. do 3 f_equal. unfold n. destruct x; [rewrite app_length, Hb|]; reflexivity.
Qed.
Lemma even_lookup8v p seed : bytes_ok p -> (length p mod 24 = 0)%nat -> fits 64 seed ->
  even 24 64 (fun b => Some (lookup8v (p ++ b) seed)).
Proof.
  intros Hp Hm Hseed. set (s' := fold_left (fun s b => l8_mix (add_block 64 8 s b)) (fst (blocks 24 p)) (0x9e3779b97f4a7c13, 0x9e3779b97f4a7c13, seed)).
  assert (Hs : tri_ok 64 s').
  { unfold s'. generalize (fst (blocks 24 p)). intros l.
    assert (S0 : tri_ok 64 (0x9e3779b97f4a7c13, 0x9e3779b97f4a7c13, seed)) by (split; [reflexivity|split; [reflexivity|exact Hseed]]).
    revert S0. generalize (0x9e3779b97f4a7c13, 0x9e3779b97f4a7c13, seed). induction l as [|b l IH]; intros s S0; [exact S0|].
    cbn [fold_left]. apply IH. rewrite l8_mix_eq. apply mix64alt_bij, add_block_ok64. }
  change 24%nat with (3 * 8)%nat. change 64 with (8 * N.of_nat 8).
  apply (even_single 8 (fun t => l8_mix (l8_last (l8_mix (let '(a, b, c) := s' in let '(x, y, z) := t in (madd 64 a x, madd 64 b y, madd 64 c z))) 0 []))).
  - change (8 * N.of_nat 8) with 64.
    assert (M : bijection_on (tri_ok 64) l8_mix) by (apply (bij_ext _ mix64alt); [intros; symmetry; apply l8_mix_eq|exact mix64alt_bij]).
    apply (bij_comp _ (fun t => l8_last (l8_mix (let '(a, b, c) := s' in let '(x, y, z) := t in (madd 64 a x, madd 64 b y, madd 64 c z))) 0 []) l8_mix); [|exact M].
    apply (bij_ext _ (fun t => l8_mix (let '(a, b, c) := s' in let '(x, y, z) := t in (madd 64 a x, madd 64 b y, madd 64 c z)))).
    2:{ exact (bij_comp _ _ l8_mix (add3_bij 64 s' Hs) M). }
    intros t Ht. pose proof (proj1 M _ (proj1 (add3_bij 64 s' Hs) t Ht)) as G. cbv beta in G.
    destruct (l8_mix _) as [[u v] w]. destruct G as (Hu & Hv & Hw). cbn [l8_last pad0 app length Nat.sub repeat firstn skipn le_int].
    unfold madd. rewrite !N.mul_0_r, !N.add_0_r. unfold fits in *. now rewrite !N.mod_small.
  - intros b Hb Ob. unfold lookup8v. change (3 * 8)%nat with 24%nat in Hb. rewrite (blocks_last 24) by (assumption || lia). rewrite fold_left_app. cbn [fold_left].
    fold s'. rewrite add_block_to3. reflexivity.
Qed.
