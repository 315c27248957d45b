(** Keys whose length is 4 modulo 8: how rarely Hash64_1 gives the published
    MetroHash. *)
From Verif Require Import Words WordLemmas ListLemmas Blocks Mem Mm3Spec Mm3Proofs MetroModel MetroSpec MetroProofs MetroMore.
Open Scope N_scope.

(** ** The published function of the last byte *)
Lemma piece_rest_ok t n r : bytes_ok r -> bytes_ok (snd (piece t n r)).
Proof. intros H. unfold piece. destruct (t <=? length r)%nat; cbn [snd]; auto using bytes_ok_skipn. Qed.
Lemma metro64_last P p seed : bytes_ok p -> (length p mod 8 = 3)%nat -> exists a b c h, bytes_ok [a; b; c] /\ forall x,
  metro64 P (p ++ [x]) seed = m64_final P (m64_small P (r4 P) [a; b; c; x] h).
Proof.
  intros Hp H. pose proof (mod8_mod32 _ H) as M.
  pose proof (rest_length p) as L. pose proof (rest8 p) as L8. pose proof (blocks_ok 32 p pos32 Hp) as Br.
  assert (S : forall x, blocks 32 (p ++ [x]) = (fst (blocks 32 p), snd (blocks 32 p) ++ [x])) by (intros x; apply blocks_snoc; lia).
  unfold metro64, metro64_gen.
  destruct (blocks 32 p) as [bs r]. cbn [fst snd] in *. destruct Br as (_ & Br & _).
  pose proof (piece_rest_mod 16 r ltac:(lia) ltac:(lia)) as L1.
  assert (S16 : forall x, piece 16 16 (r ++ [x]) = (fst (piece 16 16 r), snd (piece 16 16 r) ++ [x])) by (intros x; apply piece_snoc; lia).
  pose proof (piece_rest_ok 16 16 r Br) as B1.
  destruct (piece 16 16 r) as [p1 r1']. cbn [fst snd] in *.
  assert (L1' : (length r1' = 3 \/ length r1' = 11)%nat).
  { rewrite L1, L. destruct M as [-> | [-> | [-> | ->]]]; cbn; auto. }
  assert (S8 : forall x, piece 8 8 (r1' ++ [x]) = (fst (piece 8 8 r1'), snd (piece 8 8 r1') ++ [x])) by (intros x; apply piece_snoc; lia).
  pose proof (piece_rest_ok 8 8 r1' B1) as B2.
  destruct (piece 8 8 r1') as [p2 r2']. cbn [fst snd] in *. rewrite H in L8.
  destruct r2' as [|a [|b [|c [|? ?]]]]; try discriminate L8.
  exists a, b, c. eexists. split; [exact B2|]. intros x. rewrite S. rewrite app_length. cbn [length]. unfold m64_pieces. rewrite S16, S8. reflexivity.
Qed.

(** ** Agreement of the low bits *)
Lemma low_bits k a b : a mod 2 ^ k = b mod 2 ^ k <-> forall i, i < k -> N.testbit a i = N.testbit b i.
Proof.
  split; intros H.
  - intros i Hi. rewrite <- (N.mod_pow2_bits_low a k i), <- (N.mod_pow2_bits_low b k i) by assumption. now rewrite H.
  - apply N.bits_inj. intros i. destruct (N.lt_ge_cases i k) as [L|G].
    + rewrite !N.mod_pow2_bits_low by assumption. auto.
    + now rewrite !N.mod_pow2_bits_high by assumption.
Qed.
Lemma low_le k k' a b : k <= k' -> a mod 2 ^ k' = b mod 2 ^ k' -> a mod 2 ^ k = b mod 2 ^ k.
Proof. intros Hk. rewrite !low_bits. intros H i Hi. apply H. lia. Qed.
Lemma low_mul k a b c d : (c * d) mod 2 ^ k = 1 -> (a * c) mod 2 ^ k = (b * c) mod 2 ^ k -> a mod 2 ^ k = b mod 2 ^ k.
Proof.
  intros E H. assert (Z : 2 ^ k <> 0) by apply pow2_nz.
  assert (X : forall a, a mod 2 ^ k = ((a * c) mod 2 ^ k * d) mod 2 ^ k).
  { intros x. rewrite N.mul_mod_idemp_l by assumption. rewrite <- N.mul_assoc, <- (N.mul_mod_idemp_r x) by assumption. rewrite E, N.mul_1_r. reflexivity. }
  rewrite (X a), (X b), H. reflexivity.
Qed.
Lemma wrap_low k w x : k <= w -> (wrap w x) mod 2 ^ k = x mod 2 ^ k.
Proof. intros H. rewrite wrap_mod. apply low_bits. intros i Hi. apply N.mod_pow2_bits_low. lia. Qed.

(** The step that takes in four bytes separates last bytes within its low 17 bits. *)
Definition taken (a b c x h : N) : N := add64 h (mul64 (le_load [a; b; c; x]) 0x2F5870A5).
Lemma load4 a b c x : bytes_ok [a; b; c] -> x < 256 -> le_load [a; b; c; x] = le_load [a; b; c] + 2 ^ 24 * x /\ le_load [a; b; c; x] < 2 ^ 32.
Proof.
  intros H Hx. assert (H4 : bytes_ok [a; b; c; x]).
  { unfold bytes_ok in *. inversion H as [|? ? Ha H1]; subst. inversion H1 as [|? ? Hb H2]; subst. inversion H2 as [|? ? Hc H3]; subst. repeat constructor; assumption. }
  split; [|apply (le_load_fits _ 32 H4); cbn; lia].
  assert (T1 : bytes_ok [b; c; x]) by (now inversion H4). assert (T2 : bytes_ok [c; x]) by (now inversion T1). assert (T3 : bytes_ok [x]) by (now inversion T2).
  assert (U1 : bytes_ok [b; c]) by (now inversion H). assert (U2 : bytes_ok [c]) by (now inversion U1).
  rewrite !le_load_cons by assumption. cbn [le_load]. change (2 ^ 24) with 16777216. lia.
Qed.
Lemma add_cancel m h u v : m <> 0 -> (h + u) mod m = (h + v) mod m -> u mod m = v mod m.
Proof.
  intros Hm E. pose proof (N.mod_lt h m Hm) as B.
  assert (X : forall u, u mod m = ((h + u) mod m + (m - h mod m)) mod m).
  { intros w. rewrite N.add_mod_idemp_l by assumption. rewrite (N.div_mod h m Hm) at 1.
    replace (m * (h / m) + h mod m + w + (m - h mod m)) with (w + (h / m + 1) * m) by lia. now rewrite N.mod_add. }
  rewrite (X u), (X v), E. reflexivity.
Qed.
Lemma taken_mod k a b c x h : k <= 64 -> taken a b c x h mod 2 ^ k = (h + le_load [a; b; c; x] * 0x2F5870A5) mod 2 ^ k.
Proof.
  intros H. unfold taken, add64, addw. rewrite wrap_low by assumption.
  rewrite <- N.add_mod_idemp_r by apply pow2_nz. unfold mul64, mulw. rewrite wrap_low by assumption. now rewrite N.add_mod_idemp_r by apply pow2_nz.
Qed.
Lemma taken_low a b c h x y : bytes_ok [a; b; c] -> x < 256 -> y < 256 -> taken a b c x h mod 2 ^ 24 = taken a b c y h mod 2 ^ 24.
Proof.
  intros H Hx Hy. rewrite !taken_mod by lia. destruct (load4 a b c x H Hx) as (-> & _). destruct (load4 a b c y H Hy) as (-> & _).
  set (l := le_load [a; b; c]). set (K := 0x2F5870A5).
  assert (X : forall z, (h + (l + 2 ^ 24 * z) * K) mod 2 ^ 24 = (h + l * K) mod 2 ^ 24).
  { intros z. replace (h + (l + 2 ^ 24 * z) * K) with (h + l * K + z * K * 2 ^ 24) by ring. apply N.mod_add, pow2_nz. }
  now rewrite !X.
Qed.
Lemma taken_inj a b c h x y : bytes_ok [a; b; c] -> x < 256 -> y < 256 -> taken a b c x h mod 2 ^ 32 = taken a b c y h mod 2 ^ 32 -> x = y.
Proof.
  intros H Hx Hy. rewrite !taken_mod by lia. intros E. apply add_cancel in E; [|apply pow2_nz].
  apply (low_mul 32 _ _ _ 0xada1f72d) in E; [|reflexivity].
  destruct (load4 a b c x H Hx) as (Ex & Bx). destruct (load4 a b c y H Hy) as (Ey & By). rewrite !N.mod_small in E by assumption.
  rewrite Ex, Ey in E. change (2 ^ 24) with 16777216 in E. lia.
Qed.
Definition stirred (t : N) : N := xor t (mul64 (rotr64 t 15) 0x8648DBDB).
Lemma taken_fits a b c x h : fits 64 (taken a b c x h).
Proof. apply add64_fits. Qed.
Lemma rot_low k t u : fits 64 t -> fits 64 u -> k <= 49 ->
  (forall i, 15 <= i < 15 + k -> N.testbit t i = N.testbit u i) <-> rotr64 t 15 mod 2 ^ k = rotr64 u 15 mod 2 ^ k.
Proof.
  intros Ht Hu Hk. rewrite low_bits. unfold rotr64.
  assert (R : forall z i, fits 64 z -> i < k -> N.testbit (rotrw 64 z 15) i = N.testbit z (i + 15)).
  { intros z i Hz Hi. rewrite rotrw_testbit by (auto; lia). destruct (N.ltb_spec i 64); [|lia]. destruct (N.ltb_spec (i + 15) 64); [|lia]. reflexivity. }
  split; intros H i Hi.
  - rewrite !R by assumption. apply H. lia.
  - specialize (H (i - 15) ltac:(lia)). rewrite !R in H by (auto; lia). now replace (i - 15 + 15) with i in H by lia.
Qed.
Lemma stirred_inj a b c h x y : bytes_ok [a; b; c] -> x < 256 -> y < 256 ->
  stirred (taken a b c x h) mod 2 ^ 17 = stirred (taken a b c y h) mod 2 ^ 17 -> x = y.
Proof.
  intros H Hx Hy E. apply (taken_inj a b c h x y H Hx Hy). pose proof (taken_low a b c h x y H Hx Hy) as L.
  pose proof (taken_fits a b c x h) as F. pose proof (taken_fits a b c y h) as G.
  set (t := taken a b c x h) in *. set (u := taken a b c y h) in *. clearbody t u.
  rewrite low_bits in L. rewrite low_bits. intros i Hi. destruct (N.lt_ge_cases i 24) as [Li|Gi]; [now apply L|].
  revert i Hi Gi. assert (R : rotr64 t 15 mod 2 ^ 17 = rotr64 u 15 mod 2 ^ 17).
  { apply (low_mul 17 _ _ 0x8648DBDB 0x1a853); [reflexivity|].
    assert (M : (mul64 (rotr64 t 15) 0x8648DBDB) mod 2 ^ 17 = (mul64 (rotr64 u 15) 0x8648DBDB) mod 2 ^ 17).
    { apply low_bits. intros i Hi. rewrite low_bits in E. specialize (E i Hi). unfold stirred, xor in E. rewrite !N.lxor_spec, (L i) in E by lia.
      destruct (N.testbit u i), (N.testbit (mul64 (rotr64 t 15) 0x8648DBDB) i), (N.testbit (mul64 (rotr64 u 15) 0x8648DBDB) i); auto. }
    unfold mul64, mulw in M. now rewrite !wrap_low in M by lia. }
  intros i Hi Gi. apply (proj2 (rot_low 17 t u F G ltac:(lia)) R). lia.
Qed.
Lemma stirred_bit0 a b c h x y : bytes_ok [a; b; c] -> x < 256 -> y < 256 ->
  N.testbit (stirred (taken a b c x h)) 0 = N.testbit (stirred (taken a b c y h)) 0.
Proof.
  intros H Hx Hy. pose proof (taken_low a b c h x y H Hx Hy) as L.
  pose proof (taken_fits a b c x h) as F. pose proof (taken_fits a b c y h) as G.
  set (t := taken a b c x h) in *. set (u := taken a b c y h) in *. clearbody t u. rewrite low_bits in L.
  assert (R : rotr64 t 15 mod 2 ^ 1 = rotr64 u 15 mod 2 ^ 1) by (apply (rot_low 1 t u F G); [lia|]; intros i Hi; apply L; lia).
  unfold stirred, xor. rewrite !N.lxor_spec, (L 0) by lia. f_equal.
  refine (proj1 (low_bits 1 _ _) _ 0 ltac:(lia)). unfold mul64, mulw. rewrite !wrap_low by lia.
  rewrite <- (N.mul_mod_idemp_l (rotr64 t 15)), R, N.mul_mod_idemp_l by discriminate. reflexivity.
Qed.

(** ** The finaliser maps at most two words to one, twice *)
Definition folded (z : N) : N := xor z (rotr64 z 33).
Lemma rot33_fixed d : fits 64 d -> rotr64 d 33 = d -> forall i, i < 64 -> N.testbit d i = N.testbit d 0.
Proof.
  intros Hd E.
  assert (S : forall i, i < 64 -> N.testbit d i = N.testbit d (if i <? 31 then i + 33 else i - 31)).
  { intros i Hi. rewrite <- E at 1. unfold rotr64. rewrite rotrw_testbit by (auto; lia). destruct (N.ltb_spec i 64); [|lia]. cbn [andb].
    destruct (N.ltb_spec (i + 33) 64), (N.ltb_spec i 31); try lia; f_equal; lia. }
  assert (T : forall i, i < 62 -> N.testbit d i = N.testbit d (i + 2)).
  { intros i Hi. rewrite S by lia. destruct (N.ltb_spec i 31).
    - rewrite S by lia. destruct (N.ltb_spec (i + 33) 31); [lia|]. f_equal. lia.
    - rewrite S by lia. destruct (N.ltb_spec (i - 31) 31); [|lia]. f_equal. lia. }
  assert (V : forall k, k < 32 -> N.testbit d (2 * k) = N.testbit d 0 /\ N.testbit d (2 * k + 1) = N.testbit d 1).
  { intros k. induction k as [|k IH] using N.peano_ind; [auto|]. intros Hk. destruct IH as (I1 & I2); [lia|].
    rewrite <- I1, <- I2. split; symmetry; rewrite T by lia; f_equal; lia. }
  assert (O : N.testbit d 1 = N.testbit d 0).
  { rewrite (S 0) by lia. cbn [N.ltb N.compare Pos.compare Pos.compare_cont]. symmetry. destruct (V 16 ltac:(lia)) as (_ & W). exact W. }
  intros i Hi. destruct (N.even i) eqn:Ev.
  - apply N.even_spec in Ev. destruct Ev as (k & ->). apply V. lia.
  - rewrite <- N.negb_odd in Ev. apply negb_false_iff, N.odd_spec in Ev. destruct Ev as (k & ->). rewrite <- O. apply V. lia.
Qed.
Lemma folded_two a b : fits 64 a -> fits 64 b -> folded a = folded b -> N.testbit a 0 = N.testbit b 0 -> a = b.
Proof.
  intros Ha Hb E B. assert (Hd : fits 64 (N.lxor a b)) by now apply xor_fits.
  assert (R : rotr64 (N.lxor a b) 33 = N.lxor a b).
  { unfold rotr64. rewrite rotr_lxor by (auto; lia). apply N.bits_inj. intros i.
    assert (Ei : N.testbit (folded a) i = N.testbit (folded b) i) by now rewrite E. unfold folded, xor, rotr64 in Ei. rewrite !N.lxor_spec in Ei. rewrite !N.lxor_spec.
    destruct (N.testbit a i), (N.testbit b i), (N.testbit (rotrw 64 a 33) i), (N.testbit (rotrw 64 b 33) i); cbn in *; congruence. }
  apply N.bits_inj. intros i. destruct (N.lt_ge_cases i 64) as [L|G].
  - pose proof (rot33_fixed _ Hd R i L) as X. rewrite !N.lxor_spec, B, xorb_nilpotent in X. now apply xorb_eq in X.
  - now rewrite (fits_high 64 a), (fits_high 64 b).
Qed.

Lemma final_form h : m64_final p64_1 h = folded (mul64 (folded h) 0xC83A91E1).
Proof. reflexivity. Qed.
Lemma folded_fits z : fits 64 z -> fits 64 (folded z).
Proof. intros H. apply xor_fits; auto. apply fits_testbit. intros i Hi. unfold rotr64. rewrite rotrw_testbit by (auto; lia). destruct (N.ltb_spec i 64); [lia|reflexivity]. Qed.
Lemma k0_inj a b : fits 64 a -> fits 64 b -> mul64 a 0xC83A91E1 = mul64 b 0xC83A91E1 -> a = b.
Proof. intros Ha Hb. apply (mulw_inj 64 a b _ 0xc04240a6351d7221); auto. Qed.
Lemma final_three a b c : fits 64 a -> fits 64 b -> fits 64 c -> N.testbit a 0 = N.testbit b 0 -> N.testbit b 0 = N.testbit c 0 ->
  m64_final p64_1 a = m64_final p64_1 b -> m64_final p64_1 b = m64_final p64_1 c -> a = b \/ b = c \/ a = c.
Proof.
  intros Ha Hb Hc Bab Bbc. rewrite !final_form. intros E1 E2.
  set (u := mul64 (folded a) 0xC83A91E1) in *. set (v := mul64 (folded b) 0xC83A91E1) in *. set (w := mul64 (folded c) 0xC83A91E1) in *.
  assert (P : N.testbit u 0 = N.testbit v 0 \/ N.testbit v 0 = N.testbit w 0 \/ N.testbit u 0 = N.testbit w 0).
  { destruct (N.testbit u 0), (N.testbit v 0), (N.testbit w 0); auto. }
  assert (Q : forall x y, fits 64 x -> fits 64 y -> N.testbit x 0 = N.testbit y 0 ->
    folded (mul64 (folded x) 0xC83A91E1) = folded (mul64 (folded y) 0xC83A91E1) ->
    N.testbit (mul64 (folded x) 0xC83A91E1) 0 = N.testbit (mul64 (folded y) 0xC83A91E1) 0 -> x = y).
  { intros x y Hx Hy B0 E B1. apply folded_two in E; [|apply mul64_fits|apply mul64_fits|exact B1].
    apply k0_inj in E; [|now apply folded_fits|now apply folded_fits]. now apply folded_two. }
  unfold u, v, w in *. clear u v w.
  destruct P as [P|[P|P]]; [left|right; left|right; right]; apply Q; auto; [exact (eq_trans Bab Bbc)|exact (eq_trans E1 E2)].
Qed.
Lemma published_last_byte p seed x y z : bytes_ok p -> (length p mod 8 = 3)%nat -> x < 256 -> y < 256 -> z < 256 -> NoDup [x; y; z] ->
  ~ (metro64 p64_1 (p ++ [x]) seed = metro64 p64_1 (p ++ [y]) seed /\ metro64 p64_1 (p ++ [y]) seed = metro64 p64_1 (p ++ [z]) seed).
Proof.
  intros Hp H Hx Hy Hz D (E1 & E2). destruct (metro64_last p64_1 p seed Hp H) as (a & b & c & h & Hb & F). rewrite !F in E1. rewrite !F in E2.
  change (m64_final p64_1 (stirred (taken a b c x h)) = m64_final p64_1 (stirred (taken a b c y h))) in E1.
  change (m64_final p64_1 (stirred (taken a b c y h)) = m64_final p64_1 (stirred (taken a b c z h))) in E2.
  assert (T : forall w, fits 64 (stirred (taken a b c w h))) by (intros w; apply xor64_fits; [apply taken_fits|apply mul64_fits]).
  inversion D as [|? ? N1 D1]; subst. inversion D1 as [|? ? N2 _]; subst.
  destruct (final_three _ _ _ (T x) (T y) (T z) (stirred_bit0 a b c h x y Hb Hx Hy) (stirred_bit0 a b c h y z Hb Hy Hz) E1 E2) as [E|[E|E]].
  - apply N1. left. symmetry. apply (stirred_inj a b c h x y Hb Hx Hy). now rewrite E.
  - apply N2. left. symmetry. apply (stirred_inj a b c h y z Hb Hy Hz). now rewrite E.
  - apply N1. right. left. symmetry. apply (stirred_inj a b c h x z Hb Hx Hz). now rewrite E.
Qed.
