(** Murmur3, gomap and MetroHash: the block functions are one-to-one between blocks and states. *)
From Coq Require Import NArith ZArith List Lia Arith.
From Verif Require Import Words Mem WordLemmas WordBij ListLemmas Bij Blocks Mm3Model Mm3Spec Mm3Proofs
  MetroModel MetroSpec MetroProofs GomapModel GomapSpec GomapProofs UniformSpec UniformProofs UniformProofs2 SteerSpec SteerProofs.
Import ListNotations.
Open Scope N_scope.

(** A one-to-one function from the blocks to states that a block can encode reaches all of them. *)
Lemma onto_inj {T} B (Q : T -> Prop) A (E : T -> list N) :
  (forall b, block B b -> Q (A b)) -> (forall b b', block B b -> block B b' -> A b = A b' -> b = b') ->
  (forall t, Q t -> block B (E t)) -> (forall t t', Q t -> Q t' -> E t = E t' -> t = t') -> onto B Q A.
Proof.
  intros HA IA HE IE. split; [exact HA|].
  assert (K : forall b, In b (all_keys B) <-> block B b) by (intros b; apply in_all_keys).
  set (g := fun b => E (A b)).
  assert (G : forall t, Q t -> In (E t) (map g (all_keys B))).
  { intros t Ht. assert (L : incl (all_keys B) (map g (all_keys B))); [|apply L, K; now apply HE].
    apply NoDup_length_incl.
    - assert (Z : forall l, NoDup l -> incl l (all_keys B) -> NoDup (map g l)).
      { induction l as [|x l IH]; intros D J; [constructor|]. inversion D; subst. cbn. constructor.
        - rewrite in_map_iff. intros (y & E' & Hy).
          assert (Jx := J x (or_introl eq_refl)). assert (Jy := J y (or_intror Hy)). apply K in Jx, Jy.
          apply IE in E'; auto. apply IA in E'; auto. congruence.
        - apply IH; [assumption|]. intros z Hz. apply J. now right. }
      apply Z; [apply nodup_all_keys|apply incl_refl].
    - now rewrite map_length.
    - intros x Hx. apply in_map_iff in Hx. destruct Hx as (b & <- & Hb). apply K. apply HE, HA. now apply K. }
  exists (fun t => hd [] (filter (fun b => if list_eq_dec N.eq_dec (g b) (E t) then true else false) (all_keys B))).
  assert (D : forall t, Q t -> let d := hd [] (filter (fun b => if list_eq_dec N.eq_dec (g b) (E t) then true else false) (all_keys B)) in
    block B d /\ A d = t).
  { intros t Ht. cbv zeta. specialize (G t Ht). apply in_map_iff in G. destruct G as (b & Eb & Hb).
    set (l := filter _ _). assert (In b l) by (apply filter_In; split; [exact Hb|]; destruct (list_eq_dec N.eq_dec (g b) (E t)); [reflexivity|contradiction]).
    assert (F : In (hd [] l) l) by (destruct l; [contradiction|now left]). apply filter_In in F. destruct F as [F1 F2]. apply K in F1. split; [exact F1|].
    destruct (list_eq_dec N.eq_dec (g (hd [] l)) (E t)) as [Z|]; [|discriminate]. apply IE in Z; auto. }
  split; [|exact D]. intros b Hb. destruct (D (A b) (HA b Hb)) as [D1 D2]. apply IA; auto.
Qed.

Lemma block_app m n x y : block m x -> block n y -> block (m + n) (x ++ y).
Proof. intros [L O] [L' O']. split; [now rewrite app_length, L, L'|now apply bytes_ok_app]. Qed.
Lemma block_store n x : block n (le_store n x).
Proof. split; [apply le_store_length|apply le_store_ok]. Qed.
Lemma store_inj n x y : fits (8 * N.of_nat n) x -> fits (8 * N.of_nat n) y -> le_store n x = le_store n y -> x = y.
Proof. intros F G E. rewrite <- (le_load_store n x F), <- (le_load_store n y G). now rewrite E. Qed.
Lemma app_inj_len {A} (x y x' y' : list A) : length x = length x' -> x ++ y = x' ++ y' -> x = x' /\ y = y'.
Proof.
  intros L E. apply (f_equal (firstn (length x))) in E as E1. rewrite firstn_app_exact in E1 by reflexivity. rewrite L, firstn_app_exact in E1 by reflexivity.
  subst x'. now apply app_inv_head in E.
Qed.

(** ** Murmur3 *)
Lemma onto_mm32 h : fits 32 h -> onto 4 (fits 32) (mm32_block h).
Proof.
  intros Hh. apply (onto_inj 4 _ _ (le_store 4)).
  - intros b _. apply mm32_block_fits.
  - intros b b' [L O] [L' O'] E. rewrite !mm32_block_g in E.
    assert (F : forall b, fits 32 (xor h (mm32_k1 (le_load b)))) by (intros; apply xor_fits'; [exact Hh|apply mm32_k1_fits]).
    apply (bij_inj _ _ mm32_g_bij) in E; [|apply F|apply F]. apply xor_inj_l in E.
    apply (bij_inj _ _ mm32_k1_bij) in E; [|now apply le_load4_fits|now apply le_load4_fits]. apply le_load_inj in E; auto; congruence.
  - intros t _. apply block_store.
  - intros t t' H H'. now apply (store_inj 4).
Qed.
Lemma onto_mm128 h : pair_ok h -> onto 16 pair_ok (mm128_block h).
Proof.
  intros Hh. apply (onto_inj 16 _ _ (fun p => le_store 8 (fst p) ++ le_store 8 (snd p))).
  - intros b _. apply mm128_block_fits.
  - intros b b' [L O] [L' O'] E. now apply (mm128_block_inj_b h).
  - intros t _. apply (block_app 8 8); apply block_store.
  - intros [x y] [x' y'] [H1 H2] [H1' H2'] E. cbn [fst snd] in *. apply app_inj_len in E; [|now rewrite !le_store_length].
    destruct E as [E1 E2]. apply (store_inj 8) in E1; auto. apply (store_inj 8) in E2; auto. congruence.
Qed.
Lemma steered_mm32 : steered 4 (fun _ => True) (fun k => Some (mm_sum32 k)) (fun k => Some (mm_sum32 k)).
Proof.
  apply (steered_gen 4 _ (fits 32) (fits 32) _ _ (fun n p => fst (absorb 4 mm32_block 0 p)) (fun n p => fst (absorb 4 mm32_block 0 p)) mm32_block
    (fun n t r => Some (let '(h, q) := absorb 4 mm32_block t r in mm32_fmix (xor (mm32_tail h q) (wrap 32 (N.of_nat n)))))).
  - intros s Hs. now apply onto_mm32.
  - intros n p Hp _ _. split; (apply absorb_P; [lia|reflexivity|intros; apply mm32_block_fits|exact Hp]).
  - intros p b r Hp M [L Hb] Hr _. unfold mm_sum32. rewrite absorb_whole by (assumption || lia). destruct (absorb 4 mm32_block (mm32_block _ b) r).
    rewrite !app_length, L, Nat.add_assoc. auto.
Qed.
Lemma steered_mm128 : steered 16 (fun _ => True) (fun k => Some (mm_sum128 k)) (fun k => Some (mm_sum128 k)).
Proof.
  apply (steered_gen 16 _ pair_ok pair_ok _ _ (fun n p => fst (absorb 16 mm128_block (0, 0) p)) (fun n p => fst (absorb 16 mm128_block (0, 0) p)) mm128_block
    (fun n t r => Some (let '(h, q) := absorb 16 mm128_block t r in mm128_final (mm128_tail h q) (N.of_nat n)))).
  - intros s Hs. now apply onto_mm128.
  - intros n p Hp _ _. split; (apply absorb_P; [lia|split; reflexivity|intros; apply mm128_block_fits|exact Hp]).
  - intros p b r Hp M [L Hb] Hr _. unfold mm_sum128. rewrite absorb_whole by (assumption || lia). destruct (absorb 16 mm128_block (mm128_block _ b) r).
    rewrite !app_length, L, Nat.add_assoc. auto.
Qed.

(** ** Four words *)
Lemma four_pieces (n : nat) (b : list N) : length b = (4 * n)%nat ->
  b = firstn n b ++ firstn n (skipn n b) ++ firstn n (skipn (n * 2) b) ++ firstn n (skipn (n * 3) b).
Proof.
  intros L. replace (n * 2)%nat with (n + n)%nat by lia. replace (n * 3)%nat with (n + (n + n))%nat by lia. rewrite !skipn_add.
  rewrite (firstn_all2 (skipn n (skipn n (skipn n b)))) by (rewrite !skipn_length; lia). now rewrite !firstn_skipn.
Qed.
Definition four_ok (w : N) (v : N * N * N * N) : Prop := let '(a, b, c, d) := v in fits w a /\ fits w b /\ fits w c /\ fits w d.
Definition store4 (n : nat) (v : N * N * N * N) : list N :=
  let '(a, b, c, d) := v in le_store n a ++ le_store n b ++ le_store n c ++ le_store n d.
Lemma store4_block n v : block (4 * n) (store4 n v).
Proof.
  destruct v as [[[a b] c] d]. replace (4 * n)%nat with (n + (n + (n + n)))%nat by lia. unfold store4. repeat apply block_app; apply block_store.
Qed.
Lemma store4_inj n v v' : four_ok (8 * N.of_nat n) v -> four_ok (8 * N.of_nat n) v' -> store4 n v = store4 n v' -> v = v'.
Proof.
  destruct v as [[[a b] c] d], v' as [[[a' b'] c'] d']. intros (A & B & C & D) (A' & B' & C' & D') E. unfold store4 in E.
  repeat (apply app_inj_len in E; [destruct E as [?H E]|now rewrite !le_store_length]).
  repeat match goal with H : le_store n _ = le_store n _ |- _ => apply store_inj in H; [|assumption|assumption] end. now subst.
Qed.

(** ** gomap *)
Lemma lane_inj V h w w' : N.odd (m1 V) = true -> N.odd (m2 V) = true -> 0 < W V -> r1 V <= W V -> fits (W V) h -> fits (W V) w -> fits (W V) w' ->
  lane V h w = lane V h w' -> w = w'.
Proof.
  intros O1 O2 HW HR Hh Hw Hw' E. unfold lane in E.
  assert (F : forall w, fits (W V) (inject V h w)) by (intros; now apply inject_fits).
  apply (bij_inj _ _ (bij_mulmod (W V) (m2 V) O2 HW)) in E; [|now apply rol_fits|now apply rol_fits].
  apply (bij_inj _ _ (bij_rol (W V) (r1 V) HR)) in E; [|apply F|apply F]. now apply (inject_inj V h).
Qed.
Definition lanes_ok (V : variant) (v : list N) : Prop := exists a b c d, v = [a; b; c; d] /\ four_ok (W V) (a, b, c, d).
Lemma lanes_are_ok V v b : lanes_ok V (lanes V v b).
Proof. unfold lanes. cbn [map]. do 4 eexists. split; [reflexivity|]. repeat split; apply lane_fits. Qed.
Lemma at_inj' k k' i n : bytes_ok k -> bytes_ok k' -> length k = length k' -> at_ k i n = at_ k' i n -> firstn n (skipn i k) = firstn n (skipn i k').
Proof. apply at_inj. Qed.
Lemma onto_lanes V v : W V = 8 * N.of_nat (nb V) -> N.odd (m1 V) = true -> N.odd (m2 V) = true -> 0 < W V -> r1 V <= W V -> lanes_ok V v ->
  onto (4 * nb V) (lanes_ok V) (lanes V v).
Proof.
  intros HB O1 O2 HW HR (h0 & h1 & h2 & h3 & -> & F0 & F1 & F2 & F3).
  apply (onto_inj (4 * nb V) _ _ (fun v => store4 (nb V) (nth 0 v 0, nth 1 v 0, nth 2 v 0, nth 3 v 0))).
  - intros b _. apply lanes_are_ok.
  - intros b b' [L O] [L' O'] E. unfold lanes in E. cbn [map nth] in E. injection E as E0 E1 E2 E3.
    apply lane_inj in E0, E1, E2, E3; auto; try (apply at_fits; [assumption|rewrite HB; apply N.le_refl]).
    apply at_inj in E0, E1, E2, E3; auto; try congruence. rewrite Nat.mul_0_r in E0. rewrite Nat.mul_1_r in E1. cbn [skipn] in E0.
    rewrite (four_pieces (nb V) b L), (four_pieces (nb V) b' L'). now rewrite E0, E1, E2, E3.
  - intros t _. apply store4_block.
  - intros t t' (a & b & c & d & -> & Ht) (a' & b' & c' & d' & -> & Ht') E. cbn [nth] in E. rewrite HB in Ht, Ht'. apply store4_inj in E; auto. congruence.
Qed.
Definition lanes_start (V : variant) (n : nat) (seed : N) : list N :=
  let h := (seed + N.of_nat n) mod 2 ^ W V in [h; (h + m1 V) mod 2 ^ W V; (h + m2 V) mod 2 ^ W V; (h + m3 V) mod 2 ^ W V].
Lemma steered_gomap V rest (fin : N -> N) seed seed' : W V = 8 * N.of_nat (nb V) -> N.odd (m1 V) = true -> N.odd (m2 V) = true -> 0 < W V -> r1 V <= W V -> (0 < nb V)%nat ->
  steered (4 * nb V) (fun n => (4 * nb V < n)%nat) (fun k => Some (fin (body V rest k (start V k seed)))) (fun k => Some (fin (body V rest k (start V k seed')))).
Proof.
  intros HB O1 O2 HW HR Hn.
  assert (I : forall n s, lanes_ok V (lanes_start V n s)) by (intros; do 4 eexists; split; [reflexivity|]; repeat split; apply mod_fits).
  apply (steered_gen (4 * nb V) _ (lanes_ok V) (lanes_ok V) _ _ (fun n p => fst (absorb (4 * nb V) (lanes V) (lanes_start V n seed) p))
    (fun n p => fst (absorb (4 * nb V) (lanes V) (lanes_start V n seed') p)) (lanes V)
    (fun n t r => Some (fin (let '(v, q) := absorb (4 * nb V) (lanes V) t r in inject_all V (combine4 V v) (rest q))))).
  - intros s Hs. now apply onto_lanes.
  - intros n p Hp _ _. split; (apply absorb_P; [lia|apply I|intros; apply lanes_are_ok|exact Hp]).
  - intros p b r Hp M [L Hb] Hr K.
    assert (G : forall s, body V rest (p ++ b ++ r) (start V (p ++ b ++ r) s) =
      (let '(v, q) := absorb (4 * nb V) (lanes V) (lanes V (fst (absorb (4 * nb V) (lanes V) (lanes_start V (length p + 4 * nb V + length r) s) p)) b) r in
       inject_all V (combine4 V v) (rest q))).
    { intros s. unfold body. assert (E : length (p ++ b ++ r) = (length p + 4 * nb V + length r)%nat) by (rewrite !app_length; lia).
      unfold start. rewrite E. destruct (Nat.leb_spec (length p + 4 * nb V + length r) (4 * nb V)); [lia|].
      fold (lanes_start V (length p + 4 * nb V + length r) s).
      pose proof (fold_blocks (lanes V) (4 * nb V) (p ++ b ++ r) (lanes_start V (length p + 4 * nb V + length r) s) ltac:(lia)) as FB.
      rewrite absorb_whole in FB by (assumption || lia). destruct (absorb (4 * nb V) (lanes V) (lanes V _ b) r) as [t q].
      destruct (blocks (4 * nb V) (p ++ b ++ r)) as [bs q']. injection FB as <- <-. reflexivity. }
    now rewrite !G.
Qed.

(** ** MetroHash *)
Lemma word_inj b b' i : bytes_ok b -> bytes_ok b' -> length b = length b' -> word_at b i = word_at b' i ->
  firstn 8 (skipn (8 * i) b) = firstn 8 (skipn (8 * i) b').
Proof.
  intros O O' L E. unfold word_at in E.
  assert (Z : forall b n m, bytes_ok b -> bytes_ok (firstn n (skipn m b))) by (intros c n m H; apply bytes_ok_firstn, bytes_ok_skipn, H).
  apply le_load_inj in E; auto. rewrite !firstn_length, !skipn_length. now rewrite L.
Qed.
Lemma word_fits b i : bytes_ok b -> fits 64 (word_at b i).
Proof.
  intros O. pose proof (at_fits b (8 * i) 8 64 O ltac:(discriminate)) as F. unfold at_ in F. now rewrite le_int_load in F by (apply bytes_ok_firstn, bytes_ok_skipn, O).
Qed.

Lemma metro_word_inj v K c w w' : N.odd K = true -> fits 64 w -> fits 64 w' ->
  add64 (rotr64 (add64 v (mul64 w K)) 29) c = add64 (rotr64 (add64 v (mul64 w' K)) 29) c -> w = w'.
Proof.
  intros HK Hw Hw' E.
  apply (bij_inj _ _ (bij_add 64 c)) in E; [|apply rotrw_fits, addw_fits|apply rotrw_fits, addw_fits].
  apply (bij_inj _ _ (bij_rotr 64 29 ltac:(discriminate))) in E; [|apply addw_fits|apply addw_fits].
  apply (bij_inj _ _ (bij_add_l 64 v)) in E; [|apply mulw_fits|apply mulw_fits].
  now apply (bij_inj _ _ (bij_mul 64 K HK eq_refl)) in E.
Qed.
Lemma m_body_ok a0 a1 a2 a3 v b : four_ok 64 (m_body a0 a1 a2 a3 v b).
Proof. destruct v as [[[v0 v1] v2] v3]. unfold m_body. repeat split; apply addw_fits. Qed.
Lemma onto_metro a0 a1 a2 a3 v : N.odd a0 = true -> N.odd a1 = true -> N.odd a2 = true -> N.odd a3 = true ->
  onto 32 (four_ok 64) (m_body a0 a1 a2 a3 v).
Proof.
  intros O0 O1 O2 O3. apply (onto_inj 32 _ _ (store4 8)).
  - intros b _. apply m_body_ok.
  - intros b b' [L O] [L' O'] E. destruct v as [[[v0 v1] v2] v3]. unfold m_body in E. injection E as E0 E1 E2 E3.
    rewrite E0 in E2. rewrite E1 in E3. apply metro_word_inj in E0, E1, E2, E3; auto using word_fits.
    apply word_inj in E0, E1, E2, E3; auto; try congruence.
    rewrite (four_pieces 8 b L), (four_pieces 8 b' L'). cbn [Nat.mul Nat.add skipn] in *. now rewrite E0, E1, E2, E3.
  - intros t _. apply (store4_block 8).
  - intros t t'. apply (store4_inj 8).
Qed.
Lemma steered_metro64 P t4 seed : N.odd (K0 P) = true -> N.odd (K1 P) = true -> N.odd (K2 P) = true -> N.odd (K3 P) = true ->
  steered 32 (fun _ => True) (fun k => Some (metro64_gen P t4 k seed)) (fun k => Some (metro64_gen P t4 k seed)).
Proof.
  intros O0 O1 O2 O3. set (f := m_body (K0 P) (K1 P) (K2 P) (K3 P)).
  set (h := fun n => add64 (mul64 (add64 seed (K2 P)) (K0 P)) (N.of_nat n)).
  set (st := fun (n : nat) p => fst (absorb 32 f (h n, h n, h n, h n) p)).
  apply (steered_gen 32 _ (four_ok 64) (four_ok 64) _ _ st st f
    (fun n t r => Some (let '(s, q) := absorb 32 f t r in
       m64_final P (m64_pieces P t4 q (let '(v0, v1) := m_mix (K0 P) (K1 P) (rmix P) (rmix P) (rmix P) (rmix P) s in add64 (h n) (xor v0 v1)))))).
  - intros s Hs. now apply onto_metro.
  - intros n p Hp _ _. split; (apply absorb_P; [lia|repeat split; apply addw_fits|intros; apply m_body_ok|exact Hp]).
  - intros p b r Hp M [L Hb] Hr _.
    assert (G : metro64_gen P t4 (p ++ b ++ r) seed =
      let n := (length p + 32 + length r)%nat in
      (let '(s, q) := absorb 32 f (f (st n p) b) r in
       m64_final P (m64_pieces P t4 q (let '(v0, v1) := m_mix (K0 P) (K1 P) (rmix P) (rmix P) (rmix P) (rmix P) s in add64 (h n) (xor v0 v1))))).
    { cbv zeta. unfold metro64_gen. assert (E : length (p ++ b ++ r) = (length p + 32 + length r)%nat) by (rewrite !app_length; lia).
      rewrite E. set (n := (length p + 32 + length r)%nat) in *. destruct (Nat.leb_spec 32 n); [|lia]. fold (h n). fold f. cbv zeta. fold (h n).
      pose proof (fold_blocks f 32 (p ++ b ++ r) (h n, h n, h n, h n) ltac:(lia)) as FB.
      rewrite absorb_whole in FB by (assumption || lia). unfold st. destruct (absorb 32 f (f _ b) r) as [t q].
      destruct (blocks 32 (p ++ b ++ r)) as [bs q']. injection FB as <- <-. reflexivity. }
    rewrite G. auto.
Qed.
Definition post128 (P : metro128_params) (r : list N) (v : N * N) : N * N :=
    let '(p, r) := piece 16 16 r in let v := opt p (m128_16 P) v in
    let '(p, r) := piece 8 8 r in let v := opt p (m128_left P (s8 P)) v in
    let '(p, r) := piece 4 4 r in let v := opt p (m128_right P (s4 P)) v in
    let '(p, r) := piece 2 2 r in let v := opt p (m128_left P (s2 P)) v in
    let '(p, r) := piece 1 1 r in let v := opt p (m128_right P (s1 P)) v in
    m128_final P v.
Definition init128 (P : metro128_params) (n : nat) (seed : N) : N * N * N * N :=
  let len := N.of_nat n in
  (add64 (mul64 (sub64 seed (k0 P)) (k3 P)) len, add64 (mul64 (add64 seed (k1 P)) (k2 P)) len,
   add64 (mul64 (add64 seed (k0 P)) (k2 P)) len, add64 (mul64 (sub64 seed (k1 P)) (k3 P)) len).
Lemma steered_metro128 P seed seed' : N.odd (k0 P) = true -> N.odd (k1 P) = true -> N.odd (k2 P) = true -> N.odd (k3 P) = true ->
  steered 32 (fun _ => True) (fun k => Some (metro128 P k seed)) (fun k => Some (metro128 P k seed')).
Proof.
  intros O0 O1 O2 O3. set (f := m_body (k0 P) (k1 P) (k2 P) (k3 P)).
  apply (steered_gen 32 _ (four_ok 64) (four_ok 64) _ _ (fun n p => fst (absorb 32 f (init128 P n seed) p)) (fun n p => fst (absorb 32 f (init128 P n seed') p)) f
    (fun n t r => Some (let '(s, q) := absorb 32 f t r in post128 P q (m_mix (k0 P) (k1 P) (mr1 P) (mr2 P) (mr3 P) (mr4 P) s)))).
  - intros s Hs. now apply onto_metro.
  - intros n p Hp _ _. split; (apply absorb_P; [lia|repeat split; apply addw_fits|intros; apply m_body_ok|exact Hp]).
  - intros p b r Hp M [L Hb] Hr _.
    assert (G : forall x, metro128 P (p ++ b ++ r) x =
      (let '(s, q) := absorb 32 f (f (fst (absorb 32 f (init128 P (length p + 32 + length r) x) p)) b) r in
       post128 P q (m_mix (k0 P) (k1 P) (mr1 P) (mr2 P) (mr3 P) (mr4 P) s))).
    { intros x. unfold metro128. assert (E : length (p ++ b ++ r) = (length p + 32 + length r)%nat) by (rewrite !app_length; lia).
      rewrite E. set (n := (length p + 32 + length r)%nat) in *. destruct (Nat.leb_spec 32 n); [|lia]. cbv zeta. fold f. fold (init128 P n x).
      pose proof (fold_blocks f 32 (p ++ b ++ r) (init128 P n x) ltac:(lia)) as FB.
      rewrite absorb_whole in FB by (assumption || lia). destruct (absorb 32 f (f _ b) r) as [t q].
      destruct (blocks 32 (p ++ b ++ r)) as [bs q']. injection FB as <- <-. reflexivity. }
    rewrite !G. auto.
Qed.
