(** Proofs about package metro. *)
From Verif Require Import Words WordLemmas ListLemmas Blocks Mem Mm3Spec Mm3Proofs MetroModel MetroSpec.
Open Scope N_scope.

Lemma le_uint_ok n p : (n <= length p)%nat -> le_uint n p = Ok (le_load (firstn n p)).
Proof. intros H. unfold le_uint. apply Nat.leb_le in H. now rewrite H. Qed.

Lemma pos32 : (0 < 32)%nat. Proof. lia. Qed.
Lemma word_at_firstn i n p : (8 * i + 8 <= n)%nat -> word_at (firstn n p) i = le_load (firstn 8 (skipn (8 * i) p)).
Proof.
  intros H. unfold word_at. rewrite (skipn_firstn_comm (8 * i) n p). rewrite firstn_firstn. f_equal. f_equal. lia.
Qed.

Lemma metro_loop_run K0 K1 K2 K3 fuel : forall p v, (length p <= fuel)%nat ->
  metro_loop K0 K1 K2 K3 fuel p v =
  Ok (snd (absorb 32 (m_body K0 K1 K2 K3) v p), fst (absorb 32 (m_body K0 K1 K2 K3) v p)).
Proof.
  induction fuel as [|fuel IH]; intros p v Hf; cbn [metro_loop].
  - destruct (Nat.leb_spec 32 (length p)); [lia|]. now rewrite (absorb_short 32 _ pos32).
  - destruct (Nat.leb_spec 32 (length p)) as [H|H].
    + rewrite (absorb_step 32 _ pos32) by assumption. destruct v as [[[v0 v1] v2] v3].
      rewrite (le_uint_ok 8 p) by lia. cbn [rbind]. rewrite (tail_from_ok p 8) by lia. cbn [rbind].
      rewrite (le_uint_ok 8 (skipn 8 p)) by (rewrite skipn_length; lia). cbn [rbind].
      rewrite (tail_from_ok (skipn 8 p) 8) by (rewrite skipn_length; lia). cbn [rbind]. rewrite <- skipn_add.
      rewrite (le_uint_ok 8 (skipn (8 + 8) p)) by (rewrite skipn_length; lia). cbn [rbind].
      rewrite (tail_from_ok (skipn (8 + 8) p) 8) by (rewrite skipn_length; lia). cbn [rbind]. rewrite <- skipn_add.
      rewrite (le_uint_ok 8 (skipn (8 + 8 + 8) p)) by (rewrite skipn_length; lia). cbn [rbind].
      rewrite (tail_from_ok (skipn (8 + 8 + 8) p) 8) by (rewrite skipn_length; lia). cbn [rbind]. rewrite <- skipn_add.
      change (8 + 8 + 8 + 8)%nat with 32%nat.
      rewrite IH by (rewrite skipn_length; lia).
      assert (E : m_body K0 K1 K2 K3 (v0, v1, v2, v3) (firstn 32 p) =
        (let v0 := add64 (rotate_right (add64 v0 (mul64 (le_load (firstn 8 p)) K0)) 29) v2 in
         let v1 := add64 (rotate_right (add64 v1 (mul64 (le_load (firstn 8 (skipn 8 p))) K1)) 29) v3 in
         let v2 := add64 (rotate_right (add64 v2 (mul64 (le_load (firstn 8 (skipn (8 + 8) p))) K2)) 29) v0 in
         let v3 := add64 (rotate_right (add64 v3 (mul64 (le_load (firstn 8 (skipn (8 + 8 + 8) p))) K3)) 29) v1 in
         (v0, v1, v2, v3))).
      { unfold m_body. rewrite !word_at_firstn by lia. reflexivity. }
      rewrite E. reflexivity.
    + now rewrite (absorb_short 32 _ pos32).
Qed.

(** One piece. *)
Lemma piece_len t n r : (n <= t)%nat -> forall p r', piece t n r = (p, r') ->
  match p with Some b => length b = n /\ r = b ++ r' | None => r' = r /\ (length r < t)%nat end.
Proof.
  intros Hn p r' E. unfold piece in E. destruct (Nat.leb_spec t (length r)); inversion E; subst.
  - split; [apply firstn_length_le; lia|now rewrite firstn_skipn].
  - auto.
Qed.

Lemma stage_small c n r (f : N -> N -> N) (h : N) t :
  (n <= t)%nat -> (forall l, c l = (t <=? l)%nat) ->
  (if c (length r) then
     x <~ le_uint n r ;; let h := add64 h x in ptr <~ tail_from r n ;; Ok (ptr, f x h)
   else Ok (r, h)) =
  Ok (snd (piece t n r), opt (fst (piece t n r)) (fun b h => f (le_load b) (add64 h (le_load b))) h).
Proof.
  intros Hn Hc. rewrite Hc. unfold piece. destruct (Nat.leb_spec t (length r)).
  - rewrite le_uint_ok, tail_from_ok by lia. reflexivity.
  - reflexivity.
Qed.

Lemma metro64_stage P n t c r h rot :
  (n <= t)%nat -> (forall l, c l = (t <=? l)%nat) ->
  (if c (length r) : bool then
     x <~ le_uint n r ;; let hash := add64 h (mul64 x (K3 P)) in
     ptr <~ tail_from r n ;;
     Ok (ptr, xor hash (mul64 (rotate_right hash rot) (K1 P)))
   else Ok (r, h)) =
  Ok (snd (piece t n r), opt (fst (piece t n r)) (m64_small P rot) h).
Proof.
  intros Hn Hc. rewrite Hc. unfold piece. destruct (Nat.leb_spec t (length r)).
  - rewrite le_uint_ok, tail_from_ok by lia. reflexivity.
  - reflexivity.
Qed.
Lemma firstn1 r : (1 <= length r)%nat -> le_load (firstn 1 r) = nth 0 r 0.
Proof. destruct r; cbn; [lia|]. intros _. destruct n; reflexivity. Qed.
Lemma metro64_stage1 P r h rot :
  (if Nat.leb 1 (length r) then
     x <~ idx r 0 ;; let hash := add64 h (mul64 x (K3 P)) in
     Ok (xor hash (mul64 (rotate_right hash rot) (K1 P)))
   else Ok h) =
  Ok (opt (fst (piece 1 1 r)) (m64_small P rot) h).
Proof.
  unfold piece. destruct (Nat.leb_spec 1 (length r)).
  - rewrite idx_ok by lia. rewrite <- (firstn1 r) by lia. reflexivity.
  - reflexivity.
Qed.
Lemma metro64_stage16 P r h :
  (if Nat.leb 16 (length r) then
       x <~ le_uint 8 r ;; let v0 := add64 h (mul64 x (ma P)) in
       ptr <~ tail_from r 8 ;;
       let v0 := mul64 (rotate_right v0 (r16 P)) (na P) in
       x <~ le_uint 8 ptr ;; let v1 := add64 h (mul64 x (mb P)) in
       ptr <~ tail_from ptr 8 ;;
       let v1 := mul64 (rotate_right v1 (r16 P)) (nb P) in
       let v0 := xor v0 (add64 (rotate_right (mul64 v0 (K0 P)) (q16 P)) v1) in
       let v1 := xor v1 (add64 (rotate_right (mul64 v1 (K3 P)) (q16 P)) v0) in
       Ok (ptr, add64 h v1)
     else Ok (r, h)) =
  Ok (snd (piece 16 16 r), opt (fst (piece 16 16 r)) (m64_16 P) h).
Proof.
  unfold piece. destruct (Nat.leb_spec 16 (length r)).
  - rewrite (le_uint_ok 8 r), (tail_from_ok r 8) by lia. cbn [rbind].
    rewrite (le_uint_ok 8 (skipn 8 r)), (tail_from_ok (skipn 8 r) 8) by (rewrite skipn_length; lia). cbn [rbind].
    rewrite <- skipn_add. cbn [opt fst snd]. unfold m64_16. rewrite !word_at_firstn by lia. reflexivity.
  - reflexivity.
Qed.
Lemma add64_wrap_len h n : add64 h (wrap 64 n) = add64 h n.
Proof. apply addw_wrap_r. Qed.

Lemma metro64_stage32 P key h :
  (if Nat.leb 32 (length key) then
       '(ptr, v) <~ metro_loop (K0 P) (K1 P) (K2 P) (K3 P) (length key) key (h, h, h, h) ;;
       let '(v0, v1, _, _) := metro_mix (K0 P) (K1 P) (rmix P) (rmix P) (rmix P) (rmix P) v in
       Ok (ptr, add64 h (xor v0 v1))
     else Ok (key, h)) =
  Ok (snd (blocks 32 key),
      if (32 <=? length key)%nat then
               let '(v0, v1) := m_mix (K0 P) (K1 P) (rmix P) (rmix P) (rmix P) (rmix P)
                                  (fold_left (m_body (K0 P) (K1 P) (K2 P) (K3 P)) (fst (blocks 32 key)) (h, h, h, h)) in
               add64 h (xor v0 v1)
             else h).
Proof.
  pose proof (fold_blocks (m_body (K0 P) (K1 P) (K2 P) (K3 P)) 32 key (h, h, h, h) pos32) as F.
  destruct (blocks 32 key) as [bs r] eqn:E. cbn [fst snd].
  destruct (Nat.leb_spec 32 (length key)).
  - rewrite metro_loop_run by lia. rewrite <- F. cbn [fst snd rbind].
    destruct (fold_left _ bs _) as [[[v0 v1] v2] v3]. reflexivity.
  - rewrite (absorb_short 32 _ pos32) in F by assumption. inversion F. reflexivity.
Qed.

Ltac use_stage E :=
  let H := fresh in pose proof E as H;
  match type of H with ?l = ?r =>
    let l' := eval cbv zeta in l in
    let l'' := eval cbn [K0 K1 K2 K3 rmix ma mb na nb r16 q16 r8 r4 r2 r1 f1 f2 p64_1 p64_2
       k0 k1 k2 k3 mr1 mr2 mr3 mr4 ra s16 s8 s4 s2 s1 g1 g2 p128_1 p128_2] in l' in
    change (l'' = r) in H end; rewrite H; clear H.
Lemma hash64_1_gen key seed : hash64_1 key seed = Ok (metro64_gen p64_1 5 key seed).
Proof.
  unfold hash64_1, metro64_gen. cbv zeta. rewrite add64_wrap_len.
  set (h := add64 (mul64 (add64 seed 2078195771) 3359281633) (N.of_nat (length key))).
  use_stage (metro64_stage32 p64_1 key h). destruct (blocks 32 key) as [bs r]. cbn [rbind fst snd].
  change (add64 (mul64 (add64 seed (K2 p64_1)) (K0 p64_1)) (N.of_nat (length key))) with h.
  match goal with |- context [m64_pieces p64_1 5 r ?X] => generalize X; intros h' end.
  use_stage (metro64_stage16 p64_1 r h'). cbn [rbind]. unfold m64_pieces.
  destruct (piece 16 16 r) as [p1 r1']. cbn [fst snd]. generalize (opt p1 (m64_16 p64_1) h'). clear h' h. intros h.
  use_stage (metro64_stage p64_1 8 8 (Nat.leb 8) r1' h (r8 p64_1) ltac:(lia) ltac:(reflexivity)). cbn [rbind].
  destruct (piece 8 8 r1') as [p2 r2']. cbn [fst snd]. generalize (opt p2 (m64_small p64_1 (r8 p64_1)) h). clear h. intros h.
  use_stage (metro64_stage p64_1 4 5 (Nat.ltb 4) r2' h (r4 p64_1) ltac:(lia) ltac:(reflexivity)). cbn [rbind].
  destruct (piece 5 4 r2') as [p3 r3']. cbn [fst snd]. generalize (opt p3 (m64_small p64_1 (r4 p64_1)) h). clear h. intros h.
  use_stage (metro64_stage p64_1 2 2 (Nat.leb 2) r3' h (r2 p64_1) ltac:(lia) ltac:(reflexivity)). cbn [rbind].
  destruct (piece 2 2 r3') as [p4 r4']. cbn [fst snd]. generalize (opt p4 (m64_small p64_1 (r2 p64_1)) h). clear h. intros h.
  use_stage (metro64_stage1 p64_1 r4' h (r1 p64_1)). cbn [rbind].
  destruct (piece 1 1 r4') as [p5 r5']. reflexivity.
Qed.
Lemma hash64_2_gen key seed : hash64_2 key seed = Ok (metro64 p64_2 key seed).
Proof.
  unfold hash64_2, metro64, metro64_gen. cbv zeta. rewrite add64_wrap_len.
  set (h := add64 (mul64 (add64 seed 1654206401) 3603962101) (N.of_nat (length key))).
  use_stage (metro64_stage32 p64_2 key h). destruct (blocks 32 key) as [bs r]. cbn [rbind fst snd].
  change (add64 (mul64 (add64 seed (K2 p64_2)) (K0 p64_2)) (N.of_nat (length key))) with h.
  match goal with |- context [m64_pieces p64_2 4 r ?X] => generalize X; intros h' end.
  use_stage (metro64_stage16 p64_2 r h'). cbn [rbind]. unfold m64_pieces.
  destruct (piece 16 16 r) as [p1 r1']. cbn [fst snd]. generalize (opt p1 (m64_16 p64_2) h'). clear h' h. intros h.
  use_stage (metro64_stage p64_2 8 8 (Nat.leb 8) r1' h (r8 p64_2) ltac:(lia) ltac:(reflexivity)). cbn [rbind].
  destruct (piece 8 8 r1') as [p2 r2']. cbn [fst snd]. generalize (opt p2 (m64_small p64_2 (r8 p64_2)) h). clear h. intros h.
  use_stage (metro64_stage p64_2 4 4 (Nat.leb 4) r2' h (r4 p64_2) ltac:(lia) ltac:(reflexivity)). cbn [rbind].
  destruct (piece 4 4 r2') as [p3 r3']. cbn [fst snd]. generalize (opt p3 (m64_small p64_2 (r4 p64_2)) h). clear h. intros h.
  use_stage (metro64_stage p64_2 2 2 (Nat.leb 2) r3' h (r2 p64_2) ltac:(lia) ltac:(reflexivity)). cbn [rbind].
  destruct (piece 2 2 r3') as [p4 r4']. cbn [fst snd]. generalize (opt p4 (m64_small p64_2 (r2 p64_2)) h). clear h. intros h.
  use_stage (metro64_stage1 p64_2 r4' h (r1 p64_2)). cbn [rbind].
  destruct (piece 1 1 r4') as [p5 r5']. reflexivity.
Qed.

(** ** 128 bits *)
Lemma m128_stage16 P r v0 v1 :
  (if Nat.leb 16 (length r) then
       x <~ le_uint 8 r ;; let v0 := add64 v0 (mul64 x (k2 P)) in
       ptr <~ tail_from r 8 ;;
       let v0 := mul64 (rotate_right v0 (ra P)) (k3 P) in
       x <~ le_uint 8 ptr ;; let v1 := add64 v1 (mul64 x (k2 P)) in
       ptr <~ tail_from ptr 8 ;;
       let v1 := mul64 (rotate_right v1 (ra P)) (k3 P) in
       let v0 := xor v0 (mul64 (rotate_right (add64 (mul64 v0 (k2 P)) v1) (s16 P)) (k1 P)) in
       let v1 := xor v1 (mul64 (rotate_right (add64 (mul64 v1 (k3 P)) v0) (s16 P)) (k0 P)) in
       Ok (ptr, v0, v1)
     else Ok (r, v0, v1)) =
  Ok (snd (piece 16 16 r), fst (opt (fst (piece 16 16 r)) (m128_16 P) (v0, v1)), snd (opt (fst (piece 16 16 r)) (m128_16 P) (v0, v1))).
Proof.
  unfold piece. destruct (Nat.leb_spec 16 (length r)).
  - rewrite (le_uint_ok 8 r), (tail_from_ok r 8) by lia. cbn [rbind].
    rewrite (le_uint_ok 8 (skipn 8 r)), (tail_from_ok (skipn 8 r) 8) by (rewrite skipn_length; lia). cbn [rbind].
    rewrite <- skipn_add. cbn [opt fst snd]. unfold m128_16. rewrite !word_at_firstn by lia. reflexivity.
  - reflexivity.
Qed.
Lemma m128_stage_left P n r v0 v1 rot :
  (if Nat.leb n (length r) then
       x <~ le_uint n r ;; let v0 := add64 v0 (mul64 x (k2 P)) in
       ptr <~ tail_from r n ;;
       let v0 := mul64 (rotate_right v0 (ra P)) (k3 P) in
       let v0 := xor v0 (mul64 (rotate_right (add64 (mul64 v0 (k2 P)) v1) rot) (k1 P)) in
       Ok (ptr, v0)
     else Ok (r, v0)) =
  Ok (snd (piece n n r), fst (opt (fst (piece n n r)) (m128_left P rot) (v0, v1))).
Proof.
  unfold piece. destruct (Nat.leb_spec n (length r)).
  - rewrite le_uint_ok, tail_from_ok by lia. reflexivity.
  - reflexivity.
Qed.
Lemma m128_left_snd P n r v rot : snd (opt (fst (piece n n r)) (m128_left P rot) v) = snd v.
Proof. unfold piece. now destruct (n <=? length r)%nat. Qed.
Lemma m128_stage_right P n r v0 v1 rot :
  (if Nat.leb n (length r) then
       x <~ le_uint n r ;; let v1 := add64 v1 (mul64 x (k2 P)) in
       ptr <~ tail_from r n ;;
       let v1 := mul64 (rotate_right v1 (ra P)) (k3 P) in
       let v1 := xor v1 (mul64 (rotate_right (add64 (mul64 v1 (k3 P)) v0) rot) (k0 P)) in
       Ok (ptr, v1)
     else Ok (r, v1)) =
  Ok (snd (piece n n r), snd (opt (fst (piece n n r)) (m128_right P rot) (v0, v1))).
Proof.
  unfold piece. destruct (Nat.leb_spec n (length r)).
  - rewrite le_uint_ok, tail_from_ok by lia. reflexivity.
  - reflexivity.
Qed.
Lemma m128_right_fst P n r v rot : fst (opt (fst (piece n n r)) (m128_right P rot) v) = fst v.
Proof. unfold piece. now destruct (n <=? length r)%nat. Qed.
Lemma m128_stage1 P r v0 v1 rot :
  (if Nat.leb 1 (length r) then
       x <~ idx r 0 ;; let v1 := add64 v1 (mul64 x (k2 P)) in
       let v1 := mul64 (rotate_right v1 (ra P)) (k3 P) in
       let v1 := xor v1 (mul64 (rotate_right (add64 (mul64 v1 (k3 P)) v0) rot) (k0 P)) in
       Ok v1
     else Ok v1) =
  Ok (snd (opt (fst (piece 1 1 r)) (m128_right P rot) (v0, v1))).
Proof.
  unfold piece. destruct (Nat.leb_spec 1 (length r)).
  - rewrite idx_ok by lia. rewrite <- (firstn1 r) by lia. reflexivity.
  - reflexivity.
Qed.
Lemma m128_stage32 P key v0 v1 v2 v3 :
  (if Nat.leb 32 (length key) then
       '(ptr, v) <~ metro_loop (k0 P) (k1 P) (k2 P) (k3 P) (length key) key (v0, v1, v2, v3) ;;
       let '(v0, v1, _, _) := metro_mix (k0 P) (k1 P) (mr1 P) (mr2 P) (mr3 P) (mr4 P) v in
       Ok (ptr, v0, v1)
     else Ok (key, v0, v1)) =
  let v := if (32 <=? length key)%nat then
             m_mix (k0 P) (k1 P) (mr1 P) (mr2 P) (mr3 P) (mr4 P)
                 (fold_left (m_body (k0 P) (k1 P) (k2 P) (k3 P)) (fst (blocks 32 key)) (v0, v1, v2, v3))
           else (v0, v1) in
  Ok (snd (blocks 32 key), fst v, snd v).
Proof.
  pose proof (fold_blocks (m_body (k0 P) (k1 P) (k2 P) (k3 P)) 32 key (v0, v1, v2, v3) pos32) as F.
  destruct (blocks 32 key) as [bs r] eqn:E. cbn [fst snd].
  destruct (Nat.leb_spec 32 (length key)).
  - rewrite metro_loop_run by lia. rewrite <- F. cbn [fst snd rbind].
    destruct (fold_left _ bs _) as [[[? ?] ?] ?]. reflexivity.
  - rewrite (absorb_short 32 _ pos32) in F by assumption. inversion F. reflexivity.
Qed.
Lemma hash128_1_gen key seed : hash128_1 key seed = Ok (metro128 p128_1 key seed).
Proof.
  unfold hash128_1, metro128. cbv zeta. rewrite !add64_wrap_len.
  change (k0 p128_1) with 3359281633. change (k1 p128_1) with 2252921819. change (k2 p128_1) with 2078195771. change (k3 p128_1) with 794325157.
  generalize (add64 (mul64 (sub64 seed 3359281633) 794325157) (N.of_nat (length key))). intros v0.
  generalize (add64 (mul64 (add64 seed 2252921819) 2078195771) (N.of_nat (length key))). intros v1.
  generalize (add64 (mul64 (add64 seed 3359281633) 2078195771) (N.of_nat (length key))). intros v2.
  generalize (add64 (mul64 (sub64 seed 2252921819) 794325157) (N.of_nat (length key))). intros v3.
  use_stage (m128_stage32 p128_1 key v0 v1 v2 v3). cbv zeta. destruct (blocks 32 key) as [bs r]. cbn [rbind fst snd].
  change (k0 p128_1) with 3359281633. change (k1 p128_1) with 2252921819. change (k2 p128_1) with 2078195771. change (k3 p128_1) with 794325157.
  match goal with |- context [opt _ (m128_16 p128_1) ?X] => generalize X; intros [w0 w1] end. cbn [fst snd]. clear v0 v1 v2 v3.
  use_stage (m128_stage16 p128_1 r w0 w1). cbn [rbind].
  destruct (piece 16 16 r) as [p1 r1']. cbn [fst snd]. generalize (opt p1 (m128_16 p128_1) (w0, w1)). clear w0 w1. intros [v0 v1]. cbn [fst snd].
  use_stage (m128_stage_left p128_1 8 r1' v0 v1 (s8 p128_1)). cbn [rbind].
  pose proof (m128_left_snd p128_1 8 r1' (v0, v1) (s8 p128_1)) as E.
  destruct (piece 8 8 r1') as [p2 r2']. cbn [fst snd] in *. destruct (opt p2 (m128_left p128_1 (s8 p128_1)) (v0, v1)) as [w0 w1]. cbn [fst snd] in *.
  subst w1. clear v0.
  use_stage (m128_stage_right p128_1 4 r2' w0 v1 (s4 p128_1)). cbn [rbind].
  pose proof (m128_right_fst p128_1 4 r2' (w0, v1) (s4 p128_1)) as E.
  destruct (piece 4 4 r2') as [p3 r3']. cbn [fst snd] in *. destruct (opt p3 (m128_right p128_1 (s4 p128_1)) (w0, v1)) as [v0 w1]. cbn [fst snd] in *.
  subst v0. clear v1.
  use_stage (m128_stage_left p128_1 2 r3' w0 w1 (s2 p128_1)). cbn [rbind].
  pose proof (m128_left_snd p128_1 2 r3' (w0, w1) (s2 p128_1)) as E.
  destruct (piece 2 2 r3') as [p4 r4']. cbn [fst snd] in *. destruct (opt p4 (m128_left p128_1 (s2 p128_1)) (w0, w1)) as [v0 v1]. cbn [fst snd] in *.
  subst v1. clear w0.
  use_stage (m128_stage1 p128_1 r4' v0 w1 (s1 p128_1)). cbn [rbind].
  pose proof (m128_right_fst p128_1 1 r4' (v0, w1) (s1 p128_1)) as E.
  destruct (piece 1 1 r4') as [p5 r5']. cbn [fst snd] in *. destruct (opt p5 (m128_right p128_1 (s1 p128_1)) (v0, w1)) as [w0 v1]. cbn [fst snd] in *.
  subst w0. reflexivity.
Qed.
Lemma hash128_2_gen key seed : hash128_2 key seed = Ok (metro128 p128_2 key seed).
Proof.
  unfold hash128_2, metro128. cbv zeta. rewrite !add64_wrap_len.
  change (k0 p128_2) with 3603962101. change (k1 p128_2) with 2729050939. change (k2 p128_2) with 1654206401. change (k3 p128_2) with 817650473.
  generalize (add64 (mul64 (sub64 seed 3603962101) 817650473) (N.of_nat (length key))). intros v0.
  generalize (add64 (mul64 (add64 seed 2729050939) 1654206401) (N.of_nat (length key))). intros v1.
  generalize (add64 (mul64 (add64 seed 3603962101) 1654206401) (N.of_nat (length key))). intros v2.
  generalize (add64 (mul64 (sub64 seed 2729050939) 817650473) (N.of_nat (length key))). intros v3.
  use_stage (m128_stage32 p128_2 key v0 v1 v2 v3). cbv zeta. destruct (blocks 32 key) as [bs r]. cbn [rbind fst snd].
  change (k0 p128_2) with 3603962101. change (k1 p128_2) with 2729050939. change (k2 p128_2) with 1654206401. change (k3 p128_2) with 817650473.
  match goal with |- context [opt _ (m128_16 p128_2) ?X] => generalize X; intros [w0 w1] end. cbn [fst snd]. clear v0 v1 v2 v3.
  use_stage (m128_stage16 p128_2 r w0 w1). cbn [rbind].
  destruct (piece 16 16 r) as [p1 r1']. cbn [fst snd]. generalize (opt p1 (m128_16 p128_2) (w0, w1)). clear w0 w1. intros [v0 v1]. cbn [fst snd].
  use_stage (m128_stage_left p128_2 8 r1' v0 v1 (s8 p128_2)). cbn [rbind].
  pose proof (m128_left_snd p128_2 8 r1' (v0, v1) (s8 p128_2)) as E.
  destruct (piece 8 8 r1') as [p2 r2']. cbn [fst snd] in *. destruct (opt p2 (m128_left p128_2 (s8 p128_2)) (v0, v1)) as [w0 w1]. cbn [fst snd] in *.
  subst w1. clear v0.
  use_stage (m128_stage_right p128_2 4 r2' w0 v1 (s4 p128_2)). cbn [rbind].
  pose proof (m128_right_fst p128_2 4 r2' (w0, v1) (s4 p128_2)) as E.
  destruct (piece 4 4 r2') as [p3 r3']. cbn [fst snd] in *. destruct (opt p3 (m128_right p128_2 (s4 p128_2)) (w0, v1)) as [v0 w1]. cbn [fst snd] in *.
  subst v0. clear v1.
  use_stage (m128_stage_left p128_2 2 r3' w0 w1 (s2 p128_2)). cbn [rbind].
  pose proof (m128_left_snd p128_2 2 r3' (w0, w1) (s2 p128_2)) as E.
  destruct (piece 2 2 r3') as [p4 r4']. cbn [fst snd] in *. destruct (opt p4 (m128_left p128_2 (s2 p128_2)) (w0, w1)) as [v0 v1]. cbn [fst snd] in *.
  subst v1. clear w0.
  use_stage (m128_stage1 p128_2 r4' v0 w1 (s1 p128_2)). cbn [rbind].
  pose proof (m128_right_fst p128_2 1 r4' (v0, w1) (s1 p128_2)) as E.
  destruct (piece 1 1 r4') as [p5 r5']. cbn [fst snd] in *. destruct (opt p5 (m128_right p128_2 (s1 p128_2)) (v0, w1)) as [w0 v1]. cbn [fst snd] in *.
  subst w0. reflexivity.
Qed.
