(** Proofs about package gomap. *)
From Coq Require Import NArith List Arith Lia.
From Verif Require Import Words WordLemmas ListLemmas Mem Bij WordBij Blocks Mm3Spec Mm3Proofs GomapModel GomapSpec.
Open Scope N_scope.

Lemma deref_ok b p n : (p + n <= length b)%nat -> deref b p n = Ok (firstn n (skipn p b)).
Proof. intros H. unfold deref. apply Nat.leb_le in H. now rewrite H. Qed.
Lemma byteAt_ok b p : (p < length b)%nat -> byteAt b p = Ok (nth p b 0).
Proof.
  intros H. unfold byteAt. rewrite deref_ok by lia. cbn [rbind]. f_equal. rewrite <- (firstn_skipn p b) at 2.
  rewrite app_nth2; rewrite firstn_length, Nat.min_l by lia; [|lia]. rewrite Nat.sub_diag.
  pose proof (skipn_length p b). destruct (skipn p b); [reflexivity|]. reflexivity.
Qed.
Lemma read32_ok b p : bytes_ok b -> (p + 4 <= length b)%nat -> readUnaligned32 b p = Ok (at_ b p 4).
Proof. intros Hb H. unfold readUnaligned32. rewrite deref_ok by assumption. cbn [rbind]. unfold at_. rewrite le_int_load; [reflexivity|]. now apply bytes_ok_firstn, bytes_ok_skipn. Qed.
Lemma read64_ok b p : bytes_ok b -> (p + 8 <= length b)%nat -> readUnaligned64 b p = Ok (at_ b p 8).
Proof. intros Hb H. unfold readUnaligned64. rewrite deref_ok by assumption. cbn [rbind]. unfold at_. rewrite le_int_load; [reflexivity|]. now apply bytes_ok_firstn, bytes_ok_skipn. Qed.
Lemma at_fits b p n w : bytes_ok b -> 8 * N.of_nat n <= w -> fits w (at_ b p n).
Proof. intros Hb H. unfold at_. rewrite le_int_load by now apply bytes_ok_firstn, bytes_ok_skipn. apply le_load_firstn_fits; [now apply bytes_ok_skipn|assumption]. Qed.
Lemma at_skip b p i n : at_ (skipn p b) i n = at_ b (p + i) n.
Proof. unfold at_. now rewrite <- skipn_add. Qed.
Lemma nth_byte b i : bytes_ok b -> nth i b 0 < 256.
Proof. intros H. destruct (Nat.lt_ge_cases i (length b)); [|now rewrite nth_overflow]. unfold bytes_ok in H. rewrite Forall_forall in H. apply H. now apply nth_In. Qed.
Lemma nth_skipn' (b : list N) p i : nth i (skipn p b) 0 = nth (p + i) b 0.
Proof. revert b. induction p as [|p IH]; intros [|x b]; [reflexivity|reflexivity|destruct i; reflexivity|]. cbn [skipn Nat.add nth]. apply IH. Qed.

Lemma rotl_15_rol x : fits 32 x -> rotl_15 x = rol 32 x 15.
Proof. intros H. symmetry. now apply (rol_rotl 32 x 15). Qed.
Lemma rotl_11_rol x : fits 32 x -> rotl_11 x = rol 32 x 11.
Proof. intros H. symmetry. now apply (rol_rotl 32 x 11). Qed.
Lemma rotl_31_rol x : fits 64 x -> rotl_31 x = rol 64 x 31.
Proof. intros H. symmetry. now apply (rol_rotl 64 x 31). Qed.
Lemma rotl_27_rol x : fits 64 x -> rotl_27 x = rol 64 x 27.
Proof. intros H. symmetry. now apply (rol_rotl 64 x 27). Qed.
Lemma rol_fits w x k : fits w x -> k <= w -> fits w (rol w x k).
Proof. intros H Hk. rewrite rol_rotl by assumption. now apply rotlw_fits. Qed.
Lemma mod_fits w x : fits w (x mod 2 ^ w).
Proof. unfold fits. apply N.mod_lt. apply N.pow_nonzero. discriminate. Qed.

Section Variant.
  Variable V : variant.
  Hypothesis r1_le : r1 V <= W V.
  Hypothesis r2_le : r2 V <= W V.
  Lemma inject_fits h w : fits (W V) h -> fits (W V) (inject V h w).
  Proof. intros H. apply xor_fits; [assumption|apply mod_fits]. Qed.
  Lemma lane_fits h w : fits (W V) (lane V h w).
  Proof. apply mod_fits. Qed.
  Lemma inject_all_fits ws : forall h, fits (W V) h -> fits (W V) (inject_all V h ws).
  Proof.
    induction ws as [|w ws IH]; intros h H; [exact H|]. cbn [inject_all]. destruct ws; [now apply inject_fits|].
    apply IH. apply rol_fits; [apply lane_fits|assumption].
  Qed.
  Lemma lanes_length v b : length (lanes V v b) = 4%nat.
  Proof. reflexivity. Qed.
End Variant.

Lemma shlw_small w x k : x * 2 ^ k < 2 ^ w -> shlw w x k = x * 2 ^ k.
Proof. intros H. unfold shlw. rewrite wrap_mod, N.shiftl_mul_pow2. now apply N.mod_small. Qed.
Lemma three_eq w x y z : 32 <= w -> x < 256 -> y < 256 -> z < 256 -> addw w (addw w x (shlw w y 8)) (shlw w z 16) = x + 256 * y + 65536 * z.
Proof.
  intros Hw Hx Hy Hz. assert (P : 2 ^ 32 <= 2 ^ w) by (apply N.pow_le_mono_r; [discriminate|assumption]). change (2 ^ 32) with 4294967296 in P.
  assert (S1 : shlw w y 8 = y * 256) by (rewrite shlw_small; change (2 ^ 8) with 256; lia).
  assert (S2 : shlw w z 16 = z * 65536) by (rewrite shlw_small; change (2 ^ 16) with 65536; lia).
  rewrite S1, S2, !addw_mod. rewrite (N.mod_small (x + y * 256)) by lia. rewrite N.mod_small; lia.
Qed.

Lemma sum4 n a b c d : n <> 0 -> (((a mod n + b mod n) mod n + c mod n) mod n + d mod n) mod n = (a + b + c + d) mod n.
Proof. intros H. now rewrite <- (N.add_mod a b), <- (N.add_mod (a + b) c), <- (N.add_mod (a + b + c) d). Qed.
(** ** 32 bits *)
Lemma inject32 h w : xor h (mul32 w a1) = inject v32 h w.
Proof. unfold inject, mul32, xor. now rewrite mulw_mod. Qed.
Lemma lane32 h w : fits 32 h -> mul32 (rotl_15 (inject v32 h w)) a2 = lane v32 h w.
Proof. intros H. unfold lane, mul32. rewrite mulw_mod. rewrite rotl_15_rol by now apply (inject_fits v32). reflexivity. Qed.
Lemma hop32 h w : rotl_11 (lane v32 h w) = rol 32 (lane v32 h w) 11.
Proof. apply rotl_11_rol. apply (lane_fits v32). Qed.
Ltac fits32 := first [assumption | apply (lane_fits v32) | apply (rol_fits 32); [apply (lane_fits v32)|now vm_compute] | apply addw_fits ].
Lemma loop32_ok fuel : forall b p s x1 x2 x3 x4, bytes_ok b -> (p + s = length b)%nat -> (s < fuel)%nat ->
  fits 32 x1 -> fits 32 x2 -> fits 32 x3 -> fits 32 x4 ->
  exists y1 y2 y3 y4 r, absorb 16 (lanes v32) [x1; x2; x3; x4] (skipn p b) = ([y1; y2; y3; y4], r) /\
    loop32 fuel b p s x1 x2 x3 x4 = Ok ((length b - length r)%nat, length r, (y1, y2, y3, y4)) /\
    r = skipn (length b - length r) b /\ fits 32 y1 /\ fits 32 y2 /\ fits 32 y3 /\ fits 32 y4.
Proof.
  induction fuel as [|fuel IH]; intros b p s x1 x2 x3 x4 Hb Hp Hf F1 F2 F3 F4; [lia|]. cbn [loop32].
  assert (L : length (skipn p b) = s) by (rewrite skipn_length; lia).
  destruct (Nat.leb_spec 16 s) as [C|C].
  - rewrite !read32_ok by (assumption || lia). cbn [rbind]. rewrite !inject32, !lane32 by assumption.
    destruct (IH b (p + 4 + 4 + 4 + 4)%nat (s - 16)%nat (lane v32 x1 (at_ b p 4)) (lane v32 x2 (at_ b (p + 4) 4)) (lane v32 x3 (at_ b (p + 4 + 4) 4)) (lane v32 x4 (at_ b (p + 4 + 4 + 4) 4)))
      as (y1 & y2 & y3 & y4 & r & E & Lp & Er & G); [assumption|lia|lia|fits32|fits32|fits32|fits32|].
    exists y1, y2, y3, y4, r. split; [|split; [exact Lp|split; [exact Er|exact G]]].
    rewrite absorb_step by lia. rewrite <- E. rewrite <- skipn_add. f_equal; [|f_equal; lia].
    unfold lanes. cbn [map nth nb v32 Nat.mul]. 
    assert (A : forall i, (i + 4 <= 16)%nat -> at_ (firstn 16 (skipn p b)) i 4 = at_ b (p + i) 4).
    { intros i Hi. unfold at_. rewrite skipn_firstn_comm, firstn_firstn, Nat.min_l by lia. now rewrite <- skipn_add. }
    cbn [Nat.add]. rewrite !A by lia. rewrite !Nat.add_0_r, <- !Nat.add_assoc. reflexivity.
  - exists x1, x2, x3, x4, (skipn p b). rewrite absorb_short by lia. split; [reflexivity|].
    rewrite L. replace (length b - s)%nat with p by lia. auto 10.
Qed.
Lemma small32 fuel b p s h : bytes_ok b -> (p + s = length b)%nat -> (s <= 16)%nat -> fits 32 h ->
  tail32 (S fuel) b p s h = Ok (inject_all v32 h (rest32 (skipn p b))).
Proof.
  intros Hb Hp Hs Hh. cbn [tail32]. unfold rest32. assert (L : length (skipn p b) = s) by (rewrite skipn_length; lia). rewrite L.
  destruct (Nat.eqb_spec s 0); [reflexivity|].
  destruct (Nat.ltb_spec s 4).
  { rewrite Nat.div2_div. pose proof (Nat.div_lt s 2 ltac:(lia) ltac:(lia)). rewrite !byteAt_ok by lia. cbn [rbind].
    unfold add32, shl32. rewrite three_eq by (try apply nth_byte; try assumption; discriminate). rewrite inject32. unfold three. rewrite !nth_skipn', L, Nat.add_0_r. reflexivity. }
  destruct (Nat.eqb_spec s 4).
  { rewrite read32_ok by (assumption || lia). cbn [rbind]. now rewrite inject32, at_skip, Nat.add_0_r. }
  destruct (Nat.leb_spec s 8).
  { rewrite !read32_ok by (assumption || lia). cbn [rbind]. rewrite !inject32, lane32, hop32 by assumption. rewrite !at_skip, Nat.add_0_r.
    cbn [inject_all]. change (W v32) with 32. change (r2 v32) with 11. reflexivity. }
  destruct (Nat.leb_spec s 16); [|lia].
  rewrite !read32_ok by (assumption || lia). cbn [rbind]. rewrite !inject32.
  rewrite (lane32 h) by assumption. rewrite hop32. set (h1 := rol 32 (lane v32 h _) 11). assert (F1 : fits 32 h1) by fits32.
  rewrite (lane32 h1) by assumption. rewrite hop32. set (h2 := rol 32 (lane v32 h1 _) 11). assert (F2 : fits 32 h2) by fits32.
  rewrite (lane32 h2) by assumption. rewrite hop32. unfold h2, h1. rewrite !at_skip, Nat.add_0_r.
  cbn [inject_all]. change (W v32) with 32. change (r2 v32) with 11. reflexivity.
Qed.
Lemma combine32 y1 y2 y3 y4 : fits 32 y1 -> fits 32 y2 -> fits 32 y3 -> fits 32 y4 ->
  add32 (add32 (add32 (mul32 (rotl_11 y1) a1) (mul32 (rotl_11 y2) a2)) (mul32 (rotl_11 y3) a3)) (mul32 (rotl_11 y4) a4) = combine4 v32 [y1; y2; y3; y4].
Proof.
  intros. rewrite !rotl_11_rol by assumption. unfold combine4, add32, mul32. cbn [nth W r2 m1 m2 m3 m4 v32]. rewrite !addw_mod, !mulw_mod.
  apply sum4. discriminate.
Qed.
Lemma tail32_long fuel b p s h : (16 < s)%nat -> tail32 (S fuel) b p s h =
  ('(p, s, (v1, v2, v3, v4)) <~ loop32 (S (length b)) b p s h (add32 h a1) (add32 h a2) (add32 h a3) ;;
   tail32 fuel b p s (add32 (add32 (add32 (mul32 (rotl_11 v1) a1) (mul32 (rotl_11 v2) a2)) (mul32 (rotl_11 v3) a3)) (mul32 (rotl_11 v4) a4))).
Proof.
  intros H. cbn [tail32]. destruct (Nat.eqb_spec s 0); [lia|]. destruct (Nat.ltb_spec s 4); [lia|]. destruct (Nat.eqb_spec s 4); [lia|].
  destruct (Nat.leb_spec s 8); [lia|]. destruct (Nat.leb_spec s 16); [lia|]. reflexivity.
Qed.
Lemma tail32_ok b h : bytes_ok b -> fits 32 h -> tail32 2 b 0 (length b) h = Ok (body v32 rest32 b h).
Proof.
  intros Hb Hh. unfold body. change (4 * nb v32)%nat with 16%nat.
  destruct (Nat.leb_spec (length b) 16) as [C|C].
  - rewrite small32 by (assumption || lia). reflexivity.
  - pose proof (fold_blocks (lanes v32) 16 b [h; (h + m1 v32) mod 2 ^ W v32; (h + m2 v32) mod 2 ^ W v32; (h + m3 v32) mod 2 ^ W v32] ltac:(lia)) as F.
    destruct (blocks 16 b) as [bs r0]. rewrite tail32_long by assumption.
    destruct (loop32_ok (S (length b)) b 0 (length b) h (add32 h a1) (add32 h a2) (add32 h a3) Hb eq_refl ltac:(lia) Hh)
      as (y1 & y2 & y3 & y4 & r & E & Lp & Er & F1 & F2 & F3 & F4); [apply addw_fits|apply addw_fits|apply addw_fits|].
    rewrite Lp. cbn [rbind]. rewrite combine32 by assumption. cbn [skipn] in E.
    unfold add32 in E. rewrite !addw_mod in E. change a1 with (m1 v32) in E. change a2 with (m2 v32) in E. change a3 with (m3 v32) in E. change 32 with (W v32) in E.
    assert (Lr : (length r < 16)%nat).
    { pose proof (absorb_rest_lt 16 (lanes v32) ltac:(lia) [h; (h + m1 v32) mod 2 ^ W v32; (h + m2 v32) mod 2 ^ W v32; (h + m3 v32) mod 2 ^ W v32] b) as Q.
      rewrite E in Q. exact Q. }
    rewrite E in F. pose proof (f_equal fst F) as Fv. pose proof (f_equal snd F) as Fr. cbn [fst snd] in Fv, Fr. rewrite Fr, Fv.
    assert (Lb : (length r <= length b)%nat) by (rewrite Er, skipn_length; lia).
    rewrite small32; [|assumption|lia|lia|apply (mod_fits 32)]. now rewrite <- Er.
Qed.
(** ** 64 bits *)
Lemma inject64 h w : xor h (mul64 w b1) = inject v64 h w.
Proof. unfold inject, mul64, xor. now rewrite mulw_mod. Qed.
Lemma lane64 h w : fits 64 h -> mul64 (rotl_31 (inject v64 h w)) b2 = lane v64 h w.
Proof. intros H. unfold lane, mul64. rewrite mulw_mod. rewrite rotl_31_rol by now apply (inject_fits v64). reflexivity. Qed.
Lemma hop64 h w : rotl_27 (lane v64 h w) = rol 64 (lane v64 h w) 27.
Proof. apply rotl_27_rol. apply (lane_fits v64). Qed.
Ltac fits64 := first [assumption | apply (lane_fits v64) | apply (rol_fits 64); [apply (lane_fits v64)|now vm_compute] | apply addw_fits ].
Lemma loop64_ok fuel : forall b p s x1 x2 x3 x4, bytes_ok b -> (p + s = length b)%nat -> (s < fuel)%nat ->
  fits 64 x1 -> fits 64 x2 -> fits 64 x3 -> fits 64 x4 ->
  exists y1 y2 y3 y4 r, absorb 32 (lanes v64) [x1; x2; x3; x4] (skipn p b) = ([y1; y2; y3; y4], r) /\
    loop64 fuel b p s x1 x2 x3 x4 = Ok ((length b - length r)%nat, length r, (y1, y2, y3, y4)) /\
    r = skipn (length b - length r) b /\ fits 64 y1 /\ fits 64 y2 /\ fits 64 y3 /\ fits 64 y4.
Proof.
  induction fuel as [|fuel IH]; intros b p s x1 x2 x3 x4 Hb Hp Hf F1 F2 F3 F4; [lia|]. cbn [loop64].
  assert (L : length (skipn p b) = s) by (rewrite skipn_length; lia).
  destruct (Nat.leb_spec 32 s) as [C|C].
  - rewrite !read64_ok by (assumption || lia). cbn [rbind]. rewrite !inject64, !lane64 by assumption.
    destruct (IH b (p + 8 + 8 + 8 + 8)%nat (s - 32)%nat (lane v64 x1 (at_ b p 8)) (lane v64 x2 (at_ b (p + 8) 8)) (lane v64 x3 (at_ b (p + 8 + 8) 8)) (lane v64 x4 (at_ b (p + 8 + 8 + 8) 8)))
      as (y1 & y2 & y3 & y4 & r & E & Lp & Er & G); [assumption|lia|lia|fits64|fits64|fits64|fits64|].
    exists y1, y2, y3, y4, r. split; [|split; [exact Lp|split; [exact Er|exact G]]].
    rewrite absorb_step by lia. rewrite <- E. rewrite <- skipn_add. f_equal; [|f_equal; lia].
    unfold lanes. cbn [map nth nb v64 Nat.mul]. 
    assert (A : forall i, (i + 8 <= 32)%nat -> at_ (firstn 32 (skipn p b)) i 8 = at_ b (p + i) 8).
    { intros i Hi. unfold at_. rewrite skipn_firstn_comm, firstn_firstn, Nat.min_l by lia. now rewrite <- skipn_add. }
    cbn [Nat.add]. rewrite !A by lia. rewrite !Nat.add_0_r, <- !Nat.add_assoc. reflexivity.
  - exists x1, x2, x3, x4, (skipn p b). rewrite absorb_short by lia. split; [reflexivity|].
    rewrite L. replace (length b - s)%nat with p by lia. auto 10.
Qed.
Lemma small64 fuel b p s h : bytes_ok b -> (p + s = length b)%nat -> (s <= 32)%nat -> fits 64 h ->
  tail64 (S fuel) b p s h = Ok (inject_all v64 h (rest64 (skipn p b))).
Proof.
  intros Hb Hp Hs Hh. cbn [tail64]. unfold rest64. assert (L : length (skipn p b) = s) by (rewrite skipn_length; lia). rewrite L.
  destruct (Nat.eqb_spec s 0); [reflexivity|].
  destruct (Nat.ltb_spec s 4).
  { rewrite Nat.div2_div. pose proof (Nat.div_lt s 2 ltac:(lia) ltac:(lia)). rewrite !byteAt_ok by lia. cbn [rbind].
    unfold add64, shl64. rewrite three_eq by (try apply nth_byte; try assumption; discriminate). rewrite inject64. unfold three. rewrite !nth_skipn', L, Nat.add_0_r. reflexivity. }
  destruct (Nat.leb_spec s 8).
  { rewrite !read32_ok by (assumption || lia). cbn [rbind]. rewrite inject64. rewrite !at_skip, Nat.add_0_r. cbn [inject_all]. do 2 f_equal.
    pose proof (at_fits b p 4 32 Hb ltac:(now vm_compute)) as Q1. pose proof (at_fits b (p + (s - 4)) 4 32 Hb ltac:(now vm_compute)) as Q2.
    unfold fits in Q1, Q2. change (2 ^ 32) with 4294967296 in *.
    assert (S1 : shl64 (at_ b (p + (s - 4)) 4) 32 = at_ b (p + (s - 4)) 4 * 4294967296).
    { unfold shl64. rewrite shlw_small; change (2 ^ 32) with 4294967296; [reflexivity|]. change (2 ^ 64) with 18446744073709551616. lia. }
    rewrite S1. unfold add64. rewrite addw_mod, N.mod_small; [lia|]. change (2 ^ 64) with 18446744073709551616. lia. }
  destruct (Nat.leb_spec s 16).
  { rewrite !read64_ok by (assumption || lia). cbn [rbind]. rewrite !inject64, lane64, hop64 by assumption. rewrite !at_skip, Nat.add_0_r.
    cbn [inject_all]. change (W v64) with 64. change (r2 v64) with 27. reflexivity. }
  destruct (Nat.leb_spec s 32); [|lia].
  rewrite !read64_ok by (assumption || lia). cbn [rbind]. rewrite !inject64.
  rewrite (lane64 h) by assumption. rewrite hop64. set (h1 := rol 64 (lane v64 h _) 27). assert (F1 : fits 64 h1) by fits64.
  rewrite (lane64 h1) by assumption. rewrite hop64. set (h2 := rol 64 (lane v64 h1 _) 27). assert (F2 : fits 64 h2) by fits64.
  rewrite (lane64 h2) by assumption. rewrite hop64. unfold h2, h1. rewrite !at_skip, Nat.add_0_r.
  cbn [inject_all]. change (W v64) with 64. change (r2 v64) with 27. reflexivity.
Qed.
Lemma combine64 y1 y2 y3 y4 : fits 64 y1 -> fits 64 y2 -> fits 64 y3 -> fits 64 y4 ->
  add64 (add64 (add64 (mul64 (rotl_27 y1) b1) (mul64 (rotl_27 y2) b2)) (mul64 (rotl_27 y3) b3)) (mul64 (rotl_27 y4) b4) = combine4 v64 [y1; y2; y3; y4].
Proof.
  intros. rewrite !rotl_27_rol by assumption. unfold combine4, add64, mul64. cbn [nth W r2 m1 m2 m3 m4 v64]. rewrite !addw_mod, !mulw_mod.
  apply sum4. discriminate.
Qed.
Lemma tail64_long fuel b p s h : (32 < s)%nat -> tail64 (S fuel) b p s h =
  ('(p, s, (v1, v2, v3, v4)) <~ loop64 (S (length b)) b p s h (add64 h b1) (add64 h b2) (add64 h b3) ;;
   tail64 fuel b p s (add64 (add64 (add64 (mul64 (rotl_27 v1) b1) (mul64 (rotl_27 v2) b2)) (mul64 (rotl_27 v3) b3)) (mul64 (rotl_27 v4) b4))).
Proof.
  intros H. cbn [tail64]. destruct (Nat.eqb_spec s 0); [lia|]. destruct (Nat.ltb_spec s 4); [lia|]. 
  destruct (Nat.leb_spec s 8); [lia|]. destruct (Nat.leb_spec s 16); [lia|]. destruct (Nat.leb_spec s 32); [lia|]. reflexivity.
Qed.
Lemma tail64_ok b h : bytes_ok b -> fits 64 h -> tail64 2 b 0 (length b) h = Ok (body v64 rest64 b h).
Proof.
  intros Hb Hh. unfold body. change (4 * nb v64)%nat with 32%nat.
  destruct (Nat.leb_spec (length b) 32) as [C|C].
  - rewrite small64 by (assumption || lia). reflexivity.
  - pose proof (fold_blocks (lanes v64) 32 b [h; (h + m1 v64) mod 2 ^ W v64; (h + m2 v64) mod 2 ^ W v64; (h + m3 v64) mod 2 ^ W v64] ltac:(lia)) as F.
    destruct (blocks 32 b) as [bs r0]. rewrite tail64_long by assumption.
    destruct (loop64_ok (S (length b)) b 0 (length b) h (add64 h b1) (add64 h b2) (add64 h b3) Hb eq_refl ltac:(lia) Hh)
      as (y1 & y2 & y3 & y4 & r & E & Lp & Er & F1 & F2 & F3 & F4); [apply addw_fits|apply addw_fits|apply addw_fits|].
    rewrite Lp. cbn [rbind]. rewrite combine64 by assumption. cbn [skipn] in E.
    unfold add64 in E. rewrite !addw_mod in E. change b1 with (m1 v64) in E. change b2 with (m2 v64) in E. change b3 with (m3 v64) in E. change 64 with (W v64) in E.
    assert (Lr : (length r < 32)%nat).
    { pose proof (absorb_rest_lt 32 (lanes v64) ltac:(lia) [h; (h + m1 v64) mod 2 ^ W v64; (h + m2 v64) mod 2 ^ W v64; (h + m3 v64) mod 2 ^ W v64] b) as Q.
      rewrite E in Q. exact Q. }
    rewrite E in F. pose proof (f_equal fst F) as Fv. pose proof (f_equal snd F) as Fr. cbn [fst snd] in Fv, Fr. rewrite Fr, Fv.
    assert (Lb : (length r <= length b)%nat) by (rewrite Er, skipn_length; lia).
    rewrite small64; [|assumption|lia|lia|apply (mod_fits 64)]. now rewrite <- Er.
Qed.

(** ** The whole functions *)
Lemma fin32 h : xor (mul32 (xor (mul32 (xor h (shr h 17)) a3) (shr (mul32 (xor h (shr h 17)) a3) 13)) a4)
  (shr (mul32 (xor (mul32 (xor h (shr h 17)) a3) (shr (mul32 (xor h (shr h 17)) a3) 13)) a4) 16) = finish32 h.
Proof. unfold finish32, xsr, mul32, shr, xor. rewrite !mulw_mod, !N.shiftr_div_pow2. reflexivity. Qed.
Lemma fin64 h : xor (mul64 (xor (mul64 (xor h (shr h 33)) b2) (shr (mul64 (xor h (shr h 33)) b2) 29)) b3)
  (shr (mul64 (xor (mul64 (xor h (shr h 33)) b2) (shr (mul64 (xor h (shr h 33)) b2) 29)) b3) 32) = finish64 h.
Proof. unfold finish64, xsr, mul64, shr, xor. rewrite !mulw_mod, !N.shiftr_div_pow2. reflexivity. Qed.
Lemma Hash32_ok b seed : bytes_ok b -> b <> [] -> Hash32 b seed = Ok (gomap32 b seed).
Proof.
  intros Hb Hn. unfold Hash32. destruct b as [|x b]; [contradiction|]. rewrite tail32_ok; [|assumption|apply addw_fits]. cbn [rbind].
  unfold gomap32, start. rewrite fin32. unfold add32. rewrite addw_mod, wrap_mod, N.add_mod_idemp_r by discriminate. reflexivity.
Qed.
Lemma Hash64_ok b seed : bytes_ok b -> b <> [] -> Hash64 b seed = Ok (gomap64 b seed).
Proof.
  intros Hb Hn. unfold Hash64. destruct b as [|x b]; [contradiction|]. rewrite tail64_ok; [|assumption|apply addw_fits]. cbn [rbind].
  unfold gomap64, start. rewrite fin64. unfold add64. rewrite addw_mod, wrap_mod, N.add_mod_idemp_r by discriminate. reflexivity.
Qed.

(** ** Bijections *)
Lemma bij_mulmod w c : N.odd c = true -> 0 < w -> bijection_on (fits w) (fun x => (x * c) mod 2 ^ w).
Proof. intros H Hw. apply (bij_ext _ (fun x => mulw w x c)); [intros; now rewrite mulw_mod|]. now apply bij_mul. Qed.
Lemma bij_rol w k : k <= w -> bijection_on (fits w) (fun x => rol w x k).
Proof. intros H. apply (bij_ext _ (fun x => rotlw w x k)); [intros; now rewrite rol_rotl|]. now apply bij_rotl. Qed.
Lemma bij_xsr' w k : 0 < k -> bijection_on (fits w) (xsr k).
Proof. intros H. apply (bij_ext _ (fun x => xor x (shr x k))); [intros; unfold xsr, xor, shr; now rewrite N.shiftr_div_pow2|]. now apply bij_xsr. Qed.
Lemma bij_inject V w : bijection_on (fits (W V)) (fun h => inject V h w).
Proof. apply (bij_xor (W V)). apply mod_fits. Qed.
Lemma bij_inject_all V ws : N.odd (m2 V) = true -> 0 < W V -> r1 V <= W V -> r2 V <= W V -> bijection_on (fits (W V)) (fun h => inject_all V h ws).
Proof.
  intros Ho HW H1 H2. induction ws as [|w ws IH]; [apply bij_id|]. destruct ws as [|w' ws]; [apply bij_inject|].
  apply (bij_ext _ (fun h => inject_all V (rol (W V) (lane V h w) (r2 V)) (w' :: ws))); [reflexivity|].
  apply (bij_comp _ (fun h => rol (W V) (lane V h w) (r2 V)) (fun h => inject_all V h (w' :: ws))); [|exact IH].
  apply (bij_comp _ (fun h => lane V h w) (fun x => rol (W V) x (r2 V))); [|now apply bij_rol].
  unfold lane. apply (bij_comp _ (fun h => rol (W V) (inject V h w) (r1 V)) (fun x => (x * m2 V) mod 2 ^ W V)); [|now apply bij_mulmod].
  apply (bij_comp _ (fun h => inject V h w) (fun x => rol (W V) x (r1 V))); [apply bij_inject|now apply bij_rol].
Qed.
Lemma bij_finish32 : bijection_on (fits 32) finish32.
Proof.
  unfold finish32. apply (bij_comp _ (fun h => (xsr 13 ((xsr 17 h * m3 v32) mod 2 ^ 32) * m4 v32) mod 2 ^ 32) (xsr 16)); [|now apply bij_xsr'].
  apply (bij_comp _ (fun h => xsr 13 ((xsr 17 h * m3 v32) mod 2 ^ 32)) (fun x => (x * m4 v32) mod 2 ^ 32)); [|now apply bij_mulmod].
  apply (bij_comp _ (fun h => (xsr 17 h * m3 v32) mod 2 ^ 32) (xsr 13)); [|now apply bij_xsr'].
  apply (bij_comp _ (xsr 17) (fun x => (x * m3 v32) mod 2 ^ 32)); [now apply bij_xsr'|now apply bij_mulmod].
Qed.
Lemma bij_finish64 : bijection_on (fits 64) finish64.
Proof.
  unfold finish64. apply (bij_comp _ (fun h => (xsr 29 ((xsr 33 h * m2 v64) mod 2 ^ 64) * m3 v64) mod 2 ^ 64) (xsr 32)); [|now apply bij_xsr'].
  apply (bij_comp _ (fun h => xsr 29 ((xsr 33 h * m2 v64) mod 2 ^ 64)) (fun x => (x * m3 v64) mod 2 ^ 64)); [|now apply bij_mulmod].
  apply (bij_comp _ (fun h => (xsr 33 h * m2 v64) mod 2 ^ 64) (xsr 29)); [|now apply bij_xsr'].
  apply (bij_comp _ (xsr 33) (fun x => (x * m2 v64) mod 2 ^ 64)); [now apply bij_xsr'|now apply bij_mulmod].
Qed.
Lemma bij_start V k : bijection_on (fits (W V)) (start V k).
Proof. apply (bij_ext _ (fun x => addw (W V) x (N.of_nat (length k)))); [intros; unfold start; now rewrite addw_mod|]. apply bij_add. Qed.
Lemma bij_gomap32 k : (length k <= 16)%nat -> bijection_on (fits 32) (gomap32 k).
Proof.
  intros H. unfold gomap32. apply (bij_comp _ (fun s => body v32 rest32 k (start v32 k s)) finish32); [|apply bij_finish32].
  apply (bij_comp _ (start v32 k) (body v32 rest32 k)); [apply (bij_start v32)|]. unfold body. change (4 * nb v32)%nat with 16%nat.
  apply Nat.leb_le in H. rewrite H. now apply (bij_inject_all v32).
Qed.
Lemma bij_gomap64 k : (length k <= 32)%nat -> bijection_on (fits 64) (gomap64 k).
Proof.
  intros H. unfold gomap64. apply (bij_comp _ (fun s => body v64 rest64 k (start v64 k s)) finish64); [|apply bij_finish64].
  apply (bij_comp _ (start v64 k) (body v64 rest64 k)); [apply (bij_start v64)|]. unfold body. change (4 * nb v64)%nat with 32%nat.
  apply Nat.leb_le in H. rewrite H. now apply (bij_inject_all v64).
Qed.
(** ** Short keys do not collide *)
Lemma inject_inj V h w w' : N.odd (m1 V) = true -> 0 < W V -> fits (W V) w -> fits (W V) w' -> inject V h w = inject V h w' -> w = w'.
Proof.
  intros Ho HW Hw Hw' E. unfold inject in E. apply (f_equal (N.lxor h)) in E. rewrite <- !N.lxor_assoc, !N.lxor_nilpotent, !N.lxor_0_l in E.
  now apply (bij_inj _ _ (bij_mulmod (W V) (m1 V) Ho HW)) in E.
Qed.
Lemma three_fits k w : bytes_ok k -> 32 <= w -> fits w (three k).
Proof.
  intros H Hw. unfold three. pose proof (nth_byte k 0 H). pose proof (nth_byte k (length k / 2) H). pose proof (nth_byte k (length k - 1) H).
  unfold fits. apply N.lt_le_trans with (2 ^ 32); [change (2 ^ 32) with 4294967296; lia|]. apply N.pow_le_mono_r; [discriminate|assumption].
Qed.
Lemma three_inj k k' : bytes_ok k -> bytes_ok k' -> length k = length k' -> (length k <= 3)%nat -> three k = three k' -> k = k'.
Proof.
  intros H H' L L3 E. unfold three in E. rewrite <- L in E.
  pose proof (nth_byte k 0 H). pose proof (nth_byte k (length k / 2) H). pose proof (nth_byte k (length k - 1) H).
  pose proof (nth_byte k' 0 H'). pose proof (nth_byte k' (length k / 2) H'). pose proof (nth_byte k' (length k - 1) H').
  assert (E0 : nth 0 k 0 = nth 0 k' 0 /\ nth (length k / 2) k 0 = nth (length k / 2) k' 0 /\ nth (length k - 1) k 0 = nth (length k - 1) k' 0) by lia.
  clear -L L3 E0. destruct E0 as (E0 & E1 & E2).
  destruct k as [|x [|y [|z [|]]]], k' as [|x' [|y' [|z' [|]]]]; cbn [length] in *; try lia; cbn in *; subst; reflexivity.
Qed.
Lemma at_inj k k' i n : bytes_ok k -> bytes_ok k' -> length k = length k' -> at_ k i n = at_ k' i n -> firstn n (skipn i k) = firstn n (skipn i k').
Proof.
  intros H H' L E. unfold at_ in E. rewrite !le_int_load in E by now apply bytes_ok_firstn, bytes_ok_skipn.
  apply le_load_inj in E; [exact E|now apply bytes_ok_firstn, bytes_ok_skipn|now apply bytes_ok_firstn, bytes_ok_skipn|].
  rewrite !firstn_length, !skipn_length. lia.
Qed.
Lemma rest32_single k : (1 <= length k <= 4)%nat -> exists w, rest32 k = [w] /\ w = (if (length k <? 4)%nat then three k else at_ k 0 4).
Proof.
  intros H. unfold rest32. destruct (Nat.eqb_spec (length k) 0); [lia|]. destruct (Nat.ltb_spec (length k) 4); [now eexists|].
  destruct (Nat.eqb_spec (length k) 4); [now eexists|lia].
Qed.
Lemma gomap32_short k k' seed : bytes_ok k -> bytes_ok k' -> length k = length k' -> (1 <= length k <= 4)%nat -> fits 32 seed ->
  gomap32 k seed = gomap32 k' seed -> k = k'.
Proof.
  intros H H' L B Hs E. unfold gomap32 in E.
  destruct (rest32_single k B) as (w & R & Ew). destruct (rest32_single k' ltac:(lia)) as (w' & R' & Ew').
  assert (Fs : forall k, fits 32 (start v32 k seed)) by (intros; apply (mod_fits 32)).
  assert (Bd : forall k, (length k <= 4)%nat -> body v32 rest32 k (start v32 k seed) = inject_all v32 (start v32 k seed) (rest32 k)).
  { intros x Hx. unfold body. change (4 * nb v32)%nat with 16%nat. destruct (Nat.leb_spec (length x) 16); [reflexivity|lia]. }
  rewrite !Bd, R, R' in E by lia. cbn [inject_all] in E.
  apply (bij_inj _ _ bij_finish32) in E; [|now apply (inject_fits v32)|now apply (inject_fits v32)].
  unfold start in E at 2. rewrite <- L in E. fold (start v32 k seed) in E.
  assert (Ww : fits 32 w) by (rewrite Ew; destruct (Nat.ltb (length k) 4); [now apply three_fits|now apply at_fits]).
  assert (Ww' : fits 32 w') by (rewrite Ew'; destruct (Nat.ltb (length k') 4); [now apply three_fits|now apply at_fits]).
  apply (inject_inj v32) in E; [|reflexivity|reflexivity|assumption|assumption].
  rewrite Ew, Ew', <- L in E. destruct (Nat.ltb_spec (length k) 4).
  - apply three_inj; auto. lia.
  - apply at_inj in E; auto. cbn [skipn] in E. rewrite !firstn_all2 in E by lia. exact E.
Qed.
Lemma rest64_single k : (1 <= length k <= 8)%nat -> exists w, rest64 k = [w] /\ w = (if (length k <? 4)%nat then three k else at_ k 0 4 + 2 ^ 32 * at_ k (length k - 4) 4).
Proof.
  intros H. unfold rest64. destruct (Nat.eqb_spec (length k) 0); [lia|]. destruct (Nat.ltb_spec (length k) 4); [now eexists|].
  destruct (Nat.leb_spec (length k) 8); [now eexists|lia].
Qed.
Lemma pair_fits k : bytes_ok k -> fits 64 (at_ k 0 4 + 2 ^ 32 * at_ k (length k - 4) 4).
Proof.
  intros H. pose proof (at_fits k 0 4 32 H ltac:(now vm_compute)) as Q1. pose proof (at_fits k (length k - 4) 4 32 H ltac:(now vm_compute)) as Q2.
  unfold fits in *. change (2 ^ 32) with 4294967296 in *. change (2 ^ 64) with 18446744073709551616. lia.
Qed.
Lemma gomap64_short k k' seed : bytes_ok k -> bytes_ok k' -> length k = length k' -> (1 <= length k <= 8)%nat -> fits 64 seed ->
  gomap64 k seed = gomap64 k' seed -> k = k'.
Proof.
  intros H H' L B Hs E. unfold gomap64 in E.
  destruct (rest64_single k B) as (w & R & Ew). destruct (rest64_single k' ltac:(lia)) as (w' & R' & Ew').
  assert (Fs : forall k, fits 64 (start v64 k seed)) by (intros; apply (mod_fits 64)).
  assert (Bd : forall k, (length k <= 8)%nat -> body v64 rest64 k (start v64 k seed) = inject_all v64 (start v64 k seed) (rest64 k)).
  { intros x Hx. unfold body. change (4 * nb v64)%nat with 32%nat. destruct (Nat.leb_spec (length x) 32); [reflexivity|lia]. }
  rewrite !Bd, R, R' in E by lia. cbn [inject_all] in E.
  apply (bij_inj _ _ bij_finish64) in E; [|now apply (inject_fits v64)|now apply (inject_fits v64)].
  unfold start in E at 2. rewrite <- L in E. fold (start v64 k seed) in E.
  assert (Ww : fits 64 w) by (rewrite Ew; destruct (Nat.ltb (length k) 4); [now apply three_fits|now apply pair_fits]).
  assert (Ww' : fits 64 w') by (rewrite Ew'; destruct (Nat.ltb (length k') 4); [now apply three_fits|now apply pair_fits]).
  apply (inject_inj v64) in E; [|reflexivity|reflexivity|assumption|assumption].
  rewrite Ew, Ew', <- L in E. destruct (Nat.ltb_spec (length k) 4).
  - apply three_inj; auto. lia.
  - pose proof (at_fits k 0 4 32 H ltac:(now vm_compute)) as Q1. pose proof (at_fits k' 0 4 32 H' ltac:(now vm_compute)) as Q2.
    unfold fits in Q1, Q2. change (2 ^ 32) with 4294967296 in *.
    assert (E1 : at_ k 0 4 = at_ k' 0 4) by lia. assert (E2 : at_ k (length k - 4) 4 = at_ k' (length k - 4) 4) by lia.
    apply at_inj in E1; auto. apply at_inj in E2; auto. cbn [skipn] in E1.
    rewrite !(firstn_all2 (n := 4) (skipn _ _)) in E2 by (rewrite skipn_length; lia).
    rewrite <- (firstn_skipn 4 k), <- (firstn_skipn 4 k'), E1. f_equal.
    replace 4%nat with ((length k - 4) + (8 - length k))%nat by lia. now rewrite !skipn_add, E2.
Qed.
(** ** The portable reads *)
Lemma portable32_ok q : bytes_ok q -> length q = 4%nat -> portable32 q = le_load q.
Proof.
  intros H L. destruct q as [|x0 [|x1 [|x2 [|x3 [|]]]]]; cbn [length] in L; try lia.
  rewrite <- le_int_load by assumption. unfold portable32, add32, shl32. cbn [nth le_int].
  unfold bytes_ok in H. repeat match goal with H : Forall _ (_ :: _) |- _ => apply Forall_cons_iff in H; destruct H end. unfold byte_ok in *.
  rewrite !shlw_small by (cbn [N.pow Pos.pow Pos.mul]; change (2 ^ 32) with 4294967296; change (2 ^ 8) with 256; change (2 ^ 16) with 65536; change (2 ^ 24) with 16777216; lia).
  change (2 ^ 8) with 256. change (2 ^ 16) with 65536. change (2 ^ 24) with 16777216. rewrite !addw_mod. change (2 ^ 32) with 4294967296.
  rewrite (N.mod_small (x0 + _)) by lia. rewrite (N.mod_small (x0 + _ + _)) by lia. rewrite N.mod_small by lia. lia.
Qed.
Lemma portable64_ok q : bytes_ok q -> length q = 8%nat -> portable64 q = le_load q.
Proof.
  intros H L. destruct q as [|x0 [|x1 [|x2 [|x3 [|x4 [|x5 [|x6 [|x7 [|]]]]]]]]]; cbn [length] in L; try lia.
  rewrite <- le_int_load by assumption. unfold portable64, add64, shl64. cbn [nth le_int].
  unfold bytes_ok in H. repeat match goal with H : Forall _ (_ :: _) |- _ => apply Forall_cons_iff in H; destruct H end. unfold byte_ok in *.
  rewrite !shlw_small by (change (2 ^ 64) with 18446744073709551616; match goal with |- _ * 2 ^ ?k < _ => let v := eval vm_compute in (2 ^ k) in change (2 ^ k) with v end; lia).
  repeat match goal with |- context [2 ^ ?k] => let v := eval vm_compute in (2 ^ k) in change (2 ^ k) with v end.
  rewrite !addw_mod. change (2 ^ 64) with 18446744073709551616.
  rewrite (N.mod_small (x0 + _)) by lia. rewrite (N.mod_small (x0 + _ + _)) by lia. rewrite (N.mod_small (x0 + _ + _ + _)) by lia.
  rewrite (N.mod_small (x0 + _ + _ + _ + _)) by lia. rewrite (N.mod_small (x0 + _ + _ + _ + _ + _)) by lia.
  rewrite (N.mod_small (x0 + _ + _ + _ + _ + _ + _)) by lia. rewrite N.mod_small by lia. lia.
Qed.
