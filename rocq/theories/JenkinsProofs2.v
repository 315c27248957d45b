(** Package jenkins: the hash functions equal the specification. *)
From Coq Require Import ZArith.
From Verif Require Import Words WordLemmas ListLemmas Blocks Bij Mem Mm3Spec Mm3Proofs
  JenkinsModel JenkinsSpec JenkinsProofs.
Open Scope N_scope.

(** ** Operators *)
Lemma madd_addw w a b : madd w a b = addw w a b. Proof. now rewrite addw_mod. Qed.
Lemma msub_subw w a b : msub w a b = subw w a b. Proof. now rewrite subw_mod. Qed.
Lemma mshl_shlw w a k : mshl w a k = shlw w a k.
Proof. unfold mshl, shlw. now rewrite wrap_mod, N.shiftl_mul_pow2. Qed.
Lemma mshr_shr a k : mshr a k = shr a k. Proof. unfold mshr, shr. now rewrite N.shiftr_div_pow2. Qed.
Lemma jrot_rotl x k : 0 < k -> k < 32 -> jrot x k = rotlw 32 x k.
Proof.
  intros H0 H. unfold jrot, rotlw. f_equal. f_equal. unfold sub32. rewrite subw_mod.
  change (2 ^ 32) with 4294967296. rewrite (N.mod_small k) by lia.
  replace (32 + (4294967296 - k)) with ((32 - k) + 1 * 4294967296) by lia.
  rewrite N.mod_add by lia. apply N.mod_small. lia.
Qed.
Lemma rol_jrot x k : fits 32 x -> 0 < k -> k < 32 -> rol 32 x k = jrot x k.
Proof. intros. rewrite jrot_rotl, rol_rotl by (assumption || lia). reflexivity. Qed.
Lemma jrot_fits x k : fits 32 x -> 0 < k -> k < 32 -> fits 32 (jrot x k).
Proof. intros. rewrite jrot_rotl by assumption. now apply rotlw_fits. Qed.
Lemma madd32_eq a b : madd 32 a b = add32 a b. Proof. apply madd_addw. Qed.
Lemma msub32_eq a b : msub 32 a b = sub32 a b. Proof. apply msub_subw. Qed.
Lemma mshl32_eq a b : mshl 32 a b = shl32 a b. Proof. apply mshl_shlw. Qed.
Lemma madd64_eq a b : madd 64 a b = add64 a b. Proof. apply madd_addw. Qed.
Lemma msub64_eq a b : msub 64 a b = sub64 a b. Proof. apply msub_subw. Qed.
Lemma mshl64_eq a b : mshl 64 a b = shl64 a b. Proof. apply mshl_shlw. Qed.
#[global] Hint Resolve xor_fits xor_fits' add32_fits sub32_fits add64_fits sub64_fits shl32_fits shl64_fits shr_fits jrot_fits : jf.
Ltac jfits := repeat first [assumption | apply xor_fits' | apply xor_fits | apply sub32_fits | apply add32_fits
  | apply sub64_fits | apply add64_fits | apply shl32_fits | apply shr_fits | (apply jrot_fits; [|lia|lia])].

(** ** Mixers *)
Definition l3_half (k1 k2 k3 : N) (s : N * N * N) : N * N * N :=
  let '(a, b, c) := s in
  let a := N.lxor (msub 32 a c) (rol 32 c k1) in let c := madd 32 c b in
  let b := N.lxor (msub 32 b a) (rol 32 a k2) in let a := madd 32 a c in
  let c := N.lxor (msub 32 c b) (rol 32 b k3) in let b := madd 32 b a in
  (a, b, c).
Definition mhalf (k1 k2 k3 : N) (s : tri) : tri :=
  let '(a, b, c) := s in
  let a := sub32 a c in let a := xor a (jrot c k1) in let c := add32 c b in
  let b := sub32 b a in let b := xor b (jrot a k2) in let a := add32 a c in
  let c := sub32 c b in let c := xor c (jrot b k3) in let b := add32 b a in
  (a, b, c).
Definition gt0lt32 k := 0 < k /\ k < 32.
Lemma l3_half_eq k1 k2 k3 s : gt0lt32 k1 -> gt0lt32 k2 -> gt0lt32 k3 -> tri_ok 32 s -> l3_half k1 k2 k3 s = mhalf k1 k2 k3 s.
Proof.
  intros [? ?] [? ?] [? ?]. destruct s as [[a b] c]. intros (Ha & Hb & Hc). unfold l3_half, mhalf. cbv zeta.
  rewrite !msub32_eq, !madd32_eq. fold (xor).
  change N.lxor with xor.
  rewrite (rol_jrot c) by assumption.
  rewrite (rol_jrot (xor (sub32 a c) (jrot c k1))) by jfits.
  rewrite (rol_jrot (xor (sub32 b _) _)) by jfits. reflexivity.
Qed.
Lemma mix1_ok s : tri_ok 32 s -> tri_ok 32 (mix1 s). Proof. apply mix1_bij. Qed.
Lemma mix2_ok s : tri_ok 32 s -> tri_ok 32 (mix2 s). Proof. apply mix2_bij. Qed.
Lemma mix12_ok s : tri_ok 32 s -> tri_ok 32 (mix12 s). Proof. apply mix12_bij. Qed.
Lemma final12_ok s : tri_ok 32 s -> tri_ok 32 (final12 s). Proof. apply final12_bij. Qed.
Lemma l3_mix_eq s : tri_ok 32 s -> l3_mix s = mix12 s.
Proof.
  intros H. transitivity (l3_half 16 19 4 (l3_half 4 6 8 s)).
  { destruct s as [[a b] c]. reflexivity. }
  rewrite (l3_half_eq 4 6 8) by (unfold gt0lt32; try lia; assumption).
  replace (mhalf 4 6 8 s) with (mix1 s) by (destruct s as [[a b] c]; reflexivity).
  rewrite l3_half_eq by (unfold gt0lt32; try lia; now apply mix1_ok).
  unfold mix12. destruct (mix1 s) as [[a b] c]. reflexivity.
Qed.
Lemma fl_eq x y k : fits 32 y -> 0 < k -> k < 32 -> l3_fl x y k = sub32 (xor x y) (jrot y k).
Proof. intros. unfold l3_fl. now rewrite msub32_eq, rol_jrot. Qed.
Lemma fl_fits x y k : fits 32 (l3_fl x y k). Proof. unfold l3_fl. rewrite msub32_eq. apply sub32_fits. Qed.
Lemma l3_final_eq s : tri_ok 32 s -> l3_final s = final12 s.
Proof.
  destruct s as [[a b] c]. intros (Ha & Hb & Hc).
  unfold l3_final, final12, final1, final2. cbv zeta.
  rewrite (fl_eq c b 14) by (try lia; apply Hb).
  set (c1 := sub32 (xor c b) (jrot b 14)). assert (H1 : fits 32 c1) by apply sub32_fits.
  rewrite (fl_eq a c1 11) by (try lia; assumption). set (a1 := sub32 (xor a c1) (jrot c1 11)). assert (H2 : fits 32 a1) by apply sub32_fits.
  rewrite (fl_eq b a1 25) by (try lia; assumption). set (b1 := sub32 (xor b a1) (jrot a1 25)). assert (H3 : fits 32 b1) by apply sub32_fits.
  rewrite (fl_eq c1 b1 16) by (try lia; assumption). set (c2 := sub32 (xor c1 b1) (jrot b1 16)). assert (H4 : fits 32 c2) by apply sub32_fits.
  rewrite (fl_eq a1 c2 4) by (try lia; assumption). set (a2 := sub32 (xor a1 c2) (jrot c2 4)). assert (H5 : fits 32 a2) by apply sub32_fits.
  rewrite (fl_eq b1 a2 14) by (try lia; assumption). set (b2 := sub32 (xor b1 a2) (jrot a2 14)). assert (H6 : fits 32 b2) by apply sub32_fits.
  rewrite (fl_eq c2 b2 24) by (try lia; assumption). reflexivity.
Qed.
Definition l2_third (k1 k2 k3 : N) (s : N * N * N) : N * N * N :=
  let line x y z t := N.lxor (msub 32 (msub 32 x y) z) t in
  let '(a, b, c) := s in
  let a := line a b c (mshr c k1) in
  let b := line b c a (mshl 32 a k2) in
  let c := line c a b (mshr b k3) in
  (a, b, c).
Lemma l2_third_eq k1 k2 k3 s : l2_third k1 k2 k3 s = tri_lines32 k1 k2 k3 s.
Proof.
  destruct s as [[a b] c]. unfold l2_third, tri_lines32. cbv zeta.
  rewrite !msub32_eq, !mshr_shr, !mshl32_eq. reflexivity.
Qed.
Lemma l2_mix_eq s : l2_mix s = mix32 s.
Proof.
  rewrite <- mix32_lines, <- !l2_third_eq. destruct s as [[a b] c]. reflexivity.
Qed.
Definition l8_third (k1 k2 k3 : N) (s : N * N * N) : N * N * N :=
  let line x y z t := msub 64 x (N.lxor (msub 64 y z) t) in
  let '(a, b, c) := s in
  let a := line a b c (mshr c k1) in
  let b := line b c a (mshl 64 a k2) in
  let c := line c a b (mshr b k3) in
  (a, b, c).
Definition m8_third (k1 k2 k3 : N) (s : tri) : tri :=
  let '(a, b, c) := s in
  let a := sub64 a (xor (sub64 b c) (shr c k1)) in
  let b := sub64 b (xor (sub64 c a) (shl64 a k2)) in
  let c := sub64 c (xor (sub64 a b) (shr b k3)) in
  (a, b, c).
Lemma l8_third_eq k1 k2 k3 s : l8_third k1 k2 k3 s = m8_third k1 k2 k3 s.
Proof.
  destruct s as [[a b] c]. unfold l8_third, m8_third. cbv zeta.
  rewrite !msub64_eq, !mshr_shr, !mshl64_eq. reflexivity.
Qed.
Lemma l8_mix_eq s : l8_mix s = mix64alt s.
Proof.
  transitivity (l8_third 12 18 22 (l8_third 35 49 11 (l8_third 38 23 5 (l8_third 43 9 8 s)))).
  { destruct s as [[a b] c]. reflexivity. }
  rewrite !l8_third_eq. destruct s as [[a b] c]. reflexivity.
Qed.

(** ** Adding bytes one by one or as words *)
Lemma add32_add32 a x y : add32 (add32 a x) y = add32 a (x + y).
Proof. unfold add32. rewrite !addw_mod, N.add_mod_idemp_l by apply pow2_nz. now rewrite N.add_assoc. Qed.
Lemma add64_add64 a x y : add64 (add64 a x) y = add64 a (x + y).
Proof. unfold add64. rewrite !addw_mod, N.add_mod_idemp_l by apply pow2_nz. now rewrite N.add_assoc. Qed.
Lemma shlw_byte w b k : byte_ok b -> k + 8 <= w -> shlw w b k = b * 2 ^ k.
Proof.
  intros Hb Hk. unfold shlw. rewrite N.shiftl_mul_pow2. apply wrap_small. unfold fits.
  apply N.lt_le_trans with (256 * 2 ^ k); [apply N.mul_lt_mono_pos_r; [apply pow2_pos|exact Hb]|].
  change 256 with (2 ^ 8). rewrite <- N.pow_add_r. apply N.pow_le_mono_r; lia.
Qed.
Lemma shl32_b b k : byte_ok b -> k <= 24 -> shl32 b k = b * 2 ^ k.
Proof. intros. apply shlw_byte; auto. lia. Qed.
Lemma shl64_b b k : byte_ok b -> k <= 56 -> shl64 b k = b * 2 ^ k.
Proof. intros. apply shlw_byte; auto. lia. Qed.

Ltac split_bytes k n :=
  lazymatch n with
  | O => idtac
  | S ?m => let b := fresh "b" in
            destruct k as [|b k]; [exfalso; cbn [length] in *; lia|];
            match goal with H : bytes_ok (b :: k) |- _ =>
              let H' := fresh H in assert (H' : byte_ok b) by (inversion H; assumption);
              assert (bytes_ok k) by (inversion H; assumption) end; split_bytes k m
  end.
Ltac bytes_list := repeat (apply Forall_cons; [assumption|]); apply Forall_nil.
Ltac eval_pow := repeat match goal with |- context [2 ^ ?k] =>
  let v := eval vm_compute in (2 ^ k) in change (2 ^ k) with v end.
Ltac comp_eq :=
  first [ reflexivity
        | lazymatch goal with
          | |- add32 ?a ?x = add32 ?a ?y => replace y with x; [reflexivity|eval_pow; lia]
          | |- add64 ?a ?x = add64 ?a ?y => replace y with x; [reflexivity|eval_pow; lia]
          | |- ?a = add32 ?a _ => unfold add32; symmetry; apply addw_0_r; assumption
          | |- ?a = add64 ?a _ => unfold add64; symmetry; apply addw_0_r; assumption
          end ].
Ltac words_eq :=
  rewrite <- ?le_int_load by bytes_list; cbn [le_int]; rewrite ?madd32_eq, ?madd64_eq;
  rewrite ?shl32_b by (assumption || lia); rewrite ?shl64_b by (assumption || lia);
  rewrite ?add32_add32, ?add64_add64.
Ltac tri_eq := apply pair_equal_spec; split; [apply pair_equal_spec; split|]; comp_eq.

Lemma j364_last n k s : (1 <= n <= 12)%nat -> (n <= length k)%nat -> bytes_ok k -> tri_ok 32 s ->
  j364_tail k (Z.of_nat n) s = Ok (inr (add_block 32 4 s (pad0 12 (firstn n k)))).
Proof.
  intros Hn Hl Hk Hs. destruct s as [[a b] c]. destruct Hs as (Ha & Hb & Hc).
  assert (H : n = 1%nat \/ n = 2%nat \/ n = 3%nat \/ n = 4%nat \/ n = 5%nat \/ n = 6%nat \/ n = 7%nat \/ n = 8%nat \/
    n = 9%nat \/ n = 10%nat \/ n = 11%nat \/ n = 12%nat) by lia.
  repeat (destruct H as [H|H]); subst n;
  lazymatch goal with |- j364_tail _ (Z.of_nat ?n) _ = _ => split_bytes k n end;
  cbn [j364_tail Z.of_nat Pos.of_succ_nat Pos.succ idx nth_error rbind peek_le peek Nat.leb Nat.add length
    firstn skipn pad0 add_block app repeat Nat.sub]; words_eq; apply f_equal, f_equal; tri_eq.
Qed.

Lemma add_block_12 k a b c : (12 <= length k)%nat -> bytes_ok k ->
  add_block 32 4 (a, b, c) (firstn 12 k) =
  (add32 a (le_load (firstn 4 k)), add32 b (le_load (firstn 4 (skipn 4 k))), add32 c (le_load (firstn 4 (skipn 8 k)))).
Proof.
  intros Hl Hk. split_bytes k 12%nat. cbn [add_block firstn skipn Nat.add].
  rewrite !le_int_load by bytes_list. now rewrite !madd32_eq.
Qed.
Lemma add_block_ok32 s blk : tri_ok 32 (add_block 32 4 s blk).
Proof. destruct s as [[a b] c]. unfold add_block, tri_ok. rewrite !madd32_eq. auto using add32_fits. Qed.
Lemma add_block_ok64 s blk : tri_ok 64 (add_block 64 8 s blk).
Proof. destruct s as [[a b] c]. unfold add_block, tri_ok. rewrite !madd64_eq. auto using add64_fits. Qed.

Definition j364_end (r : N * N + tri) : res (N * N) :=
  match r with inl v => Ok v | inr s => let '(a, b, c) := final2 (final1 s) in Ok (c, b) end.
Lemma j364_run n : forall fuel fuel' k s, (n < fuel)%nat -> (n <= fuel')%nat -> (1 <= n)%nat -> (n <= length k)%nat ->
  bytes_ok k -> tri_ok 32 s ->
  ('(k, len, s) <~ j364_loop fuel k (Z.of_nat n) s ;; r <~ j364_tail k len s ;; j364_end r) =
  (let '(a, b, c) := l3_run fuel' s (firstn n k) in Ok (c, b)).
Proof.
  induction n as [n IH] using lt_wf_ind. intros fuel fuel' k s Hf Hf' Hn Hl Hk Hs.
  destruct fuel as [|fuel]; [lia|]. destruct fuel' as [|fuel']; [lia|].
  cbn [j364_loop l3_run]. rewrite (firstn_length_le k Hl).
  destruct (Z.ltb_spec 12 (Z.of_nat n)) as [Hbig|Hsmall].
  - replace (n <=? 12)%nat with false by (symmetry; apply Nat.leb_gt; lia).
    destruct s as [[a b] c].
    rewrite !peek_le_ok by lia. cbn [rbind]. rewrite tail_from_ok by lia. cbn [rbind]. change (skipn 0 k) with k.
    replace (Z.of_nat n - 12)%Z with (Z.of_nat (n - 12)) by lia.
    rewrite (IH (n - 12)%nat) with (fuel' := fuel'); try lia.
    + rewrite firstn_firstn, (Nat.min_l 12 n) by lia.
      rewrite l3_mix_eq by apply add_block_ok32.
      rewrite (add_block_12 k) by (assumption || lia).
      rewrite (firstn_skipn_comm (n - 12) 12 k). replace (12 + (n - 12))%nat with n by lia. reflexivity.
    + rewrite skipn_length. lia.
    + now apply bytes_ok_skipn.
    + apply (mix12_ok). repeat split; apply add32_fits.
  - replace (n <=? 12)%nat with true by (symmetry; apply Nat.leb_le; lia).
    cbn [rbind]. rewrite j364_last by (assumption || lia). cbn [rbind j364_end].
    rewrite l3_final_eq by apply add_block_ok32. reflexivity.
Qed.

(** Explicit length: only the first [n] bytes are read, but the length of the whole
    slice enters the initial state. *)
Definition l3_from (m : list N) (i pb : N) : N * N :=
  match m with
  | [] => ((i + pb) mod 2 ^ 32, i)
  | _ => let '(_, b, c) := l3_run (length m) (i, i, (i + pb) mod 2 ^ 32) m in (c, b)
  end.
Lemma lookup3_from m pc pb : lookup3 m pc pb = l3_from m ((0xdeadbeef + N.of_nat (length m) + pc) mod 2 ^ 32) pb.
Proof. reflexivity. Qed.
Lemma init_eq (k : list N) pc : add32 (add32 0xdeadbeef (wrap 32 (N.of_nat (length k)))) pc = (0xdeadbeef + N.of_nat (length k) + pc) mod 2 ^ 32.
Proof. unfold add32. rewrite addw_wrap_r, !addw_mod, N.add_mod_idemp_l by apply pow2_nz. reflexivity. Qed.
Lemma l3_run_fuel f : forall f' s m, (length m <= f)%nat -> (length m <= f')%nat -> (1 <= length m)%nat -> l3_run f s m = l3_run f' s m.
Proof.
  induction f as [|f IH]; intros f' s m Hf Hf' Hm; [lia|]. destruct f' as [|f']; [lia|]. cbn [l3_run].
  destruct (Nat.leb_spec (length m) 12); auto. apply IH; rewrite skipn_length; lia.
Qed.

Lemma jenkins364_prefix k n pc pb : bytes_ok k -> (1 <= n <= length k)%nat ->
  jenkins364 k (Z.of_nat n) pc pb = Ok (l3_from (firstn n k) ((0xdeadbeef + N.of_nat (length k) + pc) mod 2 ^ 32) pb).
Proof.
  intros Hk Hn. unfold jenkins364.
  replace (Z.of_nat n =? 0)%Z with false by (symmetry; apply Z.eqb_neq; lia).
  rewrite init_eq. cbv zeta. set (i := (_ + pc) mod 2 ^ 32).
  assert (Hi : fits 32 i) by (apply N.mod_lt, pow2_nz).
  rewrite Nat2Z.id.
  pose proof (j364_run n (S n) n k (i, i, add32 i pb)) as R. unfold j364_end in R. rewrite R; try lia; auto.
  - unfold l3_from. destruct (firstn n k) as [|x m] eqn:E.
    { apply (f_equal (@length N)) in E. rewrite firstn_length_le in E by lia. cbn in E. lia. }
    cbv iota. rewrite <- E, firstn_length_le by lia.
    replace (add32 i pb) with ((i + pb) mod 2 ^ 32) by (unfold add32; now rewrite addw_mod).
    clearbody i. destruct (l3_run n (i, i, (i + pb) mod 2 ^ 32) (firstn n k)) as [[a b] c]. reflexivity.
  - repeat split; auto. apply add32_fits.
Qed.
Lemma jenkins364_0 k pc pb : jenkins364 k 0 pc pb = jenkins364 k (Z.of_nat (length k)) pc pb.
Proof. unfold jenkins364. destruct k; reflexivity. Qed.
Lemma jenkins364_nil pc pb : jenkins364 [] 0 pc pb = Ok (lookup3 [] pc pb).
Proof.
  unfold jenkins364, lookup3. cbv zeta. rewrite init_eq.
  cbn [j364_loop Z.eqb length Z.of_nat Z.ltb Z.compare rbind j364_tail snd].
  unfold add32. now rewrite addw_mod.
Qed.
Lemma jenkins364_full k pc pb : bytes_ok k -> jenkins364 k (Z.of_nat (length k)) pc pb = Ok (lookup3 k pc pb).
Proof.
  intros Hk. destruct k as [|x k]; [apply jenkins364_nil|].
  rewrite jenkins364_prefix by (auto; cbn; lia). rewrite firstn_all. reflexivity.
Qed.
