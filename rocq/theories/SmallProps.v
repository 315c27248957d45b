(** Properties C42, C43, C69, C70, C71: sbox, crapwow, mahash and nullhash. *)
From Coq Require Import NArith List Arith Lia Permutation.
From Verif Require Import Words WordLemmas ListLemmas Mem Mm3Spec Mm3Proofs GomapProofs SmallModel SmallSpec SmallProofs.
Import ListNotations.
Open Scope N_scope.

(** C42: whatever was called before, the result of a call depends on its key and on the last
    seed given to the object (by New or by any call up to this one), and on nothing else. *)
Theorem c42_sbox_sticky s0 cs : Forall (fun c => bytes_ok (fst c)) cs ->
  run sbox_Hash32 (New s0) cs =
  Ok (map (fun i => sbox_spec SBoxTable (fst (nth i cs ([], []))) (seed_in_force s0 (firstn (S i) cs))) (seq 0 (length cs))).
Proof. intros H. apply (run_ok (sbox_spec SBoxTable) sbox_Hash32 sbox_H cs (New s0) H). Qed.
Print Assumptions c42_sbox_sticky.
Theorem c42_crapwow_sticky s0 cs : Forall (fun c => bytes_ok (fst c)) cs ->
  run crapwow_Hash32 (New s0) cs =
  Ok (map (fun i => crapwow_spec (fst (nth i cs ([], []))) (seed_in_force s0 (firstn (S i) cs))) (seq 0 (length cs))).
Proof. intros H. apply (run_ok crapwow_spec crapwow_Hash32 crapwow_H cs (New s0) H). Qed.
Print Assumptions c42_crapwow_sticky.
(** So an object can give two answers for one key without a seed: calls 0 and 2 below. *)
Example c42_nonvacuous :
  let k := [1; 2; 3] in
  run sbox_Hash32 (New 7) [(k, []); (k, [9; 5]); (k, [])] = Ok [1427247156; 1427239098; 1427239098] /\
  run crapwow_Hash32 (New 7) [(k, []); (k, [9; 5]); (k, [])] = Ok [3688785722; 3115217940; 3115217940].
Proof. vm_compute. split; reflexivity. Qed.

(** C43: MaHash. *)
Theorem c43_value key : bytes_ok key -> MaHash8v64 key = Ok (mahash_spec sTable key).
Proof. apply MaHash_ok. Qed.
Print Assumptions c43_value.
(** The table is a permutation of the bytes. *)
Theorem c43_table : Permutation sTable (map N.of_nat (seq 0 256)).
Proof.
  apply NoDup_Permutation.
  - replace sTable with (nodup N.eq_dec sTable) by (vm_compute; reflexivity). apply NoDup_nodup.
  - apply FinFun.Injective_map_NoDup; [intros x y H; now apply Nat2N.inj|apply seq_NoDup].
  - intros x. split; intros H.
    + apply in_map_iff. exists (N.to_nat x). split; [apply N2Nat.id|]. apply in_seq.
      assert (F : forallb (fun y => y <? 256) sTable = true) by (vm_compute; reflexivity).
      assert (Hx := proj1 (forallb_forall _ _) F x H). apply N.ltb_lt in Hx. lia.
    + assert (F : forallb (fun y => existsb (N.eqb y) sTable) (map N.of_nat (seq 0 256)) = true) by (vm_compute; reflexivity).
      assert (Hx := proj1 (forallb_forall _ _) F x H). apply existsb_exists in Hx. destruct Hx as (y & Hy & E). apply N.eqb_eq in E. now subst.
Qed.
Print Assumptions c43_table.
(** The two 32-bit rotations undo each other. *)
Theorem c43_rotations x : fits 32 x -> RROT14 (LROT14 x) = x /\ LROT14 (RROT14 x) = x.
Proof.
  intros Hx.
  assert (L : forall y, fits 32 y -> LROT14 y = rotlw 32 y 14) by reflexivity.
  assert (R : forall y, fits 32 y -> RROT14 y = rotrw 32 y 14) by (intros y Hy; unfold RROT14, rotrw; apply N.lor_comm).
  split.
  - rewrite L, R by (try apply rotlw_fits; assumption). now apply rotr_rotl.
  - rewrite R, L by (try apply rotrw_fits; assumption). now apply rotl_rotr.
Qed.
Print Assumptions c43_rotations.
(** The function called a 64-bit rotation is none: its lowest and highest bits always agree,
    so half of all words are never produced; and flipping the highest bit of a word whose
    lowest bit is set does not change the result. *)
Theorem c43_lrot64_refuted :
  (forall x, fits 64 x -> N.testbit (LROT64 x) 0 = N.testbit (LROT64 x) 63) /\
  (forall x, fits 64 x -> N.testbit x 0 = true -> LROT64 (N.lxor x (2 ^ 63)) = LROT64 x) /\
  (exists x y, fits 64 x /\ fits 64 y /\ x <> y /\ LROT64 x = LROT64 y).
Proof.
  split; [|split].
  - intros x Hx. rewrite !LROT64_bits. change (N.testbit x (63 + 34)) with (N.testbit x 97). rewrite (fits_high 64 x 97) by (auto; lia).
    change (63 - 29) with 34. change (0 + 34) with 34. cbn [N.ltb N.leb N.compare]. now rewrite Bool.orb_false_r.
  - intros x Hx Hb. apply N.bits_inj. intros i. rewrite !LROT64_bits, !N.lxor_spec, !N.pow2_bits_eqb.
    destruct (N.eqb_spec 63 (i - 29)) as [E|_].
    + replace (i <? 64) with false by (symmetry; apply N.ltb_ge; lia). cbn [andb].
      destruct (N.eqb_spec 63 (i + 34)) as [E'|_]; [lia|]. now rewrite Bool.xorb_false_r.
    + rewrite Bool.xorb_false_r. destruct (N.eqb_spec 63 (i + 34)) as [E'|_]; [|now rewrite Bool.xorb_false_r].
      replace i with 29 by lia. change (29 - 29) with 0. now rewrite Hb.
  - exists 1, (2 ^ 63 + 1). repeat split; discriminate || reflexivity.
Qed.
Print Assumptions c43_lrot64_refuted.
Example c43_nonvacuous : MaHash8v64 [104; 105] = Ok 1335702748507924699 /\ RROT14 (LROT14 0xdeadbeef) = 0xdeadbeef.
Proof. vm_compute. split; reflexivity. Qed.

(** C69: Sbox never panics and is the byte-by-byte function of the specification, although
    the code takes two bytes at a time. *)
Theorem c69_value key seed : bytes_ok key -> Sbox key seed = Ok (sbox_spec SBoxTable key seed).
Proof. apply Sbox_ok. Qed.
Print Assumptions c69_value.
(** For every key two different seeds give the same hash, and so some 32-bit value is given
    by no seed. *)
Theorem c69_seeds_collide key : bytes_ok key ->
  (exists s1 s2, fits 32 s1 /\ fits 32 s2 /\ s1 <> s2 /\ Sbox key s1 = Sbox key s2) /\
  (exists v, fits 32 v /\ forall s, fits 32 s -> Sbox key s <> Ok v).
Proof.
  intros Hk. destruct (sbox_spec_seeds key) as (s1 & s2 & F1 & F2 & Ne & E). split.
  - exists s1, s2. rewrite !Sbox_ok, E by assumption. auto.
  - destruct (missed 32 (sbox_spec SBoxTable key) s1 s2) as (v & Fv & Hv); auto.
    + intros z _. apply sbox_final_fits.
    + exists v. split; [exact Fv|]. intros s Hs E'. rewrite Sbox_ok in E' by exact Hk. apply (Hv s Hs). congruence.
Qed.
Print Assumptions c69_seeds_collide.
(** A prefix can be absorbed in the seed: hashing p ++ key under a seed is hashing key alone
    under another seed. *)
Theorem c69_prefix_is_a_seed p key seed : bytes_ok p -> bytes_ok key -> fits 32 seed ->
  exists seed', fits 32 seed' /\ Sbox (p ++ key) seed = Sbox key seed'.
Proof.
  intros Hp Hk Hs. set (n := N.of_nat (length (p ++ key))). set (x := fold_left (sbox_step SBoxTable) p ((n + seed) mod 2 ^ 32)).
  exists (subw 32 x (N.of_nat (length key))). split; [apply subw_fits|].
  rewrite !Sbox_ok by (auto; apply bytes_ok_app; auto). unfold sbox_spec. rewrite fold_left_app. fold n. fold x. do 3 f_equal.
  assert (Fx : fits 32 x).
  { unfold x. destruct p as [|a p]; [apply mod_fits|]. destruct (@exists_last _ (a :: p)) as (l & b & E); [discriminate|]. rewrite E, fold_left_app. apply mod_fits. }
  rewrite N.add_comm, <- addw_mod. symmetry. now apply add_sub_w.
Qed.
Print Assumptions c69_prefix_is_a_seed.
Example c69_nonvacuous : Sbox [97; 98; 99] 0 = Ok 4009352373 /\ Sbox [97; 98; 99] 1 = Ok 4009352604.
Proof. vm_compute. split; reflexivity. Qed.
Example c69_prefix_nonvacuous : Sbox ([1; 2] ++ [3; 4; 5]) 6 = Sbox [3; 4; 5] 3201023120 /\ Sbox [3; 4; 5] 6 <> Sbox [3; 4; 5] 3201023120.
Proof. split; vm_compute; [reflexivity|discriminate]. Qed.

(** C70: CrapWow. *)
Theorem c70_value key seed : bytes_ok key -> CrapWow key seed = Ok (crapwow_spec key seed).
Proof. apply CrapWow_ok. Qed.
Print Assumptions c70_value.
(** The order of the eight-byte blocks does not matter. *)
Theorem c70_blocks_permute bs bs' t seed : Forall (fun b => length b = 8%nat /\ bytes_ok b) bs -> bytes_ok t -> Permutation bs bs' ->
  CrapWow (concat bs ++ t) seed = CrapWow (concat bs' ++ t) seed.
Proof.
  intros H Ht P.
  assert (H' : Forall (fun b => length b = 8%nat /\ bytes_ok b) bs') by (eapply Permutation_Forall; eassumption).
  assert (T : forall l, Forall (fun b => length b = 8%nat /\ bytes_ok b) l -> Forall (fun b => length b = 8%nat) l /\ bytes_ok (concat l)).
  { induction 1 as [|b l [Hb Hb'] Hl [I1 I2]]; [split; constructor|]. split; [now constructor|]. cbn [concat]. apply bytes_ok_app. auto. }
  destruct (T _ H) as [L B], (T _ H') as [L' B'].
  rewrite !CrapWow_ok by (apply bytes_ok_app; auto). unfold crapwow_spec.
  rewrite !shares_blocks by assumption. rewrite (block_shares_perm _ _ P).
  rewrite !app_length, !concat_length8 by assumption. now rewrite (Permutation_length P).
Qed.
Print Assumptions c70_blocks_permute.
(** A repeated eight-byte block cancels: under every seed all keys x x t collide. *)
Theorem c70_pairs_cancel x y t seed : length x = 8%nat -> length y = 8%nat -> bytes_ok x -> bytes_ok y -> bytes_ok t ->
  CrapWow (x ++ x ++ t) seed = CrapWow (y ++ y ++ t) seed.
Proof.
  intros Lx Ly Hx Hy Ht. rewrite !CrapWow_ok by (repeat (apply bytes_ok_app; split); auto). unfold crapwow_spec.
  rewrite !parts_block, !shares_app by assumption. rewrite !app_length, Lx, Ly.
  now rewrite <- (xor2_assoc (shares (parts x))), <- (xor2_assoc (shares (parts y))), !xor2_self.
Qed.
Print Assumptions c70_pairs_cancel.
Example c70_nonvacuous :
  let x := [1; 2; 3; 4; 5; 6; 7; 8] in let y := [9; 8; 7; 6; 5; 4; 3; 2] in
  CrapWow (x ++ y ++ [5; 6]) 77 = Ok 2405524103 /\ CrapWow (y ++ x ++ [5; 6]) 77 = Ok 2405524103 /\ CrapWow (x ++ x ++ [5; 6]) 77 = Ok 1988695355.
Proof. vm_compute. repeat split; reflexivity. Qed.

(** C71: the null hash is no function of the key: with fewer than 2^64 hash calls in between,
    the same call gives different words. *)
Theorem c71_counter cs c : counts c = true ->
  nth (length cs) (snd (null_run null_New (cs ++ [c]))) RNone = RWord ((N.of_nat (length (filter counts cs)) + 1) mod 2 ^ 64).
Proof. intros H. apply (null_word cs c 0 (fits_0 64) H). Qed.
Print Assumptions c71_counter.
Theorem c71_never_the_same_twice cs mid c1 c2 : counts c1 = true -> counts c2 = true ->
  N.of_nat (length (filter counts mid)) + 1 < 2 ^ 64 ->
  nth (length cs) (snd (null_run null_New (cs ++ [c1]))) RNone <> nth (length (cs ++ c1 :: mid)) (snd (null_run null_New ((cs ++ c1 :: mid) ++ [c2]))) RNone.
Proof.
  intros H1 H2 L. rewrite !c71_counter by assumption. rewrite filter_app, app_length. cbn [filter]. rewrite H1. cbn [length].
  intros E. injection E as E. set (a := length (filter counts cs)) in *. set (m := length (filter counts mid)) in *.
  assert (S : addw 64 0 (N.of_nat a + 1) = addw 64 (N.of_nat m + 1) (N.of_nat a + 1)).
  { rewrite !addw_mod. replace (N.of_nat m + 1 + (N.of_nat a + 1)) with (N.of_nat (a + S m) + 1) by lia. exact E. }
  apply addw_cancel_r in S; [lia|apply fits_0|exact L].
Qed.
Print Assumptions c71_never_the_same_twice.
(** Writing does nothing; Sum appends eight zero bytes; Reset does not reset; the plain
    function is zero. *)
Theorem c71_rest ctr b cs : null_do ctr (CWrite b) = (ctr, RLen (length b)) /\ null_do ctr (CSum b) = (ctr, RBytes (b ++ [0; 0; 0; 0; 0; 0; 0; 0])) /\
  null_run ctr (CReset :: cs) = (fst (null_run ctr cs), RNone :: snd (null_run ctr cs)) /\ Nullhash b ctr = 0 /\
  (ctr + 1 < 2 ^ 64 -> null_do ctr CSum64 = (ctr + 1, RWord (ctr + 1)) /\ le_int [0; 0; 0; 0; 0; 0; 0; 0] <> ctr + 1).
Proof.
  split; [reflexivity|]. split; [reflexivity|]. split; [|split; [reflexivity|]].
  2:{ intros H. split; [|cbn; lia]. cbn [null_do]. unfold null_Sum64, add64, addw. now rewrite wrap_small by exact H. }
  cbn [null_run null_do]. unfold null_Reset. destruct (null_run ctr cs). reflexivity.
Qed.
Print Assumptions c71_rest.
Example c71_nonvacuous : snd (null_run null_New [CHash64 [1] []; CWrite [1; 2]; CReset; CHash64 [1] []; CSum [7]; CSum64]) =
  [RWord 1; RLen 2; RNone; RWord 2; RBytes [7; 0; 0; 0; 0; 0; 0; 0; 0]; RWord 3].
Proof. reflexivity. Qed.
