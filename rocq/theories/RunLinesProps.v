(** C108: the lines of the SMHasher report, number by number. *)
From Coq Require Import NArith ZArith List Arith String Bool Lia.
From Verif Require Import Words Mem KeccakModel HashfModel HashfSpec HashfProps SmhModel SmhSpec SmhProps2 RunModel RunSpec RunProofs RunProps
  RunLinesData RunLinesProofs RunLinesProofs2 RunLinesProofs3.
From Verif Require Mm3Spec Mm3Small Mm3Model Mm3Props SmallModel.
Import ListNotations.
Open Scope N_scope.
Open Scope list_scope.

(** Names of 32-bit hashes, with the number of complaints of the tests of texts, of
    sparse keys and of keys of one to three bytes. *)
Definition narrow_counts : list (string * (nat * nat * nat)) :=
  [("murmur332", (2, 7, 0)); ("j332c", (3, 8, 1)); ("j332b", (3, 8, 1)); ("j232", (3, 8, 1)); ("j264l", (3, 8, 1)); ("j264h", (3, 8, 1));
   ("j264xor", (3, 8, 1)); ("spooky32", (3, 8, 1)); ("sbox", (3, 8, 1)); ("FarmHash32", (2, 8, 1)); ("CrapWow", (3, 8, 1))]%string%nat.
Definition counts_of (x : string * list (option (list N * list N))) : string * (nat * nat * nat) * (nat * bool) :=
  let bs := map is_some (snd x) in
  ((fst x, (complaints (firstn 3 bs), complaints (firstn 8 (skipn 3 bs)), bit (nth 16 bs false))), (complaints (firstn 5 (skipn 11 bs)), nth 17 bs false)).
(** The report on such a hash: what is printed at each line, whatever the random bytes. *)
Theorem c108_narrow : forall e rr name text sparse small v, randoms_ok rr -> In (name, (text, sparse, small)) narrow_counts ->
  exists seed win cyc app,
    map snd (RunSMhasher (answer e name) (rr_of rr) name v) = [0; seed; text; win; 0; 5; sparse; cyc; 1; small; app]%nat /\
    (seed <= 1 /\ 1 <= win <= 1120 /\ 1 <= cyc <= 9 /\ app <= 1)%nat.
Proof.
  intros e rr name text sparse small v R H.
  assert (P : exists ps, In (name, ps) narrow_lines /\ complaints (firstn 3 (map is_some ps)) = text /\
    complaints (firstn 8 (skipn 3 (map is_some ps))) = sparse /\ bit (nth 16 (map is_some ps) false) = small /\
    complaints (firstn 5 (skipn 11 (map is_some ps))) = 5%nat /\ nth 17 (map is_some ps) false = true).
  { assert (T : map counts_of narrow_lines = map (fun x => (x, (5%nat, true))) narrow_counts) by (vm_compute; reflexivity).
    apply (in_map (fun x => (x, (5%nat, true)))) in H. rewrite <- T in H. apply in_map_iff in H. destruct H as ((n & ps) & E & H).
    exists ps. unfold counts_of in E. cbn [fst snd] in E. injection E. intros; subst. auto 6. }
  destruct P as (ps & I & E1 & E2 & E3 & E4 & E5).
  destruct (narrow_report e rr name ps v R I) as (seed & win & cyc & app & E & B). exists seed, win, cyc, app. split; [|tauto].
  refine (eq_trans E _). rewrite E1, E2, E3, E4, E5. reflexivity.
Qed.
Print Assumptions c108_narrow.

(** Five of them are told that two seeds of the first 100000 give "hello" the same hash. *)
Theorem c108_seed : forall e rr name v, In name ["j232"; "j264l"; "j264h"; "j264xor"; "spooky32"]%string ->
  nth_error (map snd (RunSMhasher (answer e name) (rr_of rr) name v)) 1 = Some 1%nat.
Proof.
  intros e rr name v H. rewrite report_counts. cbn [nth_error]. exact (f_equal (fun b => Some (bit b)) (seed_line e name H)).
Qed.
Print Assumptions c108_seed.

(** CrapWow forgets a beginning of whole blocks that is written twice: all such beginnings of
    one length are as good as zeros, under every seed. *)
Theorem c108_crapwow_twice : forall n t t' u seed, length t = (8 * n)%nat -> length t' = (8 * n)%nat -> bytes_ok t -> bytes_ok t' -> bytes_ok u ->
  SmallModel.CrapWow (t ++ t ++ u) seed = SmallModel.CrapWow (t' ++ t' ++ u) seed.
Proof.
  assert (G : forall n t u seed, length t = (8 * n)%nat -> bytes_ok t -> bytes_ok u ->
    SmallModel.CrapWow (t ++ t ++ u) seed = SmallModel.CrapWow (concat (repeat (repeat 0 8) (2 * n)) ++ u) seed).
  { intros n t u seed L B Bu. pose proof (crapwow_doubled (blocks8 n t) u seed (blocks8_ok n t L B) Bu) as D.
    rewrite blocks8_length, (blocks8_concat n t L) in D. exact D. }
  intros n t t' u seed L L' B B' Bu. rewrite (G n t), (G n t') by assumption. reflexivity.
Qed.
Print Assumptions c108_crapwow_twice.
(** So the test of cyclic keys complains about five of its nine lengths at least, whatever
    the random bytes, and the test of appended zeros complains. *)
Theorem c108_crapwow : forall e rr v, randoms_ok rr -> exists seed win cyc,
  map snd (RunSMhasher (answer e "CrapWow") (rr_of rr) "CrapWow" v) = [0; seed; 3; win; 0; 5; 8; cyc; 1; 1; 1]%nat /\
  (seed <= 1 /\ 1 <= win <= 1120 /\ 5 <= cyc <= 9)%nat.
Proof.
  intros e rr v R. destruct (c108_narrow e rr "CrapWow" 3 8 1 v R) as (seed & win & cyc & app & E & B1 & B2 & B3 & B4);
    [unfold narrow_counts; do 10 right; left; reflexivity|].
  pose proof (report_counts (answer e "CrapWow") (rr_of rr) "CrapWow" v) as Q. rewrite E in Q.
  assert (C : (5 <= snd (TestSmhasherCyclic (answer e "CrapWow") (r_cyclic (rr_of rr))))%nat)
    by (apply crapwow_cyclic; intros n i; destruct R as (_ & R & _); apply R).
  pose proof (crapwow_appended e) as A. revert Q A C. 
  generalize (snd (TestSmhasherCyclic (answer e "CrapWow") (r_cyclic (rr_of rr)))) (TestSmhasherAppendedZeros (answer e "CrapWow"))
    (snd (TestSmhasherSanity (answer e "CrapWow") (r_b (rr_of rr)) (r_c (rr_of rr)))) (bit (TestSmhasherSeed (answer e "CrapWow")))
    (snd (TestSmhasherText (answer e "CrapWow"))) (snd (TestSmhasherWindowed (answer e "CrapWow"))) (snd (TestSmhasherPermutation (answer e "CrapWow")))
    (snd (TestSmhasherSparse (answer e "CrapWow"))) (bit (TestSmhasherTwoNonzero (answer e "CrapWow"))) (bit (TestSmhasherSmallKeys (answer e "CrapWow"))).
  intros x b x0 x1 x2 x3 x4 x5 x6 x7 Q A C. exists seed, win, cyc. rewrite E. subst b. injection Q. intros Q1 _ _ Q2 _ _ _ _ _ _. cbn [bit] in Q1. subst app x.
  split; [reflexivity|]. lia.
Qed.
Print Assumptions c108_crapwow.

(** MetroHash64-1, a hash of 64 bits: some bytes of short keys are not looked at, so it
    collides on very small sets of keys. *)
Theorem c108_metro : forall e rr v, randoms_ok rr -> exists seed text win perm sparse cyc small app,
  map snd (RunSMhasher (answer e "MetroHash64-1") (rr_of rr) "MetroHash64-1" v) = [0; seed; text; win; 0; perm; sparse; cyc; 1; small; app]%nat /\
  (23 <= win <= 1120 /\ 3 <= perm <= 5 /\ 2 <= sparse <= 8)%nat.
Proof.
  intros e rr v R. do 8 eexists. split; [|split; [|split]].
  - rewrite report_counts. destruct R as (R1 & _ & _). destruct (metro_sets e) as (_ & _ & T).
    exact (eleven _ _ _ _ _ _ _ _ _ _ _ _ _ _ _ _ _ _ _ _ _ _ (f_equal snd (sanity_ok (answer e "MetroHash64-1") rr R1)) eq_refl eq_refl eq_refl eq_refl eq_refl
      eq_refl eq_refl (f_equal bit T) eq_refl eq_refl).
  - split; [apply metro_windowed|apply windowed_le].
  - split; [apply metro_sets|apply perm_le].
  - split; [apply metro_sets|apply sparse_le].
Qed.
Print Assumptions c108_metro.

(** Murmur3-32 separates all keys of at most three bytes: the only hash of the table that
    has nothing to say of short keys. *)
Theorem c108_murmur_small : forall k k', bytes_ok k -> bytes_ok k' -> (length k <= 3)%nat -> (length k' <= 3)%nat ->
  Mm3Model.mm_sum32 k = Mm3Model.mm_sum32 k' -> k = k'.
Proof.
  intros k k' B B' L L' E. rewrite !(fun m H => proj1 (Mm3Props.c52_reference m H)) in E by assumption. now apply Mm3Small.mm_small_inj.
Qed.
Print Assumptions c108_murmur_small.

(** Concrete cases: random bytes for which the report can be asked; two texts with the same j232 hash;
    CrapWow on one block written twice; the byte that MetroHash64-1 does not read. *)
Example c108_narrow_nonvacuous : randoms_ok dull /\ In ("FarmHash32"%string, (2, 8, 1)%nat) narrow_counts /\
  (exists a b, nth_error (snd (nth 3 line_pairs ("", [])%string)) 0 = Some (Some (a, b)) /\ a <> b /\ answer toy "j232" a 0 = answer toy "j232" b 0).
Proof. split; [exact dull_ok|]. split; [unfold narrow_counts; cbn [In]; tauto|]. do 2 eexists. split; [reflexivity|]. split; [discriminate|vm_compute; reflexivity]. Qed.
Example c108_seed_nonvacuous : answer toy "spooky32" [104; 101; 108; 108; 111] 3712 = answer toy "spooky32" [104; 101; 108; 108; 111] 25112 /\
  answer toy "spooky32" [104; 101; 108; 108; 111] 0 <> answer toy "spooky32" [104; 101; 108; 108; 111] 1.
Proof. split; vm_compute; [reflexivity|discriminate]. Qed.
Example c108_crapwow_nonvacuous : let t := [1; 2; 3; 4; 5; 6; 7; 8] in let t' := [9; 9; 9; 9; 1; 1; 1; 1] in
  SmallModel.CrapWow (t ++ t ++ [7]) 5 = SmallModel.CrapWow (t' ++ t' ++ [7]) 5 /\ SmallModel.CrapWow (t ++ t') 5 <> SmallModel.CrapWow (t ++ t) 5.
Proof. split; vm_compute; [reflexivity|discriminate]. Qed.
Example c108_metro_nonvacuous : answer toy "MetroHash64-1" [0; 0; 0; 0] 0 = answer toy "MetroHash64-1" [0; 0; 0; 128] 0 /\
  answer toy "MetroHash64-1" [0; 0; 0; 0] 0 <> answer toy "MetroHash64-1" [0; 0; 128; 0] 0.
Proof. split; vm_compute; [reflexivity|discriminate]. Qed.
Example c108_murmur_nonvacuous : Mm3Model.mm_sum32 [1; 2; 3] <> Mm3Model.mm_sum32 [1; 2] /\ Mm3Model.mm_sum32 [0; 27; 105] = Mm3Model.mm_sum32 [2; 246; 0; 0].
Proof. split; vm_compute; [discriminate|reflexivity]. Qed.
