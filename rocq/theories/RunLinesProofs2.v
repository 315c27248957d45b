(** Proofs for C108, continued: sets of keys without a collision, and the lines. *)
From Coq Require Import NArith ZArith List Arith String Bool Lia Permutation.
From Verif Require Import Words WordLemmas ListLemmas Bij Mem KeccakModel HashfModel HashfSpec HashfProofs HashfProps HtModel HtSpec HtProofs HtMore HtKeys
  SmhModel SmhSpec SmhProofs SmhBits SmhKeys SmhKeys2 SmhFlip SmhProps SmhProps2 RunModel RunSpec RunProofs RunProps RunLinesData RunLinesProofs.
From Verif Require BlockInj Mm3Spec Mm3Model Mm3Proofs Mm3Props Mm3Small FarmSpec FarmMore SmallModel SmallSpec SmallProofs SmallProps.
Import ListNotations.
Open Scope N_scope.
Open Scope list_scope.

(** ** Sets without a collision *)
Lemma murmur_answer e k s : answer e "murmur332" k s = Mm3Spec.murmur3_x86_32 k.
Proof. reflexivity. Qed.
Lemma farm_answer e k s : answer e "FarmHash32" k s = FarmSpec.spec_hash32 k.
Proof. reflexivity. Qed.
Lemma crapwow_answer e k s : answer e "CrapWow" k s = SmallSpec.crapwow_spec k (low32 s).
Proof. reflexivity. Qed.
Lemma murmur_first_block m m' q : bytes_ok m -> bytes_ok m' -> bytes_ok q -> List.length m = 4%nat -> List.length m' = 4%nat ->
  Mm3Spec.murmur3_x86_32 (m ++ q) = Mm3Spec.murmur3_x86_32 (m' ++ q) -> m = m'.
Proof.
  intros B B' Bq L L' E. destruct (list_eq_dec N.eq_dec m m') as [|D]; [assumption|]. exfalso.
  assert (O : bytes_ok (m ++ q)) by (apply bytes_ok_app; auto). assert (O' : bytes_ok (m' ++ q)) by (apply bytes_ok_app; auto).
  destruct (Mm3Props.c53_no_single_block_collision (m ++ q) (m' ++ q) 0 O O') as [C _].
  destruct (Mm3Props.c52_reference _ O) as [R _]. destruct (Mm3Props.c52_reference _ O') as [R' _]. rewrite R, R' in C. apply C; [|exact E].
  split; [rewrite !app_length; lia|]. split; [intros K; apply app_inv_tail in K; contradiction|].
  intros j Hj. assert (4 <= j)%nat by (destruct (Nat.le_gt_cases 4 j) as [|G]; [assumption|rewrite Nat.div_small in Hj by lia; contradiction]).
  rewrite !nth_error_app2, L, L' by lia. reflexivity.
Qed.
Lemma alphabet_bytes m : incl m alphabet -> bytes_ok m.
Proof.
  intros I. apply Forall_forall. intros c Hc. apply I in Hc. assert (A : bytesb alphabet = true) by (vm_compute; reflexivity).
  unfold bytesb in A. rewrite forallb_forall in A. now apply N.ltb_lt, A.
Qed.
Definition passes_set (name : string) (f : family) : bool :=
  match f with
  | FText [] q => (String.eqb name "murmur332" || String.eqb name "FarmHash32") && same q (str "FooBar")
  | FSparse n _ => String.eqb name "murmur332" && Nat.eqb n 32
  | FSmall _ _ => String.eqb name "murmur332"
  | _ => false
  end.
Lemma no_collision e name f : passes_set name f = true -> ~ collide (fun k => answer e name k 0) (fspec f).
Proof.
  assert (Bq : bytes_ok (str "FooBar")) by (apply bytesb_ok; vm_compute; reflexivity).
  intros P (x & y & Hx & Hy & D & E). destruct f as [[|] q|n b| |n b|]; cbn [passes_set] in P; try discriminate.
  - apply andb_true_iff in P. destruct P as [P Q]. apply same_ok in Q. subst q. cbn [fspec] in Hx, Hy.
    destruct Hx as (m & L & I & ->). destruct Hy as (m' & L' & I' & ->). cbn [app] in D, E. apply alphabet_bytes in I. apply alphabet_bytes in I'.
    apply orb_true_iff in P. destruct P as [P|P]; apply String.eqb_eq in P; subst name.
    + rewrite !murmur_answer in E. apply murmur_first_block in E; auto. now subst.
    + rewrite !farm_answer in E.
      assert (H0 : fits 32 0) by reflexivity.
      assert (LQ : List.length (str "FooBar") = 6%nat) by reflexivity.
      assert (Lm : forall z : list N, List.length z = 4%nat -> (List.length (z ++ str "FooBar") <= 24)%nat) by (intros z Hz; rewrite app_length, LQ; lia).
      rewrite <- !FarmMore.hash32_seed_0 in E by now apply Lm.
      destruct (FarmMore.hole32_perm [] (str "FooBar") 0 (Forall_nil _) Bq H0) as (G & BG & EG).
      { unfold FarmMore.hole32. rewrite LQ. cbn [List.length]. do 3 right. lia. }
      cbn [app] in EG. rewrite !EG in E by assumption. apply (bij_inj _ _ BG) in E; [|apply le_load_fits; auto; rewrite ?L, ?L'; reflexivity..].
      apply D. f_equal. apply le_load_inj in E; auto. lia.
  - apply andb_true_iff in P. destruct P as [P Q]. apply String.eqb_eq in P. apply Nat.eqb_eq in Q. subst name n. cbn [fspec] in Hx, Hy.
    destruct Hx as (L & B & _). destruct Hy as (L' & B' & _). rewrite !murmur_answer in E.
    apply D. apply (murmur_first_block x y []); auto; try lia; [constructor|]. now rewrite !app_nil_r.
  - apply String.eqb_eq in P. subst name. cbn [fspec] in Hx, Hy. rewrite !murmur_answer in E. apply D.
    apply Mm3Small.mm_small_inj; tauto.
Qed.

(** ** All sets of a name *)
Definition narrow_lines : list (string * list (option (list N * list N))) := firstn 11 line_pairs.
Definition is_some {A} (o : option A) : bool := match o with Some _ => true | None => false end.
Lemma none_ok : forallb (fun x => Nat.eqb (List.length (snd x)) 18 && forallb (fun y => is_some (snd y) || passes_set (fst x) (fst y)) (combine families (snd x))) narrow_lines = true.
Proof. vm_compute. reflexivity. Qed.
Lemma map_combine {A B C} (v : A -> C) (w : B -> C) : forall l m, List.length l = List.length m ->
  (forall a b, In (a, b) (combine l m) -> v a = w b) -> map v l = map w m.
Proof.
  induction l as [|a l IH]; intros [|b m] L H; try discriminate; [reflexivity|]. cbn [map]. f_equal; [apply H; now left|].
  apply IH; [now injection L|]. intros. apply H. now right.
Qed.
Lemma narrow_in x : In x narrow_lines -> In x line_pairs.
Proof. intros H. unfold narrow_lines in H. rewrite <- (firstn_skipn 11 line_pairs). apply in_or_app. now left. Qed.
Lemma some_verdict e name ps f a b : In (name, ps) line_pairs -> In (f, Some (a, b)) (combine families ps) -> verdict (answer e name) (fkeys f) = true.
Proof.
  intros H I. pose proof all_pairs as A. rewrite forallb_forall in A. specialize (A _ H). cbn [fst snd] in A. rewrite forallb_forall in A.
  specialize (A _ I). cbn [fst snd] in A. rewrite (verdict_ext (answer e name) (answer toy name)).
  - apply (pair_verdict _ f a b); [now apply in_combine_l in I|exact A].
  - intros k s. apply same_answer. apply in_map_iff. exists (name, ps). auto.
Qed.
Lemma narrow_verdicts e name ps : In (name, ps) narrow_lines -> map (fun f => verdict (answer e name) (fkeys f)) families = map is_some ps.
Proof.
  intros H. pose proof none_ok as N0. rewrite forallb_forall in N0. specialize (N0 _ H). cbn [fst snd] in N0.
  rewrite andb_true_iff, Nat.eqb_eq, forallb_forall in N0. destruct N0 as [L N0].
  apply map_combine; [rewrite L; reflexivity|]. intros f [[a b]|] I; cbn [is_some].
  - apply (some_verdict e name ps f a b); [now apply narrow_in|exact I].
  - specialize (N0 _ I). cbn [fst snd is_some orb] in N0. destruct (verdict (answer e name) (fkeys f)) eqn:V; [|reflexivity]. exfalso.
    apply family_verdict in V; [|now apply in_combine_l in I]. now apply (no_collision e name f N0).
Qed.

(** ** The lines from the sets *)
Lemma fkeys_text p q : fkeys (FText p q) = text_keys alphabet p q.
Proof. reflexivity. Qed.
Definition fam_text : list family := [FText (str "Foo") (str "Bar"); FText (str "FooBar") []; FText [] (str "FooBar")].
Definition fam_sparse : list family := map (fun '(n, k) => FSparse n k) sparse_pairs.
Definition fam_perm : list family := map (fun '(n, s) => FPerm n s) Permutations.
Lemma families_split : families = fam_text ++ fam_sparse ++ fam_perm ++ [FSmall 256 Short; FTwo (seq 2 15)].
Proof. reflexivity. Qed.
Lemma text_line hf : snd (TestSmhasherText hf) = complaints (map (fun f => verdict hf (fkeys f)) fam_text).
Proof. unfold TestSmhasherText, fam_text. cbn [snd map]. rewrite !fkeys_text. reflexivity. Qed.
Lemma sparse_line hf : snd (TestSmhasherSparse hf) = complaints (map (fun f => verdict hf (fkeys f)) fam_sparse).
Proof. unfold TestSmhasherSparse, fam_sparse. cbn [snd]. rewrite map_map. apply (f_equal complaints). apply map_ext. intros (n & k). reflexivity. Qed.
Lemma perm_line hf : snd (TestSmhasherPermutation hf) = complaints (map (fun f => verdict hf (fkeys f)) fam_perm).
Proof. unfold TestSmhasherPermutation, fam_perm. cbn [snd]. rewrite map_map. apply (f_equal complaints). apply map_ext. intros (n & k). reflexivity. Qed.
Lemma small_line hf : TestSmhasherSmallKeys hf = verdict hf (fkeys (FSmall 256 Short)).
Proof. rewrite fkeys_small. reflexivity. Qed.
Lemma two_line hf : TestSmhasherTwoNonzero hf = verdict hf (fkeys (FTwo (seq 2 15))).
Proof. rewrite fkeys_two. reflexivity. Qed.
Lemma lines_split (a b c : list bool) s t bs : a ++ b ++ c ++ [s; t] = bs -> List.length a = 3%nat -> List.length b = 8%nat -> List.length c = 5%nat ->
  complaints a = complaints (firstn 3 bs) /\ complaints b = complaints (firstn 8 (skipn 3 bs)) /\ complaints c = complaints (firstn 5 (skipn 11 bs)) /\
  s = nth 16 bs false /\ t = nth 17 bs false.
Proof.
  intros <- L1 L2 L3.
  destruct a as [|? [|? [|? [|]]]]; try discriminate. destruct b as [|? [|? [|? [|? [|? [|? [|? [|? [|]]]]]]]]]; try discriminate.
  destruct c as [|? [|? [|? [|? [|? [|]]]]]]; try discriminate. cbn [app firstn skipn nth]. repeat split.
Qed.
Lemma lines_of hf bs : map (fun f => verdict hf (fkeys f)) families = bs ->
  snd (TestSmhasherText hf) = complaints (firstn 3 bs) /\ snd (TestSmhasherSparse hf) = complaints (firstn 8 (skipn 3 bs)) /\
  snd (TestSmhasherPermutation hf) = complaints (firstn 5 (skipn 11 bs)) /\
  TestSmhasherSmallKeys hf = nth 16 bs false /\ TestSmhasherTwoNonzero hf = nth 17 bs false.
Proof.
  rewrite families_split, !map_app. rewrite (text_line hf), (sparse_line hf), (perm_line hf), (small_line hf), (two_line hf).
  intros H. apply lines_split; [exact H|rewrite map_length; reflexivity|rewrite map_length; reflexivity|rewrite map_length; reflexivity].
Qed.
(** All the counts of a report in order. *)
Definition bit (b : bool) : nat := if b then 1%nat else 0%nat.
Lemma report_map hf rs name v : map snd (RunSMhasher hf rs name v) = map (fun t => snd (run_stest hf rs t)) (map fst STests).
Proof. unfold RunSMhasher. rewrite !map_map. apply map_ext. intros (t & d). reflexivity. Qed.
Lemma snd_once b : snd (once b) = bit b.
Proof. reflexivity. Qed.
Section Stests.
Variables (hf : list N -> N -> N) (rs : randoms).
Local Opaque once TestSmhasherSanity TestSmhasherSeed TestSmhasherText TestSmhasherWindowed TestSmhasherAvalanche TestSmhasherPermutation
  TestSmhasherSparse TestSmhasherCyclic TestSmhasherTwoNonzero TestSmhasherSmallKeys TestSmhasherAppendedZeros.
Lemma st_sanity : run_stest hf rs SSanity = TestSmhasherSanity hf (r_b rs) (r_c rs). Proof. reflexivity. Qed.
Lemma st_seed : run_stest hf rs SSeed = once (TestSmhasherSeed hf). Proof. reflexivity. Qed.
Lemma st_text : run_stest hf rs SText = TestSmhasherText hf. Proof. reflexivity. Qed.
Lemma st_windowed : run_stest hf rs SWindowed = TestSmhasherWindowed hf. Proof. reflexivity. Qed.
Lemma st_avalanche : run_stest hf rs SAvalanche = TestSmhasherAvalanche hf. Proof. reflexivity. Qed.
Lemma st_permutation : run_stest hf rs SPermutation = TestSmhasherPermutation hf. Proof. reflexivity. Qed.
Lemma st_sparse : run_stest hf rs SSparse = TestSmhasherSparse hf. Proof. reflexivity. Qed.
Lemma st_cyclic : run_stest hf rs SCyclic = TestSmhasherCyclic hf (r_cyclic rs). Proof. reflexivity. Qed.
Lemma st_two : run_stest hf rs STwoNonzero = once (TestSmhasherTwoNonzero hf). Proof. reflexivity. Qed.
Lemma st_small : run_stest hf rs SSmallKeys = once (TestSmhasherSmallKeys hf). Proof. reflexivity. Qed.
Lemma st_appended : run_stest hf rs SAppendedZeros = once (TestSmhasherAppendedZeros hf). Proof. reflexivity. Qed.
End Stests.
Lemma map_tests (f : stest -> nat) : map f (map fst STests) =
  [f SSanity; f SSeed; f SText; f SWindowed; f SAvalanche; f SPermutation; f SSparse; f SCyclic; f STwoNonzero; f SSmallKeys; f SAppendedZeros].
Proof. reflexivity. Qed.
Lemma snd_avalanche hf : snd (TestSmhasherAvalanche hf) = 0%nat.
Proof. reflexivity. Qed.
Lemma eleven (a b c d e f g h i j k a' b' c' d' e' f' g' h' i' j' k' : nat) :
  a = a' -> b = b' -> c = c' -> d = d' -> e = e' -> f = f' -> g = g' -> h = h' -> i = i' -> j = j' -> k = k' ->
  [a; b; c; d; e; f; g; h; i; j; k] = [a'; b'; c'; d'; e'; f'; g'; h'; i'; j'; k'].
Proof. intros; subst; reflexivity. Qed.
Lemma report_counts hf rs name v : map snd (RunSMhasher hf rs name v) =
  [snd (TestSmhasherSanity hf (r_b rs) (r_c rs)); bit (TestSmhasherSeed hf); snd (TestSmhasherText hf); snd (TestSmhasherWindowed hf); 0%nat;
   snd (TestSmhasherPermutation hf); snd (TestSmhasherSparse hf); snd (TestSmhasherCyclic hf (r_cyclic rs)); bit (TestSmhasherTwoNonzero hf);
   bit (TestSmhasherSmallKeys hf); bit (TestSmhasherAppendedZeros hf)].
Proof.
  rewrite report_map. refine (eq_trans (map_tests (fun t => snd (run_stest hf rs t))) _). apply eleven.
  - exact (f_equal snd (st_sanity hf rs)).
  - exact (eq_trans (f_equal snd (st_seed hf rs)) (snd_once _)).
  - exact (f_equal snd (st_text hf rs)).
  - exact (f_equal snd (st_windowed hf rs)).
  - exact (eq_trans (f_equal snd (st_avalanche hf rs)) (snd_avalanche hf)).
  - exact (f_equal snd (st_permutation hf rs)).
  - exact (f_equal snd (st_sparse hf rs)).
  - exact (f_equal snd (st_cyclic hf rs)).
  - exact (eq_trans (f_equal snd (st_two hf rs)) (snd_once _)).
  - exact (eq_trans (f_equal snd (st_small hf rs)) (snd_once _)).
  - exact (eq_trans (f_equal snd (st_appended hf rs)) (snd_once _)).
Qed.

(** ** CrapWow forgets a key of whole blocks written twice *)
Lemma crapwow_doubled bs : forall u seed, Forall (fun b => List.length b = 8%nat /\ bytes_ok b) bs -> bytes_ok u ->
  SmallModel.CrapWow (concat bs ++ concat bs ++ u) seed = SmallModel.CrapWow (concat (repeat (repeat 0 8) (2 * List.length bs)) ++ u) seed.
Proof.
  set (z := repeat 0 8). assert (Hz : List.length z = 8%nat /\ bytes_ok z) by (split; [reflexivity|repeat constructor]).
  assert (C : forall l, Forall (fun b => List.length b = 8%nat /\ bytes_ok b) l -> bytes_ok (concat l)).
  { induction 1 as [|b l [_ Hb] _ IH]; [constructor|]. cbn [concat]. apply bytes_ok_app. auto. }
  induction bs as [|x bs IH]; intros u seed H Hu; [reflexivity|].
  apply Forall_cons_iff in H. destruct H as [[Lx Bx] H].
  assert (T : SmallModel.CrapWow (concat ((x :: bs) ++ (x :: bs)) ++ u) seed = SmallModel.CrapWow (concat (x :: x :: bs ++ bs) ++ u) seed).
  { apply SmallProps.c70_blocks_permute; [apply Forall_app; split; constructor; auto|exact Hu|]. cbn [app]. constructor. apply Permutation_sym, Permutation_middle. }
  rewrite concat_app, <- app_assoc in T. rewrite T. clear T.
  cbn [concat]. rewrite concat_app, <- !app_assoc.
  rewrite (SmallProps.c70_pairs_cancel x z) by (auto; try tauto; apply bytes_ok_app; split; auto; apply bytes_ok_app; auto).
  assert (T : SmallModel.CrapWow (concat (z :: z :: bs ++ bs) ++ u) seed = SmallModel.CrapWow (concat ((bs ++ bs) ++ [z; z]) ++ u) seed).
  { apply SmallProps.c70_blocks_permute; [constructor; [exact Hz|constructor; [exact Hz|apply Forall_app; auto]]|exact Hu|].
    apply (Permutation_app_comm [z; z] (bs ++ bs)). }
  cbn [concat] in T. rewrite !concat_app, <- !app_assoc in T. rewrite T. clear T. cbn [concat]. rewrite app_nil_r, <- !app_assoc.
  rewrite IH; [|exact H|apply bytes_ok_app; split; [tauto|apply bytes_ok_app; tauto]].
  assert (R : concat (repeat z (2 * List.length bs)) ++ z ++ z ++ u = concat (repeat z (2 * List.length (x :: bs))) ++ u).
  { replace (2 * List.length (x :: bs))%nat with (2 * List.length bs + 2)%nat by (cbn [List.length]; lia).
    rewrite repeat_app, concat_app, <- app_assoc. cbn [repeat concat]. rewrite app_nil_r, <- !app_assoc. reflexivity. }
  rewrite R. reflexivity.
Qed.
