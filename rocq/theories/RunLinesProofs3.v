(** The lines of the report that depend on random bytes, and MetroHash64-1. *)
From Coq Require Import NArith ZArith List Arith String Bool Lia Permutation.
From Verif Require Import Words WordLemmas ListLemmas Bij Mem KeccakModel HashfModel HashfSpec HashfProofs HashfProps HtModel HtSpec HtProofs HtMore HtKeys
  SmhModel SmhSpec SmhProofs SmhBits SmhKeys SmhKeys2 SmhFlip SmhProps SmhProps2 RunModel RunSpec RunProofs RunProps RunLinesData RunLinesProofs RunLinesProofs2.
From Verif Require SmallModel SmallSpec SmallProofs SmallProps.
Import ListNotations.
Open Scope N_scope.
Open Scope list_scope.

Lemma cyclic_le hf rb : (snd (TestSmhasherCyclic hf rb) <= 9)%nat.
Proof. unfold TestSmhasherCyclic. cbn [snd]. etransitivity; [apply complaints_le|]. rewrite map_length, seq_length. reflexivity. Qed.
Lemma windowed_length hf k : List.length (windowed hf k) = bits k.
Proof. unfold windowed. now rewrite map_length, seq_length. Qed.
Lemma windowed_le hf : (snd (TestSmhasherWindowed hf) <= 1120)%nat.
Proof. unfold TestSmhasherWindowed. cbn [snd]. etransitivity; [apply complaints_le|]. rewrite !app_length, !windowed_length. cbn [bits]. rewrite repeat_length. apply Nat.leb_le. vm_compute. reflexivity. Qed.
Lemma bit_le b : (bit b <= 1)%nat.
Proof. destruct b; cbn; lia. Qed.

(** At least as many complaints as lengths with a collision. *)
Lemma cyclic_lengths hf rb ns : (forall n i, List.length (rb n i) = (n - 4)%nat) -> NoDup ns ->
  (forall n, In n ns -> (4 <= n <= 12)%nat /\ exists i j, i < j < 1000000 /\ hf (cyclic_key rb n i) 0 = hf (cyclic_key rb n j) 0) ->
  (List.length ns <= snd (TestSmhasherCyclic hf rb))%nat.
Proof.
  intros Hr ND H. unfold TestSmhasherCyclic. cbn [snd].
  match goal with |- (_ <= complaints (map ?f ?l))%nat => pose proof (complaints_count f (fun n => existsb (Nat.eqb n) ns) l) as C end.
  etransitivity; [|apply C]. 
  - apply NoDup_incl_length; [exact ND|]. intros n Hn. apply filter_In. split; [apply in_seq; specialize (H n Hn); lia|].
    apply existsb_exists. exists n. split; [exact Hn|apply Nat.eqb_refl].
  - intros n _ E. apply existsb_exists in E. destruct E as (m & Hm & E). apply Nat.eqb_eq in E. subst m.
    destruct (H n Hm) as (Hn & i & j & Hij & Eh). now apply (cyclic_verdict hf rb n Hr ltac:(lia) i j).
Qed.

(** ** CrapWow *)
Fixpoint blocks8 (n : nat) (l : list N) : list (list N) :=
  match n with O => [] | S n => firstn 8 l :: blocks8 n (skipn 8 l) end.
Lemma blocks8_concat n : forall l, List.length l = (8 * n)%nat -> concat (blocks8 n l) = l.
Proof.
  induction n as [|n IH]; intros l L; [destruct l; [reflexivity|discriminate L]|]. cbn [blocks8 concat].
  rewrite IH by (rewrite skipn_length; lia). apply firstn_skipn.
Qed.
Lemma blocks8_ok n : forall l, List.length l = (8 * n)%nat -> bytes_ok l -> Forall (fun b => List.length b = 8%nat /\ bytes_ok b) (blocks8 n l).
Proof.
  induction n as [|n IH]; intros l L B; [constructor|]. cbn [blocks8]. rewrite <- (firstn_skipn 8 l) in B. apply bytes_ok_app in B. constructor.
  - split; [rewrite firstn_length; lia|tauto].
  - apply IH; [rewrite skipn_length; lia|tauto].
Qed.
Lemma blocks8_length n l : List.length (blocks8 n l) = n.
Proof. revert l. induction n; intros l; cbn [blocks8 List.length]; auto. Qed.
Lemma crapwow_twice n t t' seed : List.length t = (8 * n)%nat -> List.length t' = (8 * n)%nat -> bytes_ok t -> bytes_ok t' ->
  SmallSpec.crapwow_spec (t ++ t) seed = SmallSpec.crapwow_spec (t' ++ t') seed.
Proof.
  assert (G : forall t, List.length t = (8 * n)%nat -> bytes_ok t ->
    SmallModel.CrapWow (t ++ t) seed = SmallModel.CrapWow (concat (repeat (repeat 0 8) (2 * n))) seed).
  { intros u L B. pose proof (crapwow_doubled (blocks8 n u) [] seed (blocks8_ok n u L B) (Forall_nil _)) as D.
    rewrite !app_nil_r, blocks8_length, (blocks8_concat n u L) in D. exact D. }
  intros L L' B B'. pose proof (eq_trans (G t L B) (eq_sym (G t' L' B'))) as E.
  rewrite !SmallProofs.CrapWow_ok in E by (apply bytes_ok_app; auto). now injection E.
Qed.
Lemma cycled_twice m l : cycled (m + m) l = cycled m l ++ cycled m l.
Proof. unfold cycled. rewrite repeat_app, concat_app. reflexivity. Qed.
Definition base_key (rb : nat -> nat -> list N) (n : nat) (c : N) : list N :=
  [c * 79 mod 97; c * 43 mod 137; c * 151 mod 197; c * 199 mod 251] ++ rb n (N.to_nat c).
Lemma cycled_bytes m l : bytes_ok l -> bytes_ok (cycled m l).
Proof. intros B. unfold cycled. induction m as [|m IH]; [constructor|]. cbn [repeat concat]. apply bytes_ok_app. auto. Qed.
Lemma cycled_length m l : List.length (cycled m l) = (m * List.length l)%nat.
Proof. unfold cycled. induction m as [|m IH]; [reflexivity|]. cbn [repeat concat]. rewrite app_length, IH. lia. Qed.
Lemma base_bytes rb n c : (forall n i, bytes_ok (rb n i)) -> bytes_ok (base_key rb n c).
Proof.
  intros B. apply bytes_ok_app. split; [|apply B].
  assert (M : forall x m, 0 < m <= 256 -> x mod m < 256) by (intros x m Hm; pose proof (N.mod_lt x m ltac:(lia)); lia).
  repeat (constructor; [apply M; lia|]). constructor.
Qed.
Lemma crapwow_cyclic e rb : (forall n i, bytes_ok (rb n i)) -> (forall n i, List.length (rb n i) = (n - 4)%nat) ->
  (5 <= snd (TestSmhasherCyclic (answer e "CrapWow") rb))%nat.
Proof.
  intros B L. change 5%nat with (List.length [4; 6; 8; 10; 12]%nat). apply cyclic_lengths; [exact L|repeat constructor; cbn [In]; lia|].
  intros n Hn. assert (Q : exists q, n = (2 * q)%nat /\ (4 <= n <= 12)%nat).
  { exists (n / 2)%nat. cbn [In] in Hn. repeat (destruct Hn as [<-|Hn]; [split; [reflexivity|lia]|]). destruct Hn. }
  destruct Q as (q & E & Hn'). split; [exact Hn'|]. exists 0, 1. split; [lia|]. rewrite !crapwow_answer.
  unfold cyclic_key. change 8%nat with (4 + 4)%nat. rewrite !cycled_twice. apply (crapwow_twice q).
  - rewrite cycled_length, app_length, L. cbn [List.length]. lia.
  - rewrite cycled_length, app_length, L. cbn [List.length]. lia.
  - apply cycled_bytes, (base_bytes rb n 0 B).
  - apply cycled_bytes, (base_bytes rb n 1 B).
Qed.
Lemma crapwow_appended e : TestSmhasherAppendedZeros (answer e "CrapWow") = true.
Proof.
  apply c79_appended. exists [104; 101; 108; 108; 111], [104; 101; 108; 108; 111; 0; 0]. split; [|split; [|split]].
  - exists (repeat 0 256). reflexivity.
  - exists (repeat 0 254). reflexivity.
  - discriminate.
  - rewrite !crapwow_answer. vm_compute. reflexivity.
Qed.

(** ** MetroHash64-1 *)
Definition metro_pair (r : nat) : N * N := (0, if (r <=? 24)%nat then 2 ^ N.of_nat (24 - r) else 1).
Lemma metro_windows : forallb (fun r => window_ok (fun k => answer toy "MetroHash64-1" k 0) (32%nat, r, metro_pair r)) (seq 9 23) = true.
Proof. vm_compute. reflexivity. Qed.
Lemma metro_windowed e : (23 <= snd (TestSmhasherWindowed (answer e "MetroHash64-1")))%nat.
Proof.
  change 23%nat with (List.length (seq 9 23)). apply window_rotations; [apply seq_NoDup|]. intros r Hr.
  pose proof metro_windows as M. rewrite forallb_forall in M. specialize (M r Hr). exists (fst (metro_pair r)), (snd (metro_pair r)).
  exact M.
Qed.

(** Counts from below, when some of the sets are known to have a collision. *)
Definition implied (b c : bool) : Prop := c = true -> b = true.
Lemma complaints_implied bs cs : Forall2 implied bs cs -> (complaints cs <= complaints bs)%nat.
Proof.
  unfold complaints. induction 1 as [|b c bs cs H _ IH]; [reflexivity|]. cbn [filter].
  destruct c; [rewrite (H eq_refl); cbn [List.length]; lia|]. destruct b; cbn [List.length]; lia.
Qed.
Lemma Forall2_firstn {A B} (R : A -> B -> Prop) l l' : Forall2 R l l' -> forall n, Forall2 R (firstn n l) (firstn n l').
Proof. induction 1; intros [|n]; cbn [firstn]; auto. Qed.
Lemma Forall2_skipn {A B} (R : A -> B -> Prop) l l' : Forall2 R l l' -> forall n, Forall2 R (skipn n l) (skipn n l').
Proof. induction 1; intros [|n]; cbn [skipn]; auto. Qed.
Lemma Forall2_nth_b bs cs : Forall2 implied bs cs -> forall n, nth n cs false = true -> nth n bs false = true.
Proof. induction 1; intros [|n]; cbn [nth]; auto. Qed.
Lemma combine_implied (v : family -> bool) : forall (fs : list family) (ps : list (option (list N * list N))), List.length fs = List.length ps ->
  (forall f a b, In (f, Some (a, b)) (combine fs ps) -> v f = true) -> Forall2 implied (map v fs) (map is_some ps).
Proof.
  induction fs as [|f fs IH]; intros [|p ps] L H; try discriminate L; [constructor|]. cbn [map]. constructor.
  - destruct p as [[a b]|]; intros E; [|discriminate E]. apply (H f a b). left. reflexivity.
  - apply IH; [now injection L|]. intros g a b I. apply (H g a b). right. exact I.
Qed.
Lemma some_verdicts e name ps : In (name, ps) line_pairs -> List.length ps = 18%nat ->
  Forall2 implied (map (fun f => verdict (answer e name) (fkeys f)) families) (map is_some ps).
Proof.
  intros H L. apply (combine_implied (fun f => verdict (answer e name) (fkeys f))); [rewrite L; reflexivity|].
  intros f a b I. exact (some_verdict e name ps f a b H I).
Qed.
Lemma perm_le hf : (snd (TestSmhasherPermutation hf) <= 5)%nat.
Proof. rewrite perm_line. etransitivity; [apply complaints_le|]. rewrite map_length. apply Nat.leb_le. reflexivity. Qed.
Lemma sparse_le hf : (snd (TestSmhasherSparse hf) <= 8)%nat.
Proof. rewrite sparse_line. etransitivity; [apply complaints_le|]. rewrite map_length. apply Nat.leb_le. reflexivity. Qed.
Lemma metro_sets e : (3 <= snd (TestSmhasherPermutation (answer e "MetroHash64-1")))%nat /\ (2 <= snd (TestSmhasherSparse (answer e "MetroHash64-1")))%nat /\
  TestSmhasherTwoNonzero (answer e "MetroHash64-1") = true.
Proof.
  assert (P : exists ps, In ("MetroHash64-1"%string, ps) line_pairs /\ List.length ps = 18%nat /\
    complaints (firstn 5 (skipn 11 (map is_some ps))) = 3%nat /\ complaints (firstn 8 (skipn 3 (map is_some ps))) = 2%nat /\ nth 17 (map is_some ps) false = true).
  { eexists. split; [unfold line_pairs; do 11 right; left; reflexivity|]. repeat split. }
  destruct P as (ps & I & L & C1 & C2 & C3). pose proof (some_verdicts e _ ps I L) as S.
  destruct (lines_of (answer e "MetroHash64-1") _ eq_refl) as (_ & E2 & E1 & _ & E3). rewrite E1, E2, E3. split; [|split].
  - etransitivity; [exact (Nat.eq_le_incl _ _ (eq_sym C1))|]. apply complaints_implied, Forall2_firstn, Forall2_skipn, S.
  - etransitivity; [exact (Nat.eq_le_incl _ _ (eq_sym C2))|]. apply complaints_implied, Forall2_firstn, Forall2_skipn, S.
  - apply (Forall2_nth_b _ _ S), C3.
Qed.

(** ** Seeds *)
Definition seeds_ok (h : N -> N) (x : N * N) : bool := (fst x <? 100000) && (snd x <? 100000) && negb (fst x =? snd x) && (h (fst x) =? h (snd x)).
Lemma all_seeds : forallb (fun x => seeds_ok (answer toy (fst x) [104; 101; 108; 108; 111]) (snd x)) seed_pairs = true.
Proof. vm_compute. reflexivity. Qed.
Lemma seed_line e name : In name (map fst seed_pairs) -> TestSmhasherSeed (answer e name) = true.
Proof.
  intros H. apply in_map_iff in H. destruct H as ((n & i & j) & E & H). cbn [fst] in E. subst n.
  pose proof all_seeds as A. rewrite forallb_forall in A. specialize (A _ H). cbn [fst snd] in A. unfold seeds_ok in A. cbn [fst snd] in A.
  rewrite !andb_true_iff, negb_true_iff, !N.ltb_lt, N.eqb_neq, N.eqb_eq in A. destruct A as (((A1 & A2) & A3) & A4).
  apply c79_seed. exists i, j. split; [exact A1|]. split; [exact A2|]. split; [exact A3|].
  assert (I : In name (map fst line_pairs)).
  { unfold seed_pairs in H. cbn [In] in H. repeat (destruct H as [H|H]; [injection H as <- _ _; unfold line_pairs; cbn [map fst In]; tauto|]). destruct H. }
  rewrite !(same_answer e name) by exact I. exact A4.
Qed.

(** ** The report of a 32-bit hash *)
Lemma sanity_ok hf rr : (forall k n i, bytes_ok (r_b (rr_of rr) k n i) /\ List.length (r_b (rr_of rr) k n i) = 176%nat /\
    bytes_ok (r_c (rr_of rr) k n i) /\ List.length (r_c (rr_of rr) k n i) = 176%nat) ->
  TestSmhasherSanity hf (r_b (rr_of rr)) (r_c (rr_of rr)) = (false, 0%nat).
Proof. intros R. apply c79_sanity. intros k n i. destruct (R k n i) as (_ & L1 & _ & L2). auto. Qed.
Lemma narrow_report e rr name ps v : randoms_ok rr -> In (name, ps) narrow_lines -> let bs := map is_some ps in
  exists seed win cyc app, map snd (RunSMhasher (answer e name) (rr_of rr) name v) =
    [0%nat; seed; complaints (firstn 3 bs); win; 0%nat; complaints (firstn 5 (skipn 11 bs)); complaints (firstn 8 (skipn 3 bs)); cyc;
     bit (nth 17 bs false); bit (nth 16 bs false); app] /\
    (seed <= 1)%nat /\ (1 <= win <= 1120)%nat /\ (1 <= cyc <= 9)%nat /\ (app <= 1)%nat.
Proof.
  intros R H bs. destruct (lines_of (answer e name) bs (narrow_verdicts e name ps H)) as (E1 & E2 & E3 & E4 & E5).
  destruct R as (R1 & R2 & _).
  exists (bit (TestSmhasherSeed (answer e name))), (snd (TestSmhasherWindowed (answer e name))), (snd (TestSmhasherCyclic (answer e name) (r_cyclic (rr_of rr)))),
    (bit (TestSmhasherAppendedZeros (answer e name))).
  assert (I : In name (map fst line_pairs)) by (apply in_map_iff; exists (name, ps); split; [reflexivity|now apply narrow_in]).
  split; [|split; [|split; [|split]]].
  - rewrite report_counts.
    exact (eleven _ _ _ _ _ _ _ _ _ _ _ _ _ _ _ _ _ _ _ _ _ _ (f_equal snd (sanity_ok (answer e name) rr R1)) eq_refl E1 eq_refl eq_refl E3 E2 eq_refl
      (f_equal bit E5) (f_equal bit E4) eq_refl).
  - apply bit_le.
  - split; [|apply windowed_le].
    assert (W : exists x, In (name, x) window_pairs /\ In (fst (fst x)) [32; 64]%nat).
    { unfold narrow_lines, line_pairs in H. cbn [firstn In] in H. unfold window_pairs.
      repeat (destruct H as [H|H]; [injection H as <- _; eexists; split; [cbn [In]; intuition reflexivity|cbn; tauto]|]). destruct H. }
    destruct W as (((n & r) & i & j) & W & In'). pose proof all_windows as A. rewrite forallb_forall in A. specialize (A _ W). cbn [fst snd] in A, In'.
    apply (window_count_pos (answer e name) n r i j In'). revert A. unfold window_ok. cbv zeta. rewrite !(same_answer e name) by exact I. auto.
  - split; [|apply cyclic_le].
    assert (W : exists x, In (name, x) cyclic_pairs).
    { unfold narrow_lines, line_pairs in H. cbn [firstn In] in H. unfold cyclic_pairs.
      repeat (destruct H as [H|H]; [injection H as <- _; eexists; cbn [In]; intuition reflexivity|]). destruct H. }
    destruct W as (x & W). pose proof all_cyclic as A. rewrite forallb_forall in A. specialize (A _ W). cbn [fst snd] in A.
    assert (A' : cyclic_ok (fun k => answer e name k 0) x = true) by (revert A; unfold cyclic_ok; cbv zeta; rewrite !(same_answer e name) by exact I; trivial).
    exact (cyclic_pos (answer e name) (r_cyclic (rr_of rr)) x (fun n i => proj2 (R2 n i)) A').
  - apply bit_le.
Qed.
