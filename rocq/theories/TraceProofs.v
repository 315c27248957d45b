(** Proofs about the printed output of Insert (C98, C99). *)
From Coq Require Import Arith ZArith List Lia Permutation Bool.
From Coq Require Import ZifyBool ZifyN ZifyNat.
From Verif Require Import Words WordLemmas HashTableModel ListLemmas HashTableSpec HashTableProofs HashTableOA HashTableOA2 HashTableMore HashTableProps HashfProofs TraceModel TraceSpec.
Import ListNotations.
Open Scope N_scope.

Lemma btoi_some k : (4 <= length k)%nat -> exists v, btoi k = Some v.
Proof. destruct k as [|a [|b [|c [|d k]]]]; cbn [length]; intros H; try lia. eexists. reflexivity. Qed.
Lemma btoi_none k : (length k < 4)%nat -> btoi k = None.
Proof. destruct k as [|a [|b [|c [|d k]]]]; cbn [length]; intros H; try reflexivity. lia. Qed.
Lemma btoi_shown k v : bytes_ok k -> btoi k = Some v -> v = shown k.
Proof.
  destruct k as [|a [|b [|c [|d k]]]]; try discriminate. intros H E. injection E as <-. inversion H as [|? ? Ha H1]; subst. inversion H1 as [|? ? Hb H2]; subst. inversion H2 as [|? ? Hc H3]; subst. inversion H3 as [|? ? Hd _]; subst.
  unfold byte_ok in *. rewrite !N.shiftl_mul_pow2. unfold shown. cbn [nth].
  rewrite (lor_step (d * 2 ^ 24) d (c * 2 ^ 16) 24); [|lia|change (2 ^ 16) with 65536; change (2 ^ 24) with 16777216; lia].
  rewrite (lor_step _ (d * 2 ^ 8 + c) (b * 2 ^ 8) 16); [|change (2 ^ 16) with 65536; change (2 ^ 24) with 16777216; change (2 ^ 8) with 256; lia|change (2 ^ 16) with 65536; change (2 ^ 8) with 256; lia].
  rewrite (lor_step _ (d * 2 ^ 16 + c * 2 ^ 8 + b) a 8); [|change (2 ^ 16) with 65536; change (2 ^ 24) with 16777216; change (2 ^ 8) with 256; lia|change (2 ^ 8) with 256; lia]. lia.
Qed.
Lemma flat_map_map {A B C} (f : B -> list C) (g : A -> B) l : flat_map f (map g l) = flat_map (fun x => f (g x)) l.
Proof. induction l as [|a l IH]; [reflexivity|]. cbn [map flat_map]. now rewrite IH. Qed.
Lemma traces_app a b : traces (a ++ b) = traces a ++ traces b.
Proof. unfold traces. apply flat_map_app. Qed.
Lemma listed_app a b : listed (a ++ b) = listed a ++ listed b.
Proof. unfold listed. apply flat_map_app. Qed.
Definition numbered (tc : N) (ls : list tline) : Prop := map l_i ls = map (fun i => tc + N.of_nat i) (seq 0 (length ls)).
Lemma numbered_cons tc l ls : l_i l = tc -> numbered (tc + 1) ls -> numbered tc (l :: ls).
Proof.
  unfold numbered. intros E H. cbn [map length seq]. rewrite E, H, <- seq_shift, map_map. f_equal; [lia|]. apply map_ext. intros a. lia.
Qed.
Lemma numbered_app tc a b : numbered tc a -> numbered (tc + N.of_nat (length a)) b -> numbered tc (a ++ b).
Proof.
  revert tc. induction a as [|l a IH]; intros tc; cbn [length app]; [intros _; now rewrite N.add_0_r|]. intros Ha Hb. assert (E : l_i l = tc) by (unfold numbered in Ha; cbn [map length seq] in Ha; injection Ha as E _; lia).
  apply numbered_cons; [exact E|]. apply IH.
  - unfold numbered in *. cbn [map length seq] in Ha. injection Ha as _ Ha. rewrite Ha, <- seq_shift, map_map. apply map_ext. intros i. lia.
  - now replace (tc + 1 + N.of_nat (length a)) with (tc + N.of_nat (S (length a))) by lia.
Qed.

(** ** The output does not disturb the table *)
Lemma loop_sim trace pd hf k h : (trace = true -> (4 <= length k)%nat) -> forall fuel t idx cnt pass tc o,
  match insert_loop fuel hf k h t idx cnt pass with
  | Ret t' => exists o', insert_loop_out fuel trace pd hf k h t idx cnt pass tc o = Done t' (tc + N.of_nat (length (traces o'))) (o ++ o') /\
      numbered tc (traces o') /\
      N.of_nat (length (traces o')) = (if trace then probes (st t') + cols (st t') - (probes (st t) + cols (st t)) else 0) /\
      probes (st t) + cols (st t) <= probes (st t') + cols (st t')
  | Panic => exists o', insert_loop_out fuel trace pd hf k h t idx cnt pass tc o = Dead (o ++ o')
  | OutOfFuel => insert_loop_out fuel trace pd hf k h t idx cnt pass tc o = Fuel
  end.
Proof.
  intros Hk. assert (Em : forall cnt p pos idx tc o, exists o', emit trace k cnt p pos idx tc o = Some (tc + N.of_nat (length (traces o')), o ++ o') /\ numbered tc (traces o') /\ N.of_nat (length (traces o')) = if trace then 1 else 0).
  { intros. unfold emit. destruct trace; [|exists []; rewrite app_nil_r, N.add_0_r; repeat split].
    destruct (btoi_some k (Hk eq_refl)) as (v & ->). exists [Trc (mkLine tc cnt p pos idx 0 v v)]. split; [reflexivity|]. split; [|reflexivity]. unfold numbered. cbn [traces flat_map app map length seq l_i]. f_equal. lia. }
  induction fuel as [|fuel IH]; intros t idx cnt pass tc o; [reflexivity|]. cbn [insert_loop insert_loop_out].
  destruct (nth_error (buckets t) idx) as [[|b0 rest]|]; [| |exists []; now rewrite app_nil_r].
  - destruct (Em cnt OpI 0 (N.of_nat idx) tc o) as (o' & -> & Nu & L). exists o'. split; [reflexivity|]. split; [exact Nu|]. cbn [with_bucket st bump_head probes cols]. rewrite L. destruct trace; lia.
  - destruct (is_oa t).
    + destruct (Em cnt OpP 0 (N.of_nat idx) tc o) as (o1 & -> & Nu & L).
      set (o2 := if (hf b0 =? h) && pd then _ else o ++ o1).
      assert (E2 : exists d, o2 = o ++ o1 ++ d /\ traces d = []).
      { unfold o2. destruct ((hf b0 =? h) && pd); [eexists; rewrite <- app_assoc; split; [reflexivity|reflexivity]|exists []; now rewrite app_nil_r]. }
      destruct E2 as (d & E2 & Td). set (t1 := with_stats t (bump_oa cnt (hf b0 =? h) (st t))).
      assert (S1 : probes (st t1) + cols (st t1) = probes (st t) + cols (st t) + 1) by (unfold t1; cbn [with_stats st bump_oa probes cols]; destruct (cnt =? 0); lia).
      assert (K : forall idx' pass', match insert_loop fuel hf k h t1 idx' (cnt + 1) pass' with
        | Ret t' => exists o', insert_loop_out fuel trace pd hf k h t1 idx' (cnt + 1) pass' (tc + N.of_nat (length (traces o1))) o2 = Done t' (tc + N.of_nat (length (traces o'))) (o ++ o') /\
            numbered tc (traces o') /\ N.of_nat (length (traces o')) = (if trace then probes (st t') + cols (st t') - (probes (st t) + cols (st t)) else 0) /\
            probes (st t) + cols (st t) <= probes (st t') + cols (st t')
        | Panic => exists o', insert_loop_out fuel trace pd hf k h t1 idx' (cnt + 1) pass' (tc + N.of_nat (length (traces o1))) o2 = Dead (o ++ o')
        | OutOfFuel => insert_loop_out fuel trace pd hf k h t1 idx' (cnt + 1) pass' (tc + N.of_nat (length (traces o1))) o2 = Fuel
        end).
      { intros idx' pass'. specialize (IH t1 idx' (cnt + 1) pass' (tc + N.of_nat (length (traces o1))) o2). destruct (insert_loop fuel hf k h t1 idx' (cnt + 1) pass') as [t'| |]; [| |exact IH].
        - destruct IH as (o' & E & Nu' & L' & Le). exists (o1 ++ d ++ o'). rewrite E. split; [f_equal|split; [|split]].
          + rewrite !traces_app, Td, !app_length. cbn [length app]. lia.
          + rewrite E2. now rewrite <- !app_assoc.
          + rewrite !traces_app, Td. cbn [app]. now apply numbered_app.
          + rewrite !traces_app, Td, !app_length. cbn [length app]. destruct trace; lia.
          + lia.
        - destruct IH as (o' & E). exists (o1 ++ d ++ o'). rewrite E, E2. now rewrite <- !app_assoc. }
      destruct (sub64 (size t) 1 <? N.of_nat (S idx)); [|apply K]. destruct (1 <? pass + 1); [|apply K]. exists (o1 ++ d). now rewrite E2.
    + cbv zeta. match goal with |- context [emit _ _ _ OpI ?q _ _ _] => destruct (Em cnt OpI q (N.of_nat idx) tc o) as (o' & -> & Nu & L) end. exists o'. split; [reflexivity|]. split; [exact Nu|].
      cbn [with_bucket st bump_chain probes cols]. rewrite L. destruct trace; lia.
Qed.
Lemma insert_sim trace pd hf k : (trace = true -> (4 <= length k)%nat) -> forall t tc o,
  match insert hf t k with
  | Ret t' => exists o', insert_out trace pd hf t tc o k = Done t' (tc + N.of_nat (length (traces o'))) (o ++ o') /\ numbered tc (traces o') /\
      N.of_nat (length (traces o')) = (if trace then probes (st t') + cols (st t') - (probes (st t) + cols (st t)) else 0) /\
      probes (st t) + cols (st t) <= probes (st t') + cols (st t')
  | Panic => exists o', insert_out trace pd hf t tc o k = Dead (o ++ o')
  | OutOfFuel => insert_out trace pd hf t tc o k = Fuel
  end.
Proof.
  intros Hk t tc o. unfold insert, insert_out. destruct (is_prime t && (size t =? 0)); [exists []; now rewrite app_nil_r|].
  match goal with |- context [insert_loop ?f _ _ _ ?t0 ?i 0 0] => pose proof (loop_sim trace pd hf k (hf k) Hk f t0 i 0 0 tc o) as S end.
  destruct (insert_loop _ _ _ _ _ _ _ _); exact S.
Qed.
Lemma all_sim trace pd hf : forall ks, (trace = true -> Forall (fun k : key => (4 <= length k)%nat) ks) -> forall t tc o,
  match insert_all hf t ks with
  | Ret t' => exists o', insert_all_out trace pd hf t tc o ks = Done t' (tc + N.of_nat (length (traces o'))) (o ++ o') /\ numbered tc (traces o') /\
      N.of_nat (length (traces o')) = (if trace then probes (st t') + cols (st t') - (probes (st t) + cols (st t)) else 0) /\
      probes (st t) + cols (st t) <= probes (st t') + cols (st t')
  | Panic => exists o', insert_all_out trace pd hf t tc o ks = Dead (o ++ o')
  | OutOfFuel => insert_all_out trace pd hf t tc o ks = Fuel
  end.
Proof.
  induction ks as [|k ks IH]; intros Hk t tc o; cbn [insert_all insert_all_out].
  - exists []. rewrite app_nil_r. cbn [traces flat_map length]. rewrite N.add_0_r. repeat split; try reflexivity; destruct trace; lia.
  - assert (H1 : trace = true -> (4 <= length k)%nat) by (intros T; specialize (Hk T); now inversion Hk).
    assert (H2 : trace = true -> Forall (fun k : key => (4 <= length k)%nat) ks) by (intros T; specialize (Hk T); now inversion Hk).
    pose proof (insert_sim trace pd hf k H1 t tc o) as S. destruct (insert hf t k) as [t1| |]; [| |now rewrite S].
    + destruct S as (o1 & -> & N1 & L1 & Le1). specialize (IH H2 t1 (tc + N.of_nat (length (traces o1))) (o ++ o1)).
      destruct (insert_all hf t1 ks) as [t2| |]; [| |exact IH].
      * destruct IH as (o2 & -> & N2 & L2 & Le2). exists (o1 ++ o2). rewrite traces_app, app_length, app_assoc. repeat split; [f_equal; lia|now apply numbered_app|destruct trace; lia|lia].
      * destruct IH as (o2 & ->). exists (o1 ++ o2). now rewrite app_assoc.
    + destruct S as (o1 & ->). now exists o1.
Qed.
Lemma short_insert pd hf t tc o k : (length k < 4)%nat -> insert_out true pd hf t tc o k = Dead o.
Proof.
  intros H. unfold insert_out. destruct (is_prime t && (size t =? 0)); [reflexivity|]. unfold enough_fuel. rewrite Nat.add_comm. cbn [Nat.add insert_loop_out].
  destruct (nth_error _ _) as [[|b0 rest]|]; [| |reflexivity]; unfold emit; rewrite (btoi_none k H); [reflexivity|]. destruct (is_oa _); reflexivity.
Qed.
Lemma all_out_app trace pd hf ks ks' : forall t tc o, insert_all_out trace pd hf t tc o (ks ++ ks') =
  match insert_all_out trace pd hf t tc o ks with Done t' tc' o' => insert_all_out trace pd hf t' tc' o' ks' | p => p end.
Proof. induction ks as [|k ks IH]; intros t tc o; [reflexivity|]. cbn [app insert_all_out]. destruct (insert_out trace pd hf t tc o k); auto. Qed.

(** ** The lines of one insertion *)
Section Lines.
  Variables (trace pd : bool) (hf : key -> N) (k : key) (h v : N).
  Hypothesis Hv : trace = true -> btoi k = Some v.
  Definition probe_lines (n idx d : nat) (cnt tc : N) : list tline :=
    map (fun e => mkLine (tc + N.of_nat e) (cnt + N.of_nat e) OpP 0 (N.of_nat ((idx + e) mod n)) 0 v v) (seq 0 d) ++
    [mkLine (tc + N.of_nat d) (cnt + N.of_nat d) OpI 0 (N.of_nat ((idx + d) mod n)) 0 v v].
  Definition same_hash (bs : list (list key)) (idx d : nat) : list (N * N * key) :=
    flat_map (fun e => match nth_error bs ((idx + e) mod length bs) with
                       | Some (b0 :: _) => if hf b0 =? h then [(h, N.of_nat ((idx + e) mod length bs), k); (hf b0, N.of_nat ((idx + e) mod length bs), b0)] else []
                       | _ => []
                       end) (seq 0 d).
  Lemma loop_lines : forall fuel t idx cnt pass tc o t' tc' o', table_shape t -> is_oa t = true -> (idx < length (buckets t))%nat ->
    insert_loop_out fuel trace pd hf k h t idx cnt pass tc o = Done t' tc' o' ->
    exists d, (forall e, (e < d)%nat -> exists b0 r, nth_error (buckets t) ((idx + e) mod length (buckets t)) = Some (b0 :: r)) /\
      nth_error (buckets t) ((idx + d) mod length (buckets t)) = Some [] /\
      buckets t' = set_nth ((idx + d) mod length (buckets t)) [k] (buckets t) /\
      traces o' = traces o ++ (if trace then probe_lines (length (buckets t)) idx d cnt tc else []) /\
      listed o' = listed o ++ (if pd then same_hash (buckets t) idx d else []).
  Proof.
    induction fuel as [|fuel IH]; intros t idx cnt pass tc o t' tc' o' Hs Hoa Hi E; [discriminate|]. cbn [insert_loop_out] in E.
    destruct (nth_error (buckets t) idx) as [[|b0 rest]|] eqn:En; [| |discriminate].
    - exists 0%nat. rewrite Nat.add_0_r, Nat.mod_small by exact Hi. split; [lia|]. split; [exact En|]. unfold emit in E. destruct trace eqn:T.
      + rewrite (Hv eq_refl) in E. injection E as <- <- <-. cbn [with_bucket buckets]. split; [reflexivity|]. rewrite traces_app, listed_app. split.
        * unfold probe_lines. cbn [seq map app]. rewrite Nat.add_0_r, Nat.mod_small, !N.add_0_r by exact Hi. reflexivity.
        * cbn. now destruct pd.
      + injection E as <- <- <-. cbn [with_bucket buckets]. split; [reflexivity|]. rewrite app_nil_r. split; [reflexivity|]. cbn. destruct pd; now rewrite app_nil_r.
    - rewrite Hoa in E.
      set (one := if trace then [Trc (mkLine tc cnt OpP 0 (N.of_nat idx) 0 v v)] else []).
      assert (Em : emit trace k cnt OpP 0 (N.of_nat idx) tc o = Some (if trace then tc + 1 else tc, o ++ one)).
      { unfold emit, one. destruct trace; [now rewrite (Hv eq_refl)|now rewrite app_nil_r]. }
      rewrite Em in E. clear Em. set (tc1 := if trace then tc + 1 else tc) in E. set (o1 := if (hf b0 =? h) && pd then _ else _) in E.
      set (t1 := with_stats t (bump_oa cnt (hf b0 =? h) (st t))) in E.
      assert (E1 : exists pass' idx', (idx' < length (buckets t))%nat /\ (forall e, ((idx' + e) mod length (buckets t) = (idx + S e) mod length (buckets t))%nat) /\
        insert_loop_out fuel trace pd hf k h t1 idx' (cnt + 1) pass' tc1 o1 = Done t' tc' o').
      { rewrite (size_pred t Hs) in E. pose proof Hs as (H1 & H2 & H3 & H4). destruct (N.ltb_spec (size t - 1) (N.of_nat (S idx))) as [Hlt|Hge].
        - destruct (1 <? pass + 1); [discriminate|]. exists (pass + 1), 0%nat. split; [lia|]. split; [|exact E]. intros e. replace (idx + S e)%nat with (e + 1 * length (buckets t))%nat by lia. rewrite Nat.mod_add by lia. reflexivity.
        - exists pass, (S idx). split; [lia|]. split; [|exact E]. intros e. f_equal. lia. }
      destruct E1 as (pass' & idx' & Hi' & Mo & E1). destruct (IH t1 idx' (cnt + 1) pass' tc1 o1 t' tc' o' Hs Hoa Hi' E1) as (d & Ho & Hf & Hb & Ht & Hl).
      assert (I0 : ((idx + 0) mod length (buckets t) = idx)%nat) by (rewrite Nat.add_0_r; now apply Nat.mod_small).
      change (buckets t1) with (buckets t) in *. exists (S d). rewrite <- Mo. split; [|split; [exact Hf|split; [exact Hb|split]]].
      + intros [|e] He; [rewrite Nat.add_0_r, Nat.mod_small by exact Hi; now exists b0, rest|]. rewrite <- Mo. apply Ho. lia.
      + rewrite Ht. unfold o1, one, tc1. destruct trace; [|destruct ((hf b0 =? h) && pd); rewrite ?traces_app; cbn [traces flat_map app]; now rewrite ?app_nil_r].
        assert (TT : traces (if (hf b0 =? h) && pd then (o ++ [Trc (mkLine tc cnt OpP 0 (N.of_nat idx) 0 v v)]) ++ [Dup h (N.of_nat idx) k; Dup (hf b0) (N.of_nat idx) b0] else o ++ [Trc (mkLine tc cnt OpP 0 (N.of_nat idx) 0 v v)]) = traces o ++ [mkLine tc cnt OpP 0 (N.of_nat idx) 0 v v]).
        { destruct ((hf b0 =? h) && pd); rewrite ?traces_app; cbn [traces flat_map app]; now rewrite ?app_nil_r. }
        rewrite TT, <- app_assoc. f_equal. unfold probe_lines. cbn [seq map app]. rewrite I0, !N.add_0_r. f_equal.
        rewrite <- seq_shift, map_map. f_equal.
        * apply map_ext. intros e. rewrite Mo. f_equal; lia.
        * rewrite Mo. do 2 f_equal; lia.
      + rewrite Hl. unfold same_hash. cbn [seq flat_map]. rewrite I0, En. unfold o1, one.
        assert (LL : listed (if (hf b0 =? h) && pd then (o ++ (if trace then [Trc (mkLine tc cnt OpP 0 (N.of_nat idx) 0 v v)] else [])) ++ [Dup h (N.of_nat idx) k; Dup (hf b0) (N.of_nat idx) b0] else o ++ (if trace then [Trc (mkLine tc cnt OpP 0 (N.of_nat idx) 0 v v)] else [])) = listed o ++ if (hf b0 =? h) && pd then [(h, N.of_nat idx, k); (hf b0, N.of_nat idx, b0)] else []).
        { destruct trace, ((hf b0 =? h) && pd); rewrite ?listed_app; cbn [listed flat_map app]; now rewrite ?app_nil_r. }
        rewrite LL, <- app_assoc. f_equal. destruct pd; [|now rewrite Bool.andb_false_r]. rewrite Bool.andb_true_r. rewrite <- seq_shift, flat_map_map.
        f_equal. apply flat_map_ext. intros e. now rewrite Mo.
  Qed.
  Lemma insert_lines t tc o t' tc' o' : h = hf k -> table_shape t -> is_oa t = true -> insert_out trace pd hf t tc o k = Done t' tc' o' ->
    let n := length (buckets t) in
    exists d, (forall e, (e < d)%nat -> exists b0 r, nth_error (buckets t) ((home_nat hf t k + e) mod n) = Some (b0 :: r)) /\
      nth_error (buckets t) ((home_nat hf t k + d) mod n) = Some [] /\ (d < n)%nat /\
      buckets t' = set_nth ((home_nat hf t k + d) mod n) [k] (buckets t) /\
      traces o' = traces o ++ (if trace then probe_lines n (home_nat hf t k) d 0 tc else []) /\
      listed o' = listed o ++ (if pd then same_hash (buckets t) (home_nat hf t k) d else []).
  Proof.
    intros Eh Hs Hoa E. cbv zeta. unfold insert_out in E. destruct (is_prime t && (size t =? 0)); [discriminate|].
    pose proof (home_nat_lt hf t k Hs) as Hi. rewrite <- Eh, index_of_home in E by exact Hs. rewrite Eh in E at 2. fold (home_nat hf t k) in E.
    set (t1 := with_stats t _) in E. pose proof (loop_lines (enough_fuel t) t1 (home_nat hf t k) 0 0 tc o t' tc' o' Hs Hoa Hi E) as (d & Ho & Hf & Hb & Ht & Hl).
    change (buckets t1) with (buckets t) in *. exists d. repeat split; auto.
    destruct (Nat.lt_ge_cases d (length (buckets t))) as [A|A]; [exact A|]. destruct (Ho (d - length (buckets t))%nat) as (b0 & r & Eo); [lia|].
    replace (home_nat hf t k + d)%nat with (home_nat hf t k + (d - length (buckets t)) + 1 * length (buckets t))%nat in Hf by lia. rewrite Nat.mod_add in Hf by lia. congruence.
  Qed.
End Lines.
