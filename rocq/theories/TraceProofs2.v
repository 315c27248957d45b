(** Proofs about the printed output of Insert, continued: reading the trace back, the
    listing of equal hashes. *)
From Coq Require Import Arith ZArith List Lia Permutation Bool.
From Coq Require Import ZifyBool ZifyN ZifyNat.
From Verif Require Import Words WordLemmas HashTableModel ListLemmas HashTableSpec HashTableProofs HashTableOA HashTableOA2 HashTableMore HashTableProps Probing TraceModel TraceSpec TraceProofs.
Import ListNotations.
Open Scope N_scope.

Lemma all_done trace pd hf ks : forall t tc o t' tc' o', insert_all_out trace pd hf t tc o ks = Done t' tc' o' ->
  insert_all hf t ks = Ret t' /\ (trace = true -> Forall (fun k : key => (4 <= length k)%nat) ks).
Proof.
  induction ks as [|k ks IH]; intros t tc o t' tc' o' E; cbn [insert_all_out insert_all] in *; [injection E as <- _ _; split; [reflexivity|constructor]|].
  assert (Hk : trace = true -> (4 <= length k)%nat).
  { intros T. destruct (Nat.lt_ge_cases (length k) 4) as [L|L]; [|exact L]. subst trace. rewrite short_insert in E by exact L. discriminate. }
  pose proof (insert_sim trace pd hf k Hk t tc o) as S. destruct (insert hf t k) as [t1| |].
  - destruct S as (o1 & S & _). rewrite S in E. destruct (IH _ _ _ _ _ _ E) as [A B]. split; [exact A|]. intros T. constructor; auto.
  - destruct S as (o1 & S). rewrite S in E. discriminate.
  - rewrite S in E. discriminate.
Qed.
Lemma new_inv np sz extra oa prime hf ks t : let t0 := new_table np sz extra oa prime in
  1 <= size t0 -> fits 64 (size t0) -> insert_all hf t0 ks = Ret t -> table_shape t /\ is_oa t = oa /\ size t = size t0 /\ is_prime t = prime.
Proof.
  intros t0 H1 H2 E. destruct oa.
  - pose proof (oa_new np sz extra prime hf ks H1 H2) as A. cbv zeta in A. fold t0 in A. destruct (N.of_nat (length ks) <=? size t0); [|congruence]. destruct A as (t' & E' & I). rewrite E in E'. injection E' as <-.
    split; [apply (io_shape _ _ _ _ _ I)|]. split; [apply (io_oa _ _ _ _ _ I)|]. split; [|apply (io_prime _ _ _ _ _ I)]. rewrite (io_size _ _ _ _ _ I). lia.
  - pose proof (chained_inv np sz extra prime hf ks t H1 H2 E) as I. split; [apply (ic_shape _ _ _ _ _ I)|]. split; [apply (ic_oa _ _ _ _ _ I)|]. split; [apply (ic_size _ _ _ _ _ I)|apply (ic_prime _ _ _ _ _ I)].
Qed.

(** The line of one insertion in a chained table. *)
Lemma chain_lines trace pd hf k v t tc o t' tc' o' : (trace = true -> btoi k = Some v) -> table_shape t -> is_oa t = false -> insert_out trace pd hf t tc o k = Done t' tc' o' ->
  exists b, nth_error (buckets t) (home_nat hf t k) = Some b /\ buckets t' = set_nth (home_nat hf t k) (b ++ [k]) (buckets t) /\
    traces o' = traces o ++ (if trace then [mkLine tc 0 OpI (N.of_nat (length b)) (N.of_nat (home_nat hf t k)) 0 v v] else []) /\ listed o' = listed o.
Proof.
  intros Hv Hs Hoa E. unfold insert_out in E. destruct (is_prime t && (size t =? 0)); [discriminate|].
  rewrite index_of_home in E by exact Hs. fold (home_nat hf t k) in E. unfold enough_fuel in E. rewrite Nat.add_comm in E. cbn [Nat.add insert_loop_out with_stats buckets is_oa st] in E. rewrite Hoa in E.
  destruct (nth_error (buckets t) (home_nat hf t k)) as [[|b0 rest]|]; [| |discriminate].
  - exists []. split; [reflexivity|]. unfold emit in E. destruct trace.
    + rewrite (Hv eq_refl) in E. injection E as <- <- <-. split; [reflexivity|]. rewrite traces_app, listed_app. cbn [listed flat_map]. now rewrite app_nil_r.
    + injection E as <- <- <-. now rewrite app_nil_r.
  - exists (b0 :: rest). split; [reflexivity|]. unfold emit in E. cbv zeta in E. destruct trace.
    + rewrite (Hv eq_refl) in E. injection E as <- <- <-. split; [reflexivity|]. rewrite traces_app, listed_app. cbn [listed flat_map]. rewrite app_nil_r. split; [|reflexivity]. f_equal.
      cbn [traces flat_map app]. do 2 f_equal. cbn [app length]. rewrite app_length. cbn [length]. lia.
    + injection E as <- <- <-. now rewrite app_nil_r.
Qed.

(** ** Reading the trace back *)
Lemma map_set_nth {A B} (f : A -> B) i x l : map f (set_nth i x l) = set_nth i (f x) (map f l).
Proof. revert i. induction l as [|a l IH]; intros [|i]; cbn [set_nth map]; [reflexivity|reflexivity|reflexivity|]. now rewrite IH. Qed.
Lemma replay_probes bs ls : Forall (fun l => l_op l = OpP /\ exists b, nth_error bs (N.to_nat (l_b l)) = Some b /\ nonempty b = true) ls -> fold_left replay_line ls (Some bs) = Some bs.
Proof. induction 1 as [|l ls (Ho & b & Hb & Hn) _ IH]; [reflexivity|]. cbn [fold_left]. unfold replay_line at 2. now rewrite Hb, Ho, Hn. Qed.
Lemma replay_all np sz extra oa prime pd hf ks t tc o :
  let t0 := new_table np sz extra oa prime in
  1 <= size t0 -> fits 64 (size t0) -> Forall bytes_ok ks -> insert_all_out true pd hf t0 0 [] ks = Done t tc o ->
  replay (size t0) (traces o) = Some (map (map shown) (buckets t)).
Proof.
  intros t0 H1 H2. revert t tc o. induction ks as [|k ks IH] using rev_ind; intros t tc o Hb E.
  - injection E as <- <- <-. cbn [traces flat_map replay]. unfold replay. cbn [fold_left]. destruct (new_table_fields np sz extra oa prime) as (_ & _ & _ & F). fold t0 in F. rewrite F. f_equal. generalize (N.to_nat (size t0)). clear. intros n. induction n as [|n IHn]; [reflexivity|]. cbn [repeat map]. f_equal. exact IHn.
  - apply Forall_app in Hb. destruct Hb as [Hb Hk]. inversion Hk as [|? ? Hk' _]; subst. rewrite all_out_app in E. destruct (insert_all_out true pd hf t0 0 [] ks) as [t1 tc1 o1| |] eqn:E1; try discriminate.
    specialize (IH t1 tc1 o1 Hb eq_refl). cbn [insert_all_out] in E. destruct (insert_out true pd hf t1 tc1 o1 k) as [t2 tc2 o2| |] eqn:E2; try discriminate. injection E as <- <- <-.
    destruct (all_done _ _ _ _ _ _ _ _ _ _ E1) as [R1 _]. destruct (new_inv np sz extra oa prime hf ks t1 H1 H2 R1) as (Hs & Ho & Hz & Hp).
    assert (Hv : exists v, btoi k = Some v). { apply btoi_some. destruct (Nat.lt_ge_cases (length k) 4) as [L|L]; [|exact L]. rewrite short_insert in E2 by exact L. discriminate. }
    destruct Hv as (v & Hv). pose proof (btoi_shown k v Hk' Hv) as Ev. unfold replay in *.
    assert (Nm : forall i, nth_error (map (map shown) (buckets t1)) i = option_map (map shown) (nth_error (buckets t1) i)).
    { intros i. generalize (buckets t1). clear. intros l. revert i. induction l as [|a l IHl]; intros [|i]; cbn; auto. }
    destruct oa.
    + destruct (insert_lines true pd hf k (hf k) v (fun _ => Hv) t1 tc1 o1 t2 tc2 o2 eq_refl Hs Ho E2) as (d & Hocc & Hfree & Hd & Hbk & Ht & _). rewrite Ht, fold_left_app, IH, Hbk, map_set_nth.
      unfold probe_lines. rewrite fold_left_app. rewrite replay_probes.
      * cbn [fold_left]. unfold replay_line. cbn [l_b l_op l_t l_v]. rewrite Nat2N.id, Nm, Hfree. cbn [option_map map length app N.of_nat N.eqb]. now rewrite Ev.
      * apply Forall_forall. intros l Hl. apply in_map_iff in Hl. destruct Hl as (e & <- & He). apply in_seq in He. cbn [l_op l_b]. split; [reflexivity|]. rewrite Nat2N.id, Nm. destruct (Hocc e ltac:(lia)) as (b0 & r & ->). now exists (map shown (b0 :: r)).
    + destruct (chain_lines true pd hf k v t1 tc1 o1 t2 tc2 o2 (fun _ => Hv) Hs Ho E2) as (b & Hn & Hbk & Ht & _). rewrite Ht, fold_left_app, IH, Hbk, map_set_nth. cbn [fold_left]. unfold replay_line. cbn [l_b l_op l_t l_v].
      rewrite Nat2N.id, Nm, Hn. cbn [option_map]. now rewrite map_length, N.eqb_refl, map_app, Ev.
Qed.

(** ** The listing *)
Lemma flat_map_flat_map {A B C} (f : B -> list C) (g : A -> list B) l : flat_map f (flat_map g l) = flat_map (fun x => flat_map f (g x)) l.
Proof. induction l as [|a l IH]; [reflexivity|]. cbn [flat_map]. now rewrite flat_map_app, IH. Qed.
Lemma flat_map_ext_in {A B} (f g : A -> list B) l : (forall a, In a l -> f a = g a) -> flat_map f l = flat_map g l.
Proof. induction l as [|a l IH]; intros H; [reflexivity|]. cbn [flat_map]. rewrite H by now left. rewrite IH; [reflexivity|]. intros b Hb. apply H. now right. Qed.
Lemma flat_map_nth {A B} (f : A -> list B) l d : (d <= length l)%nat -> flat_map (fun e => match nth_error l e with Some b => f b | None => [] end) (seq 0 d) = flat_map f (firstn d l).
Proof.
  revert d. induction l as [|a l IH]; intros [|d] H; cbn [length] in H; [reflexivity|lia|reflexivity|]. cbn [seq flat_map nth_error firstn]. f_equal. rewrite <- seq_shift, flat_map_map. cbn [nth_error]. apply IH. lia.
Qed.
Lemma equal_pairs_snoc hf ks k : Permutation (equal_pairs hf (ks ++ [k])) (equal_pairs hf ks ++ map (fun k' => (k, k')) (filter (fun k' => hf k' =? hf k) ks)).
Proof.
  induction ks as [|a ks IH]; [reflexivity|]. cbn [app equal_pairs]. rewrite filter_app, map_app. cbn [filter]. rewrite (N.eqb_sym (hf a) (hf k)). rewrite <- !app_assoc. apply Permutation_app_head.
  destruct (hf k =? hf a); cbn [map app]; [|exact IH]. rewrite IH. apply Permutation_middle.
Qed.
Lemma equal_pairs_length hf ks : N.of_nat (length (equal_pairs hf ks)) = equal_hash_pairs hf ks.
Proof. induction ks as [|k ks IH]; [reflexivity|]. cbn [equal_pairs equal_hash_pairs]. rewrite app_length, map_length, Nat2N.inj_add, IH. reflexivity. Qed.
Lemma listing_length hf q : length (listing hf q) = (2 * length q)%nat.
Proof. induction q as [|((i & k) & k') q IH]; [reflexivity|]. unfold listing in *. cbn [flat_map app length]. rewrite IH. lia. Qed.
Lemma listed_all np sz extra prime trace hf ks t tc o :
  let t0 := new_table np sz extra true prime in
  1 <= size t0 -> fits 64 (size t0) -> insert_all_out trace true hf t0 0 [] ks = Done t tc o ->
  exists q, listed o = listing hf q /\ Forall (fun '(i, k, k') => hf k = hf k' /\ nth_error (buckets t) (N.to_nat i) = Some [k']) q /\
    Permutation (map (fun '(i, k, k') => (k, k')) q) (equal_pairs hf ks).
Proof.
  intros t0 H1 H2. revert t tc o. induction ks as [|k ks IH] using rev_ind; intros t tc o E.
  - injection E as <- <- <-. exists []. repeat split; constructor.
  - rewrite all_out_app in E. destruct (insert_all_out trace true hf t0 0 [] ks) as [t1 tc1 o1| |] eqn:E1; try discriminate.
    destruct (IH t1 tc1 o1 eq_refl) as (q & Lq & Fq & Pq). cbn [insert_all_out] in E. destruct (insert_out trace true hf t1 tc1 o1 k) as [t2 tc2 o2| |] eqn:E2; try discriminate. injection E as <- <- <-.
    destruct (all_done _ _ _ _ _ _ _ _ _ _ E1) as [R1 _].
    pose proof (oa_new np sz extra prime hf ks H1 H2) as A. cbv zeta in A. fold t0 in A. destruct (N.of_nat (length ks) <=? size t0); [|congruence]. destruct A as (t' & E' & I). rewrite R1 in E'. injection E' as <-.
    set (n := N.to_nat (size t0)) in *. assert (Hn : (1 <= n)%nat) by (unfold n; lia).
    pose proof (io_len _ _ _ Hn _ _ I) as HL. pose proof (io_shape _ _ _ _ _ I) as Hs. pose proof (io_oa _ _ _ _ _ I) as Ho.
    assert (Hv : exists v, trace = true -> btoi k = Some v).
    { destruct trace; [|exists 0; discriminate]. destruct (btoi_some k) as (v & Hv); [|exists v; auto]. destruct (Nat.lt_ge_cases (length k) 4) as [L|L]; [|exact L]. rewrite short_insert in E2 by exact L. discriminate. }
    destruct Hv as (v & Hv). destruct (insert_lines trace true hf k (hf k) v Hv t1 tc1 o1 t2 tc2 o2 eq_refl Hs Ho E2) as (d & Hocc & Hfree & Hd & Hbk & _ & Hl). set (h := home_nat hf t1 k) in *. rewrite HL in *.
    pose proof (home_nat_lt hf t1 k Hs) as Hh. fold h in Hh. rewrite HL in Hh.
    set (qn := flat_map (fun e => match nth_error (buckets t1) ((h + e) mod n) with Some (b0 :: _) => if hf b0 =? hf k then [(N.of_nat ((h + e) mod n), k, b0)] else [] | _ => [] end) (seq 0 d)).
    exists (q ++ qn). split; [|split].
    + rewrite Hl, Lq. unfold listing. rewrite flat_map_app. f_equal. unfold qn, same_hash. rewrite flat_map_flat_map, HL. apply flat_map_ext. intros e.
      destruct (nth_error (buckets t1) ((h + e) mod n)) as [[|b0 r]|]; [reflexivity| |reflexivity]. destruct (hf b0 =? hf k) eqn:Eh; reflexivity.
    + apply Forall_app. split.
      * apply Forall_forall. intros ((i & a) & b) Hi. rewrite Forall_forall in Fq. specialize (Fq _ Hi). destruct Fq as [F1 F2]. split; [exact F1|]. rewrite Hbk. rewrite set_nth_other; [exact F2|]. intros Ee. rewrite Ee in Hfree. congruence.
      * apply Forall_forall. intros ((i & a) & b) Hi. unfold qn in Hi. apply in_flat_map in Hi. destruct Hi as (e & He & Hi). apply in_seq in He. destruct (nth_error (buckets t1) ((h + e) mod n)) as [[|b0 r]|] eqn:Eb; try (destruct Hi).
        destruct (N.eqb_spec (hf b0) (hf k)) as [Eh|]; [|destruct Hi]. destruct Hi as [Hi|[]]. injection Hi as <- <- <-. split; [now symmetry|]. rewrite Nat2N.id, Hbk.
        assert (S1 : r = []). { pose proof (io_single _ _ _ _ _ I) as Sg. rewrite Forall_forall in Sg. specialize (Sg _ (nth_error_In _ _ Eb)). cbn [length] in Sg. destruct r; [reflexivity|cbn [length] in Sg; lia]. }
        subst r. rewrite set_nth_other; [exact Eb|]. intros Ee. rewrite Ee in Hfree. congruence.
    + rewrite map_app, (equal_pairs_snoc hf ks k). apply Permutation_app; [exact Pq|].
      assert (Lr : length (rot h (buckets t1)) = n) by (rewrite rot_length; exact HL).
      assert (Sp : rot h (buckets t1) = firstn d (rot h (buckets t1)) ++ [] :: skipn (S d) (rot h (buckets t1))).
      { rewrite <- (firstn_skipn d (rot h (buckets t1))) at 1. f_equal. apply skipn_nth_cons. rewrite nth_error_rot by (rewrite HL; lia). now rewrite HL. }
      set (V := firstn d (rot h (buckets t1))) in *. set (R := skipn (S d) (rot h (buckets t1))) in *.
      assert (Hm : h = hm hf prime n k) by (unfold h; apply (home_nat_hm _ _ _ _ _ k I)).
      assert (NR : filter (fun k' => hf k' =? hf k) (concat R) = []) by (apply (later_no_dup hf prime n Hn ks t1 k V R I); rewrite <- Hm; exact Sp).
      assert (Pk : Permutation (filter (fun k' => hf k' =? hf k) ks) (filter (fun k' => hf k' =? hf k) (concat V))).
      { assert (P1 : Permutation ks (concat V ++ concat R)).
        { rewrite <- (io_perm _ _ _ _ _ I). transitivity (concat (rot h (buckets t1))); [|rewrite Sp, concat_app; reflexivity]. unfold rot. rewrite <- (firstn_skipn h (buckets t1)) at 1. rewrite !concat_app. apply Permutation_app_comm. }
        rewrite (filter_perm _ _ _ P1), filter_app, NR, app_nil_r. reflexivity. }
      rewrite Pk. assert (SV : Forall (fun b : list key => (length b <= 1)%nat) V).
      { pose proof (io_single _ _ _ _ _ I) as Sg. assert (Sr : Forall (fun b : list key => (length b <= 1)%nat) (rot h (buckets t1))) by (unfold rot; rewrite <- (firstn_skipn h (buckets t1)) in Sg; apply Forall_app in Sg; apply Forall_app; tauto).
        rewrite Sp in Sr. apply Forall_app in Sr. apply Sr. }
      assert (Eq : map (fun '(i, a, b) => (a, b)) qn = flat_map (fun b => match b with b0 :: _ => if hf b0 =? hf k then [(k, b0)] else [] | [] => [] end) V).
      { unfold V. rewrite <- flat_map_nth by lia. unfold qn. rewrite flat_map_concat_map, concat_map, map_map, <- flat_map_concat_map. apply flat_map_ext_in. intros e He. apply in_seq in He.
        rewrite nth_error_rot by (rewrite HL; lia). rewrite HL. destruct (nth_error (buckets t1) ((h + e) mod n)) as [[|b0 r]|]; [reflexivity| |reflexivity]. now destruct (hf b0 =? hf k). }
      rewrite Eq. clear -SV. induction SV as [|b V Hb _ IH]; [reflexivity|]. cbn [flat_map concat]. destruct b as [|b0 [|b1 r]]; [exact IH| |cbn [length] in Hb; lia]. cbn [app filter]. destruct (hf b0 =? hf k); cbn [app map]; [now apply perm_skip|exact IH].
Qed.
Lemma silent_chained trace pd hf ks : forall np sz extra prime t tc o, let t0 := new_table np sz extra false prime in
  1 <= size t0 -> fits 64 (size t0) -> insert_all_out trace pd hf t0 0 [] ks = Done t tc o -> listed o = [].
Proof.
  intros np sz extra prime t tc o t0 H1 H2. revert t tc o. induction ks as [|k ks IH] using rev_ind; intros t tc o E; [now injection E as <- <- <-|].
  rewrite all_out_app in E. destruct (insert_all_out trace pd hf t0 0 [] ks) as [t1 tc1 o1| |] eqn:E1; try discriminate. specialize (IH t1 tc1 o1 eq_refl).
  cbn [insert_all_out] in E. destruct (insert_out trace pd hf t1 tc1 o1 k) as [t2 tc2 o2| |] eqn:E2; try discriminate. injection E as <- <- <-.
  destruct (all_done _ _ _ _ _ _ _ _ _ _ E1) as [R1 _]. destruct (new_inv np sz extra false prime hf ks t1 H1 H2 R1) as (Hs & Ho & Hz & Hp).
  assert (Hv : exists v, trace = true -> btoi k = Some v).
  { destruct trace; [|exists 0; discriminate]. destruct (btoi_some k) as (v & Hv); [|exists v; auto]. destruct (Nat.lt_ge_cases (length k) 4) as [L|L]; [|exact L]. rewrite short_insert in E2 by exact L. discriminate. }
  destruct Hv as (v & Hv). destruct (chain_lines trace pd hf k v t1 tc1 o1 t2 tc2 o2 Hv Hs Ho E2) as (b & _ & _ & _ & ->). exact IH.
Qed.
