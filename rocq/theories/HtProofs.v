From Coq Require Import NArith ZArith List Arith String Bool Lia.
From Verif Require Import Words WordLemmas Mem ListLemmas HashTableModel HtModel HtSpec.
Import ListNotations.
Open Scope N_scope.
Open Scope list_scope.

(** ** ReadFile *)
Lemma read_string_line l rest : one_line l -> read_string (l ++ 10 :: rest) = (l ++ [10], rest, true).
Proof.
  induction l as [|c l IH]; intros H; cbn [app read_string].
  - reflexivity.
  - destruct (c =? 10) eqn:E; [apply N.eqb_eq in E; subst; exfalso; apply H; left; reflexivity|].
    rewrite IH; [reflexivity|]. intros Hi; apply H; right; exact Hi.
Qed.
Lemma read_string_rest l : one_line l -> read_string l = (l, [], false).
Proof.
  induction l as [|c l IH]; intros H; cbn [read_string].
  - reflexivity.
  - destruct (c =? 10) eqn:E; [apply N.eqb_eq in E; subst; exfalso; apply H; left; reflexivity|].
    rewrite IH; [reflexivity|]. intros Hi; apply H; right; exact Hi.
Qed.

Lemma chop_snoc c p x : chop c (p ++ [x]) = Ok (if x =? c then p else p ++ [x]).
Proof.
  unfold chop. rewrite app_length. cbn [List.length].
  replace (List.length p + 1 - 1)%nat with (List.length p) by lia.
  destruct (p ++ [x]) eqn:E; [destruct p; discriminate E|]. rewrite <- E.
  unfold idx. rewrite nth_error_app2 by lia. rewrite Nat.sub_diag. cbn [nth_error rbind].
  f_equal. destruct (x =? c); [|reflexivity].
  rewrite firstn_app, Nat.sub_diag, firstn_all. cbn [firstn]. apply app_nil_r.
Qed.
Lemma chop_nil c : chop c [] = Panics.
Proof. reflexivity. Qed.
Lemma ends_snoc c p x : ends_in c (p ++ [x]) <-> x = c.
Proof.
  split.
  - intros [q E]. apply app_inj_tail in E. exact (proj2 E).
  - intros ->. exists p. reflexivity.
Qed.
Lemma ends_nil c : ~ ends_in c [].
Proof. intros [q E]. destruct q; discriminate E. Qed.

Lemma chops_good l : ~ blank l -> exists t, (a <~ chop 10 (l ++ [10]) ;; b <~ chop 13 a ;; chop 32 b) = Ok t /\ trimmed l t.
Proof.
  intros Hb. rewrite chop_snoc. cbn [rbind]. change (10 =? 10) with true. cbv iota.
  destruct l as [|x p _] using rev_ind; [exfalso; apply Hb; left; reflexivity|].
  rewrite chop_snoc. cbn [rbind].
  destruct (x =? 13) eqn:E.
  - apply N.eqb_eq in E; subst.
    destruct p as [|y q _] using rev_ind; [exfalso; apply Hb; right; reflexivity|].
    rewrite chop_snoc. eexists; split; [reflexivity|].
    destruct (y =? 32) eqn:E.
    + apply N.eqb_eq in E; subst. exists [32], [13]. rewrite <- app_assoc. repeat split; auto.
    + exists [], [13]. rewrite <- app_assoc. cbn [app]. repeat split; auto.
      * now rewrite <- app_assoc.
      * right; split; [reflexivity|]. rewrite ends_snoc. intros ->. discriminate E.
  - rewrite chop_snoc. eexists; split; [reflexivity|].
    assert (N13 : ~ ends_in 13 (p ++ [x])) by (rewrite ends_snoc; intros ->; discriminate E).
    destruct (x =? 32) eqn:E2.
    + apply N.eqb_eq in E2; subst. exists [32], []. repeat split; auto.
    + exists [], []. rewrite app_nil_r. repeat split; auto.
      right; split; [reflexivity|]. rewrite ends_snoc. intros ->. discriminate E2.
Qed.
Lemma chops_bad l : blank l -> (a <~ chop 10 (l ++ [10]) ;; b <~ chop 13 a ;; chop 32 b) = Panics.
Proof. intros [-> | ->]; reflexivity. Qed.

Lemma joined_cons l ls rest : joined (l :: ls) rest = l ++ 10 :: joined ls rest.
Proof. unfold joined. cbn [flat_map]. rewrite <- !app_assoc. reflexivity. Qed.
Lemma joined_nil rest : joined [] rest = rest.
Proof. reflexivity. Qed.
Lemma joined_length ls rest : (List.length ls <= List.length (joined ls rest))%nat.
Proof.
  induction ls as [|l ls IH]; [cbn; lia|]. rewrite joined_cons, app_length. cbn [List.length]. lia.
Qed.

Lemma read_loop_good : forall ls fuel rest n, Forall one_line ls -> Forall (fun l => ~ blank l) ls ->
  one_line rest -> (List.length ls < fuel)%nat ->
  exists ts, Forall2 trimmed ls ts /\ read_loop fuel (joined ls rest) n = (ts, Ok (n + List.length ls)%nat).
Proof.
  induction ls as [|l ls IH]; intros fuel rest n H1 H2 H3 H4; (destruct fuel; [lia|]).
  - exists []. split; [constructor|]. cbn [read_loop]. rewrite joined_nil, read_string_rest by exact H3.
    cbn [List.length]. now rewrite Nat.add_0_r.
  - apply Forall_cons_iff in H1. apply Forall_cons_iff in H2. cbn [List.length] in H4.
    cbn [read_loop]. rewrite joined_cons, read_string_line by tauto.
    destruct (chops_good l (proj1 H2)) as (t & E & T). cbv iota beta. rewrite E.
    destruct (IH fuel rest (S n)) as (ts & F & R); [tauto|tauto|exact H3|lia|].
    rewrite R. exists (t :: ts). split; [constructor; assumption|]. cbn [List.length]. do 2 f_equal. lia.
Qed.
Lemma read_loop_bad : forall ls l ls' fuel rest n, Forall one_line ls -> Forall (fun l => ~ blank l) ls ->
  one_line l -> blank l -> (List.length ls < fuel)%nat ->
  exists ts, Forall2 trimmed ls ts /\ read_loop fuel (joined (ls ++ l :: ls') rest) n = (ts, Panics).
Proof.
  induction ls as [|x ls IH]; intros l ls' fuel rest n H1 H2 H3 Hb H4; (destruct fuel; [lia|]).
  - exists []. split; [constructor|]. cbn [read_loop app]. rewrite joined_cons, read_string_line by exact H3.
    cbv iota beta. rewrite chops_bad by exact Hb. reflexivity.
  - apply Forall_cons_iff in H1. apply Forall_cons_iff in H2. cbn [List.length] in H4.
    cbn [read_loop app]. rewrite joined_cons, read_string_line by tauto.
    destruct (chops_good x (proj1 H2)) as (t & E & T). cbv iota beta. rewrite E.
    destruct (IH l ls' fuel rest (S n)) as (ts & F & R); [tauto|tauto|exact H3|exact Hb|lia|].
    rewrite R. exists (t :: ts). split; [constructor; assumption|]. reflexivity.
Qed.

Lemma readfile_good ls rest : Forall one_line ls -> Forall (fun l => ~ blank l) ls -> one_line rest ->
  exists ts, Forall2 trimmed ls ts /\ ReadFile (Some (joined ls rest)) = (ts, Ok (List.length ls)).
Proof.
  intros H1 H2 H3. unfold ReadFile.
  destruct (read_loop_good ls (S (List.length (joined ls rest))) rest 0 H1 H2 H3) as (ts & F & R).
  - pose proof (joined_length ls rest). lia.
  - exists ts. split; [exact F|]. exact R.
Qed.
Lemma readfile_bad ls l ls' rest : Forall one_line ls -> Forall (fun l => ~ blank l) ls -> one_line l -> blank l ->
  exists ts, Forall2 trimmed ls ts /\ ReadFile (Some (joined (ls ++ l :: ls') rest)) = (ts, Panics).
Proof.
  intros H1 H2 H3 Hb. unfold ReadFile.
  apply read_loop_bad; try assumption.
  pose proof (joined_length (ls ++ l :: ls') rest) as J. rewrite app_length in J. cbn [List.length] in J. lia.
Qed.
Lemma decompose s : exists ls rest, Forall one_line ls /\ one_line rest /\ s = joined ls rest.
Proof.
  induction s as [|c s (ls & rest & H1 & H2 & ->)].
  - exists [], []. repeat split; [constructor|]. intros [].
  - destruct (N.eq_dec c 10) as [->|N].
    + exists ([] :: ls), rest. repeat split; [constructor; [intros []|exact H1]|exact H2].
    + destruct ls as [|l ls].
      * exists [], (c :: rest). repeat split; [constructor|]. intros [E|E]; [exact (N E)|exact (H2 E)].
      * apply Forall_cons_iff in H1. exists ((c :: l) :: ls), rest.
        repeat split; [constructor; [|tauto]|exact H2].
        intros [E|E]; [exact (N E)|exact (proj1 H1 E)].
Qed.
Lemma trimmed_fun l t1 t2 : trimmed l t1 -> trimmed l t2 -> t1 = t2.
Proof.
  intros (sp1 & cr1 & E1 & C1 & S1) (sp2 & cr2 & E2 & C2 & S2).
  assert (Ecr : cr1 = cr2 /\ t1 ++ sp1 = t2 ++ sp2).
  { destruct C1 as [-> | [-> N1]], C2 as [-> | [-> N2]].
    - rewrite E1, !app_assoc in E2. apply app_inj_tail in E2. tauto.
    - exfalso. apply N2. rewrite E1. exists (t1 ++ sp1). now rewrite app_assoc.
    - exfalso. apply N1. rewrite E2. exists (t2 ++ sp2). now rewrite app_assoc.
    - rewrite !app_nil_r in *. split; congruence. }
  destruct Ecr as [-> E].
  destruct S1 as [-> | [-> N1]], S2 as [-> | [-> N2]].
  - apply app_inj_tail in E. tauto.
  - rewrite app_nil_r in E. exfalso. apply N2. rewrite <- E. exists t1. reflexivity.
  - rewrite app_nil_r in E. exfalso. apply N1. rewrite E. exists t2. reflexivity.
  - now rewrite !app_nil_r in E.
Qed.

(** ** Strings *)
Lemma utf8_encoded c : byte c -> utf8 c = encoded c.
Proof.
  intros H. unfold utf8, encoded. destruct (c <? 128); [reflexivity|].
  assert (A : forallb (fun c => (N.lor 192 (shr c 6) =? 192 + c / 64) && (N.lor 128 (N.land c 63) =? 128 + c mod 64))
                (map N.of_nat (seq 0 256)) = true) by (vm_compute; reflexivity).
  rewrite forallb_forall in A.
  assert (I : In c (map N.of_nat (seq 0 256))).
  { apply in_map_iff. exists (N.to_nat c). split; [lia|]. apply in_seq. unfold byte in H. lia. }
  specialize (A c I). apply andb_prop in A. destruct A as [A B].
  apply N.eqb_eq in A. apply N.eqb_eq in B. rewrite A, B. reflexivity.
Qed.
Lemma encoded_inj c d x y : byte c -> byte d -> encoded c ++ x = encoded d ++ y -> c = d /\ x = y.
Proof.
  unfold encoded, byte. intros Hc Hd E.
  pose proof (N.div_mod c 64 ltac:(discriminate)). pose proof (N.div_mod d 64 ltac:(discriminate)).
  generalize dependent (c / 64). generalize dependent (d / 64). generalize dependent (c mod 64). generalize dependent (d mod 64).
  intros d0 c0 d1 E0 c1 E Ec.
  assert (K : forall a b : N, forall u v : list N, a :: u = b :: v -> a = b /\ u = v) by (intros; split; congruence).
  destruct (N.ltb_spec c 128) as [E1|E1], (N.ltb_spec d 128) as [E2|E2]; cbn [app] in E; apply K in E;
    destruct E as [E E']; [auto|exfalso; lia|exfalso; lia|apply K in E'; destruct E' as [E' E'']].
  split; [lia|exact E''].
Qed.
Lemma concat_encoded_inj : forall l m, Forall byte l -> Forall byte m ->
  flat_map encoded l = flat_map encoded m -> l = m.
Proof.
  induction l as [|c l IH]; intros [|d m] Hl Hm E; cbn [flat_map] in E.
  - reflexivity.
  - exfalso. unfold encoded in E. destruct (d <? 128); discriminate E.
  - exfalso. unfold encoded in E. destruct (c <? 128); discriminate E.
  - apply Forall_cons_iff in Hl. apply Forall_cons_iff in Hm.
    apply encoded_inj in E; [|tauto|tauto]. destruct E as [-> E]. f_equal. apply IH; tauto.
Qed.
Lemma flat_map_utf8 l : Forall byte l -> flat_map utf8 l = flat_map encoded l.
Proof.
  induction 1 as [|c l Hc Hl IH]; [reflexivity|]. cbn [flat_map]. now rewrite utf8_encoded, IH.
Qed.
Lemma encoded_ascii l : Forall (fun c => c < 128) l -> flat_map encoded l = l.
Proof.
  induction 1 as [|c l Hc Hl IH]; [reflexivity|]. cbn [flat_map]. rewrite IH.
  unfold encoded. apply N.ltb_lt in Hc. rewrite Hc. reflexivity.
Qed.
Lemma reverse_utf8 s : reverse s = flat_map utf8 (rev s).
Proof.
  induction s as [|c s IH]; [reflexivity|]. cbn [reverse rev]. rewrite flat_map_app, IH. cbn [flat_map].
  now rewrite app_nil_r.
Qed.
Lemma Forall_rev' {A} (P : A -> Prop) l : Forall P l -> Forall P (rev l).
Proof. rewrite !Forall_forall. intros H x Hx. apply H. apply in_rev. exact Hx. Qed.
Lemma reverse_encoded s : Forall byte s -> reverse s = flat_map encoded (rev s).
Proof. intros H. rewrite reverse_utf8. apply flat_map_utf8, Forall_rev'. exact H. Qed.
Lemma reverse_inj s t : Forall byte s -> Forall byte t -> reverse s = reverse t -> s = t.
Proof.
  intros Hs Ht E. rewrite !reverse_encoded in E by assumption.
  apply concat_encoded_inj in E; try (apply Forall_rev'; assumption).
  rewrite <- (rev_involutive s), E. apply rev_involutive.
Qed.
Lemma ascii_byte s : Forall (fun c => c < 128) s -> Forall byte s.
Proof. apply Forall_impl. unfold byte. intros; lia. Qed.
Lemma reverse_ascii s : Forall (fun c => c < 128) s -> reverse s = rev s.
Proof.
  intros H. rewrite reverse_encoded by (apply ascii_byte; exact H). apply encoded_ascii, Forall_rev'. exact H.
Qed.

(** ** genWords *)
Lemma set_nth_app {A} (p : list A) x y r : set_nth (List.length p) x (p ++ y :: r) = p ++ x :: r.
Proof. induction p as [|a p IH]; cbn [List.length app set_nth]; [reflexivity|]. now rewrite IH. Qed.
Lemma set_nth_length {A} i (x : A) l : List.length (set_nth i x l) = List.length l.
Proof. revert i. induction l as [|y l IH]; intros [|i]; cbn [set_nth List.length]; auto. Qed.

(** Counter digits: structural version. *)
Fixpoint digits (lens : list nat) (i : nat) : list nat :=
  match lens with [] => [] | l :: r => (i mod l)%nat :: digits r (i / l) end.
Lemma digits_length lens i : List.length (digits lens i) = List.length lens.
Proof. revert i. induction lens as [|l r IH]; intros i; cbn [digits List.length]; auto. Qed.
Lemma product_pos lens : Forall (fun l => 0 < l)%nat lens -> (0 < product lens)%nat.
Proof. induction 1 as [|l r Hl Hr IH]; cbn [product fold_right]; [lia|]. unfold product in IH. nia. Qed.

Lemma inc_loop_digits : forall suf pre dpre fuel i,
  suf <> [] -> Forall (fun l => 0 < l)%nat (map (@List.length N) suf) ->
  List.length dpre = List.length pre -> (List.length suf < fuel)%nat ->
  (i < product (map (@List.length N) suf))%nat ->
  inc_loop fuel (pre ++ suf) (dpre ++ digits (map (@List.length N) suf) i) (List.length pre)
  = Ok (dpre ++ digits (map (@List.length N) suf) (S i), Nat.eqb (S i) (product (map (@List.length N) suf))).
Proof.
  induction suf as [|p suf IH]; intros pre dpre fuel i Hne Hp Hl Hf Hi; [congruence|].
  destruct fuel; [lia|]. cbn [List.length] in Hf.
  cbn [map] in *. apply Forall_cons_iff in Hp. destruct Hp as [Hp Hps].
  cbn [digits inc_loop]. rewrite <- Hl.
  rewrite nth_error_app2, Nat.sub_diag by lia. cbn [nth_error].
  rewrite set_nth_app, Hl, nth_error_app2, Nat.sub_diag by lia. cbn [nth_error].
  set (l := List.length p) in *.
  pose proof (Nat.mod_upper_bound i l) as MB.
  pose proof (Nat.div_mod i l) as DM.
  cbn [product fold_right] in Hi |- *. fold (product (map (@List.length N) suf)) in *.
  destruct (Nat.leb l (S (i mod l))) eqn:E.
  - apply Nat.leb_le in E.
    assert (Em : (i mod l = l - 1)%nat) by lia.
    assert (Es : (S i = 0 + (S (i / l)) * l)%nat) by nia.
    assert (Esm : (S i mod l = 0)%nat) by (rewrite Es, Nat.mod_add, Nat.mod_0_l; lia).
    assert (Esd : (S i / l = S (i / l))%nat) by (rewrite Es, Nat.div_add, Nat.div_0_l; lia).
    rewrite <- Hl, set_nth_app, Hl. rewrite app_length. cbn [List.length].
    destruct suf as [|p2 suf].
    + cbn [List.length]. replace (Nat.leb (List.length pre + 1) (S (List.length pre))) with true
        by (symmetry; apply Nat.leb_le; lia).
      cbn [map digits product fold_right] in *. rewrite Esm. do 2 f_equal.
      symmetry. apply Nat.eqb_eq. fold l in Hi. nia.
    + replace (Nat.leb (List.length pre + S (List.length (p2 :: suf))) (S (List.length pre))) with false
        by (symmetry; apply Nat.leb_gt; cbn [List.length]; lia).
      specialize (IH (pre ++ [p]) (dpre ++ [0%nat]) fuel (i / l)%nat).
      rewrite <- !app_assoc in IH. cbn [app] in IH.
      rewrite (app_length pre [p]) in IH. cbn [List.length] in IH.
      rewrite Nat.add_1_r in IH. rewrite IH; [|discriminate|exact Hps| | |].
      * rewrite Esd, Esm. do 2 f_equal.
        generalize dependent (product (map (@List.length N) (p2 :: suf))). intros P HP _.
        clear - Es E MB. rewrite Es. cbn [Nat.add].
        destruct (Nat.eqb_spec (S (i / l)) P) as [Q|Q].
        -- rewrite Q. symmetry. apply Nat.eqb_eq. lia.
        -- symmetry. apply Nat.eqb_neq. intros Q2. apply Q. rewrite (Nat.mul_comm l) in Q2.
           apply Nat.mul_cancel_r in Q2; [exact Q2|]. intros L. rewrite L in Es. rewrite Nat.mul_0_r in Es. discriminate Es.
      * rewrite app_length. cbn [List.length]. lia.
      * cbn [List.length] in *. lia.
      * apply Nat.div_lt_upper_bound; [lia|]. exact Hi.
  - apply Nat.leb_gt in E.
    assert (Esm : (S i mod l = S (i mod l))%nat).
    { symmetry. apply (Nat.mod_unique (S i) l (i / l)); lia. }
    assert (Esd : (S i / l = i / l)%nat).
    { symmetry. apply (Nat.div_unique (S i) l (i / l) (S (i mod l))); lia. }
    rewrite Esm, Esd. do 2 f_equal. symmetry. apply Nat.eqb_neq.
    intros Q. rewrite Q in Esm. rewrite Nat.mul_comm, Nat.mod_mul in Esm by lia. lia.
Qed.

(** The letters chosen by a list of digits. *)
Fixpoint pick (perms : list (list N)) (ds : list nat) : list N :=
  match perms, ds with p :: r, d :: ds => nth d p 0 :: pick r ds | _, _ => [] end.

Lemma word_pick : forall suf pre dpre i,
  Forall (fun l => 0 < l)%nat (map (@List.length N) suf) -> List.length dpre = List.length pre ->
  word (List.length (pre ++ suf)) (dpre ++ digits (map (@List.length N) suf) i) suf
  = Ok (flat_map utf8 (pick suf (digits (map (@List.length N) suf) i))).
Proof.
  induction suf as [|p suf IH]; intros pre dpre i Hp Hl; [reflexivity|].
  cbn [map] in *. apply Forall_cons_iff in Hp. destruct Hp as [Hp Hps].
  cbn [word digits pick flat_map]. rewrite app_length. cbn [List.length].
  replace (List.length pre + S (List.length suf) - S (List.length suf))%nat with (List.length dpre) by lia.
  rewrite nth_error_app2, Nat.sub_diag by lia. cbn [nth_error].
  rewrite idx_ok by (apply Nat.mod_upper_bound; lia). cbn [rbind].
  specialize (IH (pre ++ [p]) (dpre ++ [(i mod List.length p)%nat]) (i / List.length p)%nat).
  rewrite <- !app_assoc in IH. cbn [app] in IH. rewrite (app_length pre (p :: suf)) in IH. cbn [List.length] in IH.
  rewrite IH; [reflexivity|exact Hps|]. rewrite !app_length. cbn. lia.
Qed.

Lemma gen_loop_words perms : perms <> [] -> Forall (fun l => 0 < l)%nat (map (@List.length N) perms) ->
  forall m fuel i, (i + m = product (map (@List.length N) perms))%nat -> (0 < m)%nat -> (m < fuel)%nat ->
  gen_loop fuel perms (digits (map (@List.length N) perms) i)
  = (map (fun i => flat_map utf8 (pick perms (digits (map (@List.length N) perms) i))) (seq i m), Ok tt).
Proof.
  intros Hne Hp. induction m as [|m IH]; intros fuel i Hi H0 Hf; [lia|].
  destruct fuel; [lia|]. cbn [gen_loop seq map].
  pose proof (word_pick perms [] [] i Hp eq_refl) as W. cbn [app] in W. rewrite W.
  pose proof (inc_loop_digits perms [] [] (S (List.length perms)) i Hne Hp eq_refl) as I.
  cbn [app List.length] in I. rewrite I by lia.
  destruct (Nat.eqb_spec (S i) (product (map (@List.length N) perms))) as [E|E].
  - assert (m = 0)%nat by lia. subst m. reflexivity.
  - rewrite (IH fuel (S i)) by lia. reflexivity.
Qed.

Lemma digits_0 lens : Forall (fun l => 0 < l)%nat lens -> digits lens 0 = repeat 0%nat (List.length lens).
Proof.
  induction 1 as [|l r Hl Hr IH]; [reflexivity|]. cbn [digits List.length repeat].
  rewrite Nat.mod_0_l, Nat.div_0_l by lia. now rewrite IH.
Qed.
Lemma gen_fuel perms : fold_right (fun p n => List.length p * n)%nat 1%nat perms = product (map (@List.length N) perms).
Proof. induction perms as [|p r IH]; [reflexivity|]. cbn [fold_right map product]. rewrite IH. reflexivity. Qed.
Lemma nonempty_lens (perms : list (list N)) : Forall (fun p => p <> []) perms ->
  Forall (fun l => 0 < l)%nat (map (@List.length N) perms).
Proof.
  induction 1 as [|p r Hp Hr IH]; [constructor|]. constructor; [|exact IH].
  destruct p; [congruence|cbn; lia].
Qed.

Lemma nth_digits : forall lens i j, (j < List.length lens)%nat -> Forall (fun l => 0 < l)%nat lens ->
  nth j (digits lens i) 0%nat = digit lens i j.
Proof.
  induction lens as [|l r IH]; intros i j Hj Hp; [cbn in Hj; lia|].
  apply Forall_cons_iff in Hp. destruct Hp as [Hl Hp].
  destruct j as [|j]; unfold digit; cbn [digits nth firstn product fold_right].
  - now rewrite Nat.div_1_r.
  - rewrite IH by (cbn in Hj; lia || assumption). unfold digit. f_equal.
    fold (product (firstn j r)).
    rewrite Nat.div_div; [reflexivity|lia|].
    assert (0 < product (firstn j r))%nat; [|lia].
    apply product_pos. rewrite <- (firstn_skipn j r) in Hp. apply Forall_app in Hp. tauto.
Qed.
Lemma pick_combination perms i : Forall (fun p => p <> []) perms ->
  pick perms (digits (map (@List.length N) perms) i) = combination perms i.
Proof.
  intros H. unfold combination.
  assert (G : forall perms ds, List.length ds = List.length perms ->
    pick perms ds = map (fun j => nth (nth j ds 0%nat) (nth j perms []) 0) (seq 0 (List.length perms))).
  { clear. induction perms as [|p r IH]; intros [|d ds] E; try discriminate E; [reflexivity|].
    cbn [pick List.length seq map nth]. f_equal. rewrite <- seq_shift, map_map.
    rewrite IH by (cbn in E; lia). reflexivity. }
  rewrite G by (now rewrite digits_length, map_length).
  apply map_ext_in. intros j Hj. apply in_seq in Hj.
  rewrite nth_digits; [reflexivity| |apply nonempty_lens; exact H]. rewrite map_length. lia.
Qed.

Lemma genWords_lemma perms : perms <> [] -> Forall (fun p => p <> []) perms ->
  genWords perms = (map (fun i => flat_map utf8 (combination perms i))
                        (seq 0 (product (map (@List.length N) perms))), Ok tt).
Proof.
  intros Hne Hp. pose proof (nonempty_lens perms Hp) as Hl. unfold genWords. rewrite gen_fuel.
  rewrite <- (map_length (@List.length N) perms), <- digits_0 by exact Hl.
  pose proof (product_pos _ Hl).
  rewrite (gen_loop_words perms Hne Hl (product (map (@List.length N) perms))) by lia.
  f_equal. apply map_ext_in. intros i _. now rewrite pick_combination.
Qed.

Lemma combination_choice perms i : Forall (fun p => p <> []) perms -> choice (combination perms i) perms.
Proof.
  intros H. rewrite <- pick_combination by exact H. unfold choice. revert i.
  induction H as [|p r Hp Hr IH]; intros i; cbn [map digits pick]; constructor; [|apply IH].
  apply nth_In. apply Nat.mod_upper_bound. destruct p; [congruence|discriminate].
Qed.
Lemma choice_digits : forall perms cs, choice cs perms ->
  exists i, (i < product (map (@List.length N) perms))%nat /\ pick perms (digits (map (@List.length N) perms) i) = cs.
Proof.
  induction 1 as [|c p cs perms Hc Hcs IH]; [exists 0%nat; cbn; split; [lia|reflexivity]|].
  destruct IH as (i & Hi & E).
  destruct (In_nth p c 0 Hc) as (d & Hd & Ed).
  exists (d + i * List.length p)%nat. cbn [map digits pick product fold_right].
  fold (product (map (@List.length N) perms)). split; [nia|].
  rewrite Nat.mod_add, Nat.mod_small by lia. rewrite Nat.div_add, Nat.div_small by lia.
  cbn [Nat.add]. now rewrite Ed, E.
Qed.
Lemma pick_inj : forall perms i j, Forall (@NoDup N) perms -> 
  (i < product (map (@List.length N) perms))%nat -> (j < product (map (@List.length N) perms))%nat ->
  pick perms (digits (map (@List.length N) perms) i) = pick perms (digits (map (@List.length N) perms) j) -> i = j.
Proof.
  induction perms as [|p r IH]; intros i j Hn Hi Hj E.
  - cbn in Hi, Hj. lia.
  - apply Forall_cons_iff in Hn. cbn [map digits pick product fold_right] in *.
    fold (product (map (@List.length N) r)) in *. set (l := List.length p) in *.
    assert (Hl : (l <> 0)%nat) by (intros Q; rewrite Q in Hi; cbn in Hi; lia).
    injection E as E0 Er.
    apply (proj1 (NoDup_nth p 0)) in E0; [|tauto|apply Nat.mod_upper_bound; exact Hl|apply Nat.mod_upper_bound; exact Hl].
    apply IH in Er; [|tauto|apply Nat.div_lt_upper_bound; assumption|apply Nat.div_lt_upper_bound; assumption].
    rewrite (Nat.div_mod i l), (Nat.div_mod j l) by exact Hl. congruence.
Qed.
Lemma choice_bytes cs perms : Forall (Forall byte) perms -> choice cs perms -> Forall byte cs.
Proof.
  intros H C. induction C as [|c p cs perms Hc Hcs IH]; [constructor|].
  apply Forall_cons_iff in H. constructor; [|apply IH; tauto].
  destruct H as [H _]. rewrite Forall_forall in H. apply H. exact Hc.
Qed.

Lemma genWords_members perms w : perms <> [] -> Forall (fun p => p <> []) perms -> Forall (Forall byte) perms ->
  In w (fst (genWords perms)) <-> exists cs, choice cs perms /\ w = flat_map encoded cs.
Proof.
  intros Hne Hp Hb. rewrite genWords_lemma by assumption. cbn [fst]. rewrite in_map_iff. split.
  - intros (i & <- & _). exists (combination perms i). pose proof (combination_choice perms i Hp).
    split; [assumption|]. apply flat_map_utf8. eapply choice_bytes; eassumption.
  - intros (cs & C & ->). destruct (choice_digits _ _ C) as (i & Hi & E). exists i.
    rewrite <- pick_combination, E by exact Hp. split; [|apply in_seq; lia].
    apply flat_map_utf8. eapply choice_bytes; eassumption.
Qed.
Lemma NoDup_map_in {A B} (f : A -> B) l : (forall x y, In x l -> In y l -> f x = f y -> x = y) -> NoDup l -> NoDup (map f l).
Proof.
  intros H N. induction N as [|x l Hx N IH]; [constructor|]. cbn [map]. constructor.
  - rewrite in_map_iff. intros (y & E & Hy). apply Hx. rewrite (H x y); auto; [left; reflexivity|right; exact Hy].
  - apply IH. intros a b Ha Hb. apply H; right; assumption.
Qed.
Lemma genWords_nodup perms : perms <> [] -> Forall (fun p => p <> []) perms -> Forall (Forall byte) perms ->
  Forall (@NoDup N) perms -> NoDup (fst (genWords perms)).
Proof.
  intros Hne Hp Hb Hn. rewrite genWords_lemma by assumption. cbn [fst].
  apply NoDup_map_in; [|apply seq_NoDup]. intros i j Hi Hj E. apply in_seq in Hi. apply in_seq in Hj.
  assert (B : forall i, Forall byte (combination perms i))
    by (intros k; eapply choice_bytes; [exact Hb|apply combination_choice; exact Hp]).
  rewrite !flat_map_utf8 in E by apply B. apply concat_encoded_inj in E; try apply B.
  rewrite <- !pick_combination in E by exact Hp. apply pick_inj in E; [exact E|exact Hn|lia|lia].
Qed.

Lemma genWords_empty_string perms : perms <> [] -> In [] perms -> genWords perms = ([], Panics).
Proof.
  intros Hne Hi. unfold genWords.
  assert (W : forall suf pre dpre, In [] suf -> List.length dpre = List.length pre ->
    word (List.length (pre ++ suf)) (dpre ++ repeat 0%nat (List.length suf)) suf = Panics).
  { clear. induction suf as [|p suf IH]; intros pre dpre Hi Hl; [destruct Hi|].
    cbn [word List.length repeat]. rewrite app_length. cbn [List.length].
    replace (List.length pre + S (List.length suf) - S (List.length suf))%nat with (List.length dpre) by lia.
    rewrite nth_error_app2, Nat.sub_diag by lia. cbn [nth_error].
    destruct p as [|c p]; [reflexivity|]. destruct Hi as [E|Hi]; [discriminate E|].
    cbn [idx nth_error rbind]. unfold idx. cbn [nth_error rbind].
    specialize (IH (pre ++ [c :: p]) (dpre ++ [0%nat]) Hi).
    rewrite <- !app_assoc in IH. cbn [app] in IH. rewrite (app_length pre ((c :: p) :: suf)) in IH. cbn [List.length] in IH.
    rewrite IH; [reflexivity|]. rewrite !app_length. cbn [List.length]. lia. }
  pose proof (W perms [] [] Hi eq_refl) as W'. cbn [app] in W'. cbn [gen_loop]. now rewrite W'.
Qed.
