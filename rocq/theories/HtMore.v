From Coq Require Import NArith ZArith List Arith String Bool Lia.
From Verif Require Import Words WordLemmas Mem ListLemmas HashTableModel HtModel HtSpec HtProofs.
Import ListNotations.
Open Scope N_scope.
Open Scope list_scope.

(** ** checkForDups32 *)
Fixpoint dl (c : N) (l : list N) (run dups mrun : nat) : nat * nat :=
  match l with
  | [] => (dups, mrun)
  | v :: r => if c =? v then dl c r (S run) (S dups) mrun
              else dl v r 0 dups (if Nat.ltb mrun run then run else mrun)
  end.
Lemma dups_loop_dl u : forall l k i run dups mrun, (0 < k)%nat -> (i < k)%nat -> skipn k u = l ->
  dups_loop u k l i run dups mrun = dl (nth i u 0) l run dups mrun.
Proof.
  induction l as [|v r IH]; intros k i run dups mrun Hk Hi E; [reflexivity|].
  assert (En : nth k u 0 = v).
  { rewrite <- (firstn_skipn k u) at 1. rewrite E.
    assert (L : (k <= List.length u)%nat).
    { destruct (Nat.le_gt_cases k (List.length u)); [assumption|].
      rewrite skipn_all2 in E by lia. discriminate E. }
    rewrite app_nth2; rewrite firstn_length; [|lia]. replace (k - _)%nat with 0%nat by lia. reflexivity. }
  assert (Es : skipn (S k) u = r).
  { replace (S k) with (k + 1)%nat by lia. rewrite skipn_add, E. reflexivity. }
  cbn [dups_loop dl].
  replace (Nat.eqb k 0) with false by (symmetry; apply Nat.eqb_neq; lia).
  replace (Nat.eqb i k) with false by (symmetry; apply Nat.eqb_neq; lia).
  cbn [orb]. destruct (nth i u 0 =? v); rewrite IH by (lia || exact Es); [reflexivity|].
  now rewrite En.
Qed.
Lemma check_dl c l : checkForDups32 (c :: l) = dl c l 0 0 0.
Proof.
  unfold checkForDups32. cbn [dups_loop Nat.eqb orb]. rewrite dups_loop_dl by (lia || reflexivity). reflexivity.
Qed.

Fixpoint adj (l : list N) : nat :=
  match l with
  | x :: r => ((match r with y :: _ => if (x =? y)%N then 1 else 0 | [] => 0 end) + adj r)%nat
  | [] => 0%nat
  end.
Lemma dl_adj : forall l c run dups mrun, fst (dl c l run dups mrun) = (dups + adj (c :: l))%nat.
Proof.
  induction l as [|v r IH]; intros c run dups mrun; [cbn; lia|].
  cbn [dl]. destruct (c =? v) eqn:E; rewrite IH.
  - apply N.eqb_eq in E. subst v. cbn [adj]. rewrite N.eqb_refl. lia.
  - cbn [adj]. rewrite E. lia.
Qed.
Lemma adj_filter : forall u, adj u =
  List.length (filter (fun k => nth k u 0 =? nth (S k) u 0) (seq 0 (List.length u - 1))).
Proof.
  induction u as [|x r IH]; [reflexivity|]. destruct r as [|y r]; [reflexivity|].
  cbn [adj] in IH |- *. rewrite IH. cbn [List.length Nat.sub]. rewrite Nat.sub_0_r.
  cbn [seq filter]. change (nth 0 (x :: y :: r) 0) with x. change (nth 1 (x :: y :: r) 0) with y.
  assert (T : forall l, List.length (filter (fun k => nth k (x :: y :: r) 0 =? nth (S k) (x :: y :: r) 0) (map S l))
            = List.length (filter (fun k => nth k (y :: r) 0 =? nth (S k) (y :: r) 0) l)).
  { induction l as [|a l IHl]; [reflexivity|]. cbn [map filter].
    change (nth (S a) (x :: y :: r) 0) with (nth a (y :: r) 0).
    change (nth (S (S a)) (x :: y :: r) 0) with (nth (S a) (y :: r) 0).
    destruct (nth a (y :: r) 0 =? nth (S a) (y :: r) 0); cbn [List.length]; now rewrite IHl. }
  rewrite <- seq_shift. destruct (x =? y); cbn [List.length Nat.add]; rewrite T; reflexivity.
Qed.
Lemma sorted_tail x r : sorted (x :: r) -> sorted r.
Proof. intros H. destruct r; [exact I|]. exact (proj2 H). Qed.
Lemma sorted_le : forall r x y, sorted (x :: r) -> In y r -> x <= y.
Proof.
  induction r as [|z r IH]; intros x y H Hy; [destruct Hy|].
  destruct H as [Hx H]. destruct Hy as [->|Hy]; [exact Hx|]. etransitivity; [exact Hx|]. apply IH; assumption.
Qed.
Lemma sorted_fresh x y r : sorted (x :: y :: r) -> x <> y -> ~ In x (y :: r).
Proof.
  intros H N [E|E]; [congruence|]. pose proof (proj1 H). pose proof (sorted_le r y x (proj2 H) E). lia.
Qed.
Lemma distinct_adj : forall u, sorted u -> (adj u + distinct u = List.length u)%nat.
Proof.
  unfold distinct. induction u as [|x r IH]; intros H; [reflexivity|].
  specialize (IH (sorted_tail _ _ H)). destruct r as [|y r]; [reflexivity|].
  cbn [adj List.length] in IH |- *. cbn [nodup] in IH |- *. fold (nodup N.eq_dec r) in *.
  destruct (in_dec N.eq_dec x (y :: r)) as [I|I].
  - destruct (N.eqb_spec x y) as [E|E]; [lia|]. exfalso. exact (sorted_fresh x y r H E I).
  - destruct (N.eqb_spec x y) as [E|E]; [exfalso; apply I; left; auto|]. cbn [List.length]. lia.
Qed.

Lemma max_of_app (a b : list nat) : max_of (a ++ b) = Nat.max (max_of a) (max_of b).
Proof. induction a as [|x a IH]; [reflexivity|]. cbn [app max_of fold_right]. fold (max_of (a ++ b)) (max_of a). lia. Qed.
Lemma max_of_repeat x n : max_of (repeat x (S n)) = x.
Proof.
  induction n as [|n IH]; [cbn; lia|]. change (repeat x (S (S n))) with (x :: repeat x (S n)).
  cbn [max_of fold_right]. fold (max_of (repeat x (S n))). lia.
Qed.
Lemma last_in (l : list N) d : l <> [] -> In (last l d) l.
Proof.
  induction l as [|x l IH]; [congruence|]. intros _. destruct l as [|y l]; [left; reflexivity|].
  right. apply IH. discriminate.
Qed.
Lemma last_repeat_app (c : N) n v r d : last (repeat c n ++ v :: r) d = last (v :: r) d.
Proof.
  induction n as [|n IH]; [reflexivity|]. cbn [repeat app]. rewrite <- IH.
  destruct (repeat c n ++ v :: r) eqn:E; [destruct n; discriminate E|]. reflexivity.
Qed.
Lemma repeat_snoc {A} (c : A) n l : repeat c n ++ c :: l = c :: repeat c n ++ l.
Proof. induction n as [|n IH]; [reflexivity|]. cbn [repeat app]. now rewrite IH. Qed.
Lemma filter_repeat_in {A} (f : A -> bool) x n : f x = true -> filter f (repeat x n) = repeat x n.
Proof. intros H. induction n as [|n IH]; [reflexivity|]. cbn [repeat filter]. now rewrite H, IH. Qed.
Lemma map_repeat' {A B} (f : A -> B) x n : map f (repeat x n) = repeat (f x) n.
Proof. induction n as [|n IH]; [reflexivity|]. cbn [repeat map]. now rewrite IH. Qed.
Lemma count_repeat_same c n : count_occ N.eq_dec (repeat c n) c = n.
Proof. induction n as [|n IH]; [reflexivity|]. cbn [repeat count_occ]. destruct (N.eq_dec c c); congruence. Qed.
Lemma count_repeat_other c x n : c <> x -> count_occ N.eq_dec (repeat c n) x = 0%nat.
Proof. intros N. induction n as [|n IH]; [reflexivity|]. cbn [repeat count_occ]. destruct (N.eq_dec c x); congruence. Qed.

Definition early_runs (u : list N) : nat :=
  max_of (map (repeats u) (filter (fun v => negb (v =? last u 0)) u)).
Lemma dl_mrun : forall l c run dups mrun, sorted (c :: l) ->
  snd (dl c l run dups mrun) = Nat.max mrun (early_runs (repeat c run ++ c :: l)).
Proof.
  induction l as [|v r IH]; intros c run dups mrun SO; cbn [dl].
  - unfold early_runs. rewrite last_repeat_app. cbn [last].
    replace (filter (fun v => negb (v =? c)) (repeat c run ++ [c])) with (@nil N); [cbn; lia|].
    rewrite repeat_snoc, app_nil_r. change (c :: repeat c run) with (repeat c (S run)).
    generalize (S run). intros k. induction k as [|k IHk]; [reflexivity|].
    cbn [repeat filter]. rewrite N.eqb_refl. exact IHk.
  - destruct (N.eqb_spec c v) as [E|E].
    + subst v. rewrite IH by exact (sorted_tail _ _ SO). cbn [repeat app]. rewrite (repeat_snoc c run (c :: r)). reflexivity.
    + rewrite IH by exact (sorted_tail _ _ SO).
      pose proof (sorted_fresh c v r SO E) as F.
      assert (Ef : early_runs (repeat c run ++ c :: v :: r) = Nat.max run (early_runs (v :: r))).
      { rewrite repeat_snoc. change (c :: repeat c run ++ v :: r) with (repeat c (Datatypes.S run) ++ v :: r).
        unfold early_runs. rewrite last_repeat_app, filter_app, map_app, max_of_app.
        assert (NL : negb (c =? last (v :: r) 0) = true).
        { apply negb_true_iff, N.eqb_neq. intros Q. apply F. rewrite Q. apply last_in. discriminate. }
        rewrite filter_repeat_in by exact NL. rewrite map_repeat', max_of_repeat. f_equal.
        - unfold repeats. rewrite count_occ_app, count_repeat_same.
          rewrite (proj1 (count_occ_not_In N.eq_dec (v :: r) c) F). lia.
        - f_equal. apply map_ext_in. intros x Hx. apply filter_In in Hx. destruct Hx as [Hx _].
          unfold repeats. rewrite count_occ_app, count_repeat_other; [reflexivity|]. intros Q; subst x; exact (F Hx). }
      rewrite Ef. cbn [repeat app]. destruct (Nat.ltb_spec mrun run); lia.
Qed.
Lemma check_dups u : (0 < List.length u)%nat -> fst (checkForDups32 u) =
  List.length (filter (fun k => nth k u 0 =? nth (S k) u 0) (seq 0 (List.length u - 1))).
Proof.
  intros H. destruct u as [|c l]; [cbn in H; lia|]. rewrite check_dl, dl_adj, adj_filter. reflexivity.
Qed.
Lemma check_sorted u : sorted u ->
  (fst (checkForDups32 u) + distinct u = List.length u)%nat /\ snd (checkForDups32 u) = early_runs u.
Proof.
  intros H. destruct u as [|c l]; [split; reflexivity|]. rewrite check_dl, dl_adj. split.
  - rewrite Nat.add_0_l. apply distinct_adj. exact H.
  - rewrite dl_mrun by exact H. reflexivity.
Qed.

(** ** hexToBytes *)
Fixpoint hexd (s : list N) : res (list N) :=
  match s with
  | c :: d :: r => a <~ unhex c ;; b <~ unhex d ;; bs <~ hexd r ;; Ok (N.lor (shlw 8 a 4) b :: bs)
  | _ => Ok []
  end.
Lemma hex_loop_hexd : forall n i s, List.length s = (2 * (i + n))%nat -> hex_loop s i n = hexd (skipn (2 * i) s).
Proof.
  induction n as [|n IH]; intros i s L; cbn [hex_loop].
  - rewrite skipn_all2 by lia. reflexivity.
  - rewrite !idx_ok by lia. cbn [rbind]. rewrite (IH (S i) s) by lia.
    rewrite (skipn_nth_cons (2 * i) s (nth (2 * i) s 0)) by (apply nth_error_nth'; lia).
    rewrite (skipn_nth_cons (S (2 * i)) s (nth (2 * i + 1) s 0))
      by (replace (S (2 * i)) with (2 * i + 1)%nat by lia; apply nth_error_nth'; lia).
    replace (2 * S i)%nat with (S (S (2 * i))) by lia. reflexivity.
Qed.
Lemma hexToBytes_hexd s : Nat.odd (List.length s) = false -> (List.length s <= 2000)%nat -> hexToBytes s = hexd s.
Proof.
  intros O L. unfold hexToBytes. rewrite O.
  assert (E : (List.length s = 2 * (List.length s / 2))%nat).
  { rewrite <- Nat.negb_even in O. apply negb_false_iff, Nat.even_spec in O. destruct O as [m ->].
    rewrite (Nat.mul_comm 2 m), Nat.div_mul by lia. lia. }
  replace (Nat.ltb 1000 (List.length s / 2)) with false by (symmetry; apply Nat.ltb_ge; lia).
  rewrite hex_loop_hexd by lia. reflexivity.
Qed.
Lemma unhex_ok c v : hex_digit c v -> unhex c = Ok v.
Proof.
  unfold hex_digit, unhex. intros [[H ->]|[H [->| ->]]].
  - replace ((48 <=? 48 + v) && (48 + v <=? 57)) with true
      by (symmetry; apply andb_true_intro; split; apply N.leb_le; lia). f_equal. lia.
  - replace ((48 <=? 97 + (v - 10)) && (97 + (v - 10) <=? 57)) with false
      by (symmetry; apply andb_false_iff; right; apply N.leb_gt; lia).
    replace ((97 <=? 97 + (v - 10)) && (97 + (v - 10) <=? 102)) with true
      by (symmetry; apply andb_true_intro; split; apply N.leb_le; lia). f_equal. lia.
  - replace ((48 <=? 65 + (v - 10)) && (65 + (v - 10) <=? 57)) with false
      by (symmetry; apply andb_false_iff; right; apply N.leb_gt; lia).
    replace ((97 <=? 65 + (v - 10)) && (65 + (v - 10) <=? 102)) with false
      by (symmetry; apply andb_false_iff; left; apply N.leb_gt; lia).
    replace ((65 <=? 65 + (v - 10)) && (65 + (v - 10) <=? 70)) with true
      by (symmetry; apply andb_true_intro; split; apply N.leb_le; lia). f_equal. lia.
Qed.
Lemma unhex_cases c : (exists v, hex_digit c v /\ unhex c = Ok v) \/ ((forall v, ~ hex_digit c v) /\ unhex c = Panics).
Proof.
  unfold unhex, hex_digit.
  destruct ((48 <=? c) && (c <=? 57)) eqn:E1.
  { apply andb_prop in E1. destruct E1 as [A B]. apply N.leb_le in A. apply N.leb_le in B.
    left. exists (c - 48). split; [lia|reflexivity]. }
  destruct ((97 <=? c) && (c <=? 102)) eqn:E2.
  { apply andb_prop in E2. destruct E2 as [A B]. apply N.leb_le in A. apply N.leb_le in B.
    left. exists (c - 97 + 10). split; [lia|reflexivity]. }
  destruct ((65 <=? c) && (c <=? 70)) eqn:E3.
  { apply andb_prop in E3. destruct E3 as [A B]. apply N.leb_le in A. apply N.leb_le in B.
    left. exists (c - 65 + 10). split; [lia|reflexivity]. }
  right. split; [|reflexivity]. intros v H.
  apply andb_false_iff in E1. apply andb_false_iff in E2. apply andb_false_iff in E3.
  rewrite !N.leb_gt in *. lia.
Qed.
Lemma hex_byte u v : u < 16 -> v < 16 -> N.lor (shlw 8 u 4) v = 16 * u + v.
Proof.
  intros Hu Hv.
  assert (A : forallb (fun u => forallb (fun v => N.lor (shlw 8 u 4) v =? 16 * u + v) (map N.of_nat (seq 0 16))) (map N.of_nat (seq 0 16)) = true)
    by (vm_compute; reflexivity).
  rewrite forallb_forall in A.
  assert (I : forall c, c < 16 -> In c (map N.of_nat (seq 0 16))).
  { intros c H. apply in_map_iff. exists (N.to_nat c). split; [lia|]. apply in_seq. lia. }
  specialize (A u (I u Hu)). rewrite forallb_forall in A. specialize (A v (I v Hv)). apply N.eqb_eq. exact A.
Qed.
Lemma hex_digit_lt c v : hex_digit c v -> v < 16.
Proof. unfold hex_digit. lia. Qed.
Lemma hexd_ok s bs : hex_of s bs -> hexd s = Ok bs.
Proof.
  induction 1 as [|c d u v s bs Hc Hd H IH]; [reflexivity|]. cbn [hexd].
  rewrite (unhex_ok c u Hc), (unhex_ok d v Hd). cbn [rbind]. rewrite IH. cbn [rbind].
  rewrite hex_byte by (eapply hex_digit_lt; eassumption). reflexivity.
Qed.
Lemma hex_of_length s bs : hex_of s bs -> List.length s = (2 * List.length bs)%nat.
Proof. induction 1; cbn [List.length] in *; lia. Qed.
Lemma list_pair_ind {A} (P : list A -> Prop) : P [] -> (forall x, P [x]) -> (forall x y l, P l -> P (x :: y :: l)) -> forall l, P l.
Proof.
  intros H0 H1 H2. fix IH 1. intros [|x [|y l]]; [exact H0|apply H1|]. apply H2, IH.
Qed.
Definition is_hex (c : N) : Prop := exists v, hex_digit c v.
Lemma hexd_cases s : Nat.odd (List.length s) = false ->
  (exists bs, hex_of s bs) \/ (Exists (fun c => ~ is_hex c) s /\ hexd s = Panics).
Proof.
  induction s as [|x|x y l IH] using list_pair_ind; intros O.
  - left. exists []. constructor.
  - discriminate O.
  - cbn [List.length Nat.odd] in O. specialize (IH O).
    destruct (unhex_cases x) as [(u & Hu & Eu)|(Hu & Eu)].
    + destruct (unhex_cases y) as [(v & Hv & Ev)|(Hv & Ev)].
      * destruct IH as [(bs & H)|(H & E)].
        -- left. exists (16 * u + v :: bs). constructor; assumption.
        -- right. split; [apply Exists_cons_tl, Exists_cons_tl; exact H|]. cbn [hexd]. rewrite Eu, Ev, E. reflexivity.
      * right. split; [apply Exists_cons_tl, Exists_cons_hd; intros [v Q]; exact (Hv v Q)|]. cbn [hexd]. rewrite Eu, Ev. reflexivity.
    + right. split; [apply Exists_cons_hd; intros [v Q]; exact (Hu v Q)|]. cbn [hexd]. rewrite Eu. reflexivity.
Qed.
Lemma hex_of_digits s bs : hex_of s bs -> Forall is_hex s.
Proof. induction 1; [constructor|]. constructor; [eexists; eassumption|]. constructor; [eexists; eassumption|assumption]. Qed.
Lemma hexToBytes_ok s bs : hex_of s bs -> (List.length bs <= 1000)%nat -> hexToBytes s = Ok bs.
Proof.
  intros H L. pose proof (hex_of_length s bs H) as E. rewrite hexToBytes_hexd; [apply hexd_ok; exact H| |lia].
  rewrite E, Nat.odd_mul. reflexivity.
Qed.
Lemma hexToBytes_panics s : hexToBytes s = Panics <->
  Nat.odd (List.length s) = true \/ (2000 < List.length s)%nat \/ Exists (fun c => ~ is_hex c) s.
Proof.
  destruct (Nat.odd (List.length s)) eqn:O.
  { split; [auto|]. intros _. unfold hexToBytes. rewrite O. now destruct (Nat.ltb 1000 _). }
  destruct (Nat.le_gt_cases (List.length s) 2000) as [L|L].
  - rewrite hexToBytes_hexd by assumption. split.
    + intros E. right; right. destruct (hexd_cases s O) as [(bs & H)|(H & _)]; [|exact H].
      rewrite (hexd_ok s bs H) in E. discriminate E.
    + intros [Q|[Q|Q]]; [discriminate Q|lia|]. destruct (hexd_cases s O) as [(bs & H)|(_ & E)]; [|exact E].
      exfalso. apply hex_of_digits in H. rewrite Forall_forall in H. apply Exists_exists in Q.
      destruct Q as (x & I & N). exact (N (H x I)).
  - split; [auto|]. intros _. unfold hexToBytes.
    replace (Nat.ltb 1000 (List.length s / 2)) with true; [reflexivity|].
    symmetry. apply Nat.ltb_lt. rewrite <- Nat.negb_even in O. apply negb_false_iff, Nat.even_spec in O.
    destruct O as [m E]. rewrite E in *. rewrite (Nat.mul_comm 2 m), Nat.div_mul by lia. lia.
Qed.
Lemma hexToBytes_total s : hexToBytes s = Panics \/ exists bs, hexToBytes s = Ok bs /\ hex_of s bs.
Proof.
  destruct (Nat.odd (List.length s)) eqn:O.
  { left. apply hexToBytes_panics. auto. }
  destruct (Nat.le_gt_cases (List.length s) 2000) as [L|L]; [|left; apply hexToBytes_panics; auto].
  rewrite hexToBytes_hexd by assumption.
  destruct (hexd_cases s O) as [(bs & H)|(H & E)]; [|left; exact E].
  right. exists bs. split; [apply hexd_ok; exact H|exact H].
Qed.
