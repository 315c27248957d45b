(** Proofs about package threefish: whole encryptions and decryptions of words. *)
From Verif Require Import Words WordLemmas ListLemmas Mem SLP Mm3Spec Mm3Proofs ThreefishProg ThreefishModel ThreefishSpec ThreefishProofs ThreefishProofs2.
From Verif Require SpookyProofs.
Open Scope N_scope.

(** What was checked for each of the three sizes. *)
Record code_ok (P : params) (eg : list prog) (eo : list exp) (dg : list prog) (dout : list exp) : Prop := {
  rots_s : rots_small P;
  nw4 : (4 <= Nw P)%nat;
  pi_len : length (Pi P) = Nw P;
  nr4 : Nr P = (4 * length eg)%nat;
  dlen : length dg = S (length eg);
  groups_o : forall s, (s < length eg)%nat -> group_ok P eg s;
  undo_o : forall s, (s < length eg)%nat -> undo_check (Nw P) (nth s eg []) (nth (length eg - s) dg []) = true;
  below_o : forall s, (s < length eg)%nat -> SpookyProofs.writes_below (Nw P) (nth s eg []) = true;
  consts_o : forall s, Forall (fun a => match a with Set_ _ e => consts_ok 64 e = true end) (nth s dg []);
  out_o : forall v K T z, length v = Nw P -> length K = (Nw P + 1)%nat -> length T = 3%nat ->
    map (eval 64 (v ++ K ++ T ++ [z])) eo = add_subkey' P K T (length eg) v;
  first_o : forall v K T z, length v = Nw P -> length K = (Nw P + 1)%nat -> length T = 3%nat ->
    exec 64 (nth 0 dg []) (v ++ K ++ T ++ [z]) =
    map (fun i => subw 64 (nth i v 0) (subkey' P K T (length eg) i)) (seq 0 (Nw P)) ++ K ++ T ++ [z];
  dout_o : dout = map EV (seq 0 (Nw P))
}.

Lemma map_nth_seq' (v : list N) n : length v = n -> map (fun i => nth i v 0) (seq 0 n) = v.
Proof.
  intros <-. induction v as [|x v IH]; [reflexivity|]. cbn [length seq map nth]. f_equal.
  rewrite <- seq_shift, map_map. exact IH.
Qed.
Lemma nth_map_seq (f : nat -> N) n i : (i < n)%nat -> nth i (map f (seq 0 n)) 0 = f i.
Proof. intros H. rewrite (nth_indep _ 0 (f 0%nat)) by now rewrite map_length, seq_length. rewrite map_nth, seq_nth by assumption. reflexivity. Qed.

Lemma firstn_S_nth {A} (l : list A) m d : (m < length l)%nat -> firstn (S m) l = firstn m l ++ [nth m l d].
Proof.
  revert m. induction l as [|x l IH]; intros [|m] H; cbn in *; try lia; [reflexivity|]. f_equal. apply IH. lia.
Qed.
Lemma skipn_nth_cons {A} (l : list A) m d : (m < length l)%nat -> skipn m l = nth m l d :: skipn (S m) l.
Proof.
  revert m. induction l as [|x l IH]; intros [|m] H; cbn in *; try lia; [reflexivity|]. apply IH. lia.
Qed.

Lemma exec_fits p : forall st, Forall (fun a => match a with Set_ _ e => consts_ok 64 e = true end) p ->
  Forall (fits 64) st -> Forall (fits 64) (exec 64 p st).
Proof.
  induction p as [|[d e] p IH]; intros st H F; [assumption|]. inversion H; subst.
  change (exec 64 (Set_ d e :: p) st) with (exec 64 p (upd st d (eval 64 st e))). apply IH; [assumption|].
  apply upd_Forall; [assumption|]. now apply eval_fits.
Qed.

Section Size.
  Variables (P : params) (eg : list prog) (eo : list exp) (dg : list prog) (dout : list exp).
  Hypothesis C : code_ok P eg eo dg dout.
  Variables (K T : list N).
  Hypothesis LK : length K = (Nw P + 1)%nat.
  Hypothesis LT : length T = 3%nat.
  Hypothesis FK : Forall (fits 64) K.
  Hypothesis FT : Forall (fits 64) T.
  Notation n := (Nw P).
  Definition block (v : list N) : Prop := regs_ok 64 n v.

  Definition V (m : nat) (v : list N) : list N := fold_left (round' P K T) (seq 0 (4 * m)) v.
  Lemma V_S m v : V (S m) v = four P K T m (V m v).
  Proof.
    unfold V, four. replace (4 * S m)%nat with (4 * m + 4)%nat by lia. rewrite seq_app, fold_left_app. reflexivity.
  Qed.
  Lemma round_block v d : block v -> block (round' P K T v d).
  Proof.
    intros [L F]. split.
    - unfold round'. cbv zeta. rewrite map_length. apply (pi_len _ _ _ _ _ C).
    - apply (round_eq P K T v d (rots_s _ _ _ _ _ C) F).
  Qed.
  Lemma rounds_block ds : forall v, block v -> block (fold_left (round' P K T) ds v).
  Proof. induction ds; intros v Hv; [assumption|]. cbn [fold_left]. apply IHds. now apply round_block. Qed.
  Lemma V_block m v : block v -> block (V m v).
  Proof. apply rounds_block. Qed.
  Lemma full_regs v z : block v -> fits 64 z -> regs_ok 64 (2 * n + 5) (v ++ K ++ T ++ [z]).
  Proof.
    intros [L F] Hz. split; [rewrite !app_length, LK, LT, L; cbn [length]; lia|].
    rewrite !Forall_app. auto.
  Qed.
  Notation runs := (fold_left (fun st p => exec 64 p st)).
  Lemma enc_run m v z : (m <= length eg)%nat -> block v -> runs (firstn m eg) (v ++ K ++ T ++ [z]) = V m v ++ K ++ T ++ [z].
  Proof.
    induction m as [|m IH]; intros Hm Hv; [reflexivity|].
    rewrite (firstn_S_nth eg m []) by lia. rewrite fold_left_app, IH by (auto; lia). cbn [fold_left].
    rewrite V_S. apply (groups_o _ _ _ _ _ C); auto. apply (V_block m v Hv).
  Qed.
  Lemma split_first (st : list N) : length st = (2 * n + 5)%nat -> exists z, st = firstn (2 * n + 4) st ++ [z].
  Proof.
    intros L. exists (nth (2 * n + 4) st 0). rewrite <- (firstn_S_nth st (2 * n + 4) 0) by lia. symmetry. apply firstn_all2. lia.
  Qed.
  Lemma firstn_full v z : block v -> firstn (2 * n + 4) (v ++ K ++ T ++ [z]) = v ++ K ++ T.
  Proof.
    intros [L _]. replace (v ++ K ++ T ++ [z]) with ((v ++ K ++ T) ++ [z]) by now rewrite <- !app_assoc.
    apply SpookyProofs.firstn_app_n. rewrite !app_length. lia.
  Qed.
  Lemma dec_group_regs s st : regs_ok 64 (2 * n + 5) st -> regs_ok 64 (2 * n + 5) (exec 64 (nth s dg []) st).
  Proof. intros [L F]. split; [now rewrite exec_length|]. apply exec_fits; [apply (consts_o _ _ _ _ _ C)|assumption]. Qed.

  (** The last m groups of decryption undo the first m groups of encryption. *)
  Lemma dec_run m : forall v z, (m <= length eg)%nat -> block v -> fits 64 z ->
    exists z', fits 64 z' /\ runs (skipn (S (length eg) - m) dg) (V m v ++ K ++ T ++ [z]) = v ++ K ++ T ++ [z'].
  Proof.
    induction m as [|m IH]; intros v z Hm Hv Hz.
    - rewrite skipn_all2 by (rewrite (dlen _ _ _ _ _ C); lia). now exists z.
    - pose proof (dlen _ _ _ _ _ C) as DL.
      rewrite (skipn_nth_cons dg (S (length eg) - S m) []) by lia. cbn [fold_left].
      replace (S (S (length eg) - S m)) with (S (length eg) - m)%nat by lia.
      replace (S (length eg) - S m)%nat with (length eg - m)%nat by lia.
      pose proof (V_block m v Hv) as Hb. pose proof (V_block (S m) v Hv) as Hb'.
      destruct (undo_ok n (nth m eg []) (nth (length eg - m) dg []) (undo_o _ _ _ _ _ C m ltac:(lia)) (V m v ++ K ++ T ++ [z])) as [U _];
        [now apply full_regs|].
      rewrite (groups_o _ _ _ _ _ C m ltac:(lia)) in U by (auto; apply Hb). rewrite firstn_full, <- V_S in U by assumption.
      pose proof (dec_group_regs (length eg - m) _ (full_regs _ _ Hb' Hz)) as R.
      destruct (split_first _ (proj1 R)) as [z' Z]. rewrite U, <- !app_assoc in Z.
      rewrite Z. apply IH; [lia|assumption|].
      rewrite Z in R. destruct R as [_ R]. rewrite !Forall_app in R. destruct R as (_ & _ & _ & R). now inversion R.
  Qed.
  (** Every block is reached by the first m groups, from where the last m groups lead. *)
  Lemma enc_group_onto m w : (m < length eg)%nat -> block w -> exists u, block u /\ four P K T m u = w.
  Proof.
    intros Hm Hw.
    destruct (undo_ok n (nth m eg []) (nth (length eg - m) dg []) (undo_o _ _ _ _ _ C m Hm) (w ++ K ++ T ++ [0])) as (_ & st & R & E & _);
      [apply full_regs; [assumption|reflexivity]|].
    exists (firstn n st). destruct R as [L F].
    assert (S1 : st = firstn n st ++ K ++ T ++ [0]).
    { rewrite <- (firstn_skipn n st) at 1. f_equal. rewrite <- (SpookyProofs.exec_frame 64 n _ st (below_o _ _ _ _ _ C m Hm)), E.
      apply SpookyProofs.skipn_app_n. apply Hw. }
    assert (B : block (firstn n st)).
    { split; [rewrite firstn_length; lia|]. rewrite <- (firstn_skipn n st), Forall_app in F. apply F. }
    split; [assumption|]. rewrite S1 in E. rewrite (groups_o _ _ _ _ _ C m Hm) in E by (auto; apply B).
    apply app_inv_tail in E. exact E.
  Qed.
  Lemma V_onto m : forall w, (m <= length eg)%nat -> block w -> exists u, block u /\ V m u = w.
  Proof.
    induction m as [|m IH]; intros w Hm Hw; [now exists w|].
    destruct (enc_group_onto m w ltac:(lia) Hw) as (u & Bu & <-).
    destruct (IH u ltac:(lia) Bu) as (x & Bx & <-). exists x. split; [assumption|]. apply V_S.
  Qed.

  (** Encryption and decryption of a block of words. *)
  Definition E (v : list N) : list N := map (eval 64 (runs eg (v ++ K ++ T ++ [0]))) eo.
  Definition D (v : list N) : list N := map (eval 64 (runs dg (v ++ K ++ T ++ [0]))) dout.
  Lemma E_val v : block v -> E v = add_subkey' P K T (length eg) (V (length eg) v).
  Proof.
    intros Hv. unfold E. pose proof (enc_run (length eg) v 0 (le_n _) Hv) as R. rewrite firstn_all in R. rewrite R.
    apply (out_o _ _ _ _ _ C); auto. apply (V_block (length eg) v Hv).
  Qed.
  Lemma add_block s v : block (add_subkey' P K T s v).
  Proof. split; [unfold add_subkey'; now rewrite map_length, seq_length|apply add_subkey_fits]. Qed.
  Lemma E_block v : block v -> block (E v).
  Proof. intros Hv. rewrite E_val by assumption. apply add_block. Qed.
  Lemma subkey_fits s i : fits 64 (subkey' P K T s i).
  Proof. unfold subkey'. cbv zeta. repeat destruct (Nat.eqb _ _); try apply addw_fits'. now apply nth_fits. Qed.
  Definition sub_subkey s v := map (fun i => subw 64 (nth i v 0) (subkey' P K T s i)) (seq 0 n).
  Lemma sub_add_subkey s v : block v -> sub_subkey s (add_subkey' P K T s v) = v.
  Proof.
    intros [L F]. unfold sub_subkey. transitivity (map (fun i => nth i v 0) (seq 0 n)); [|now apply map_nth_seq']. apply map_ext_in. intros i Hi. apply in_seq in Hi.
    unfold add_subkey'. rewrite nth_map_seq by lia. apply sub_add_w; now apply nth_fits.
  Qed.
  Lemma add_sub_subkey s v : block v -> add_subkey' P K T s (sub_subkey s v) = v.
  Proof.
    intros [L F]. unfold add_subkey'. transitivity (map (fun i => nth i v 0) (seq 0 n)); [|now apply map_nth_seq']. apply map_ext_in. intros i Hi. apply in_seq in Hi.
    unfold sub_subkey. rewrite nth_map_seq by lia. apply add_sub_w; now apply nth_fits.
  Qed.
  Lemma sub_block s v : block v -> block (sub_subkey s v).
  Proof.
    intros [L F]. split; [unfold sub_subkey; now rewrite map_length, seq_length|].
    apply Forall_forall. intros x Hx. apply in_map_iff in Hx. destruct Hx as (i & <- & _). rewrite subw_mod. apply N.mod_lt, N.pow_nonzero. discriminate.
  Qed.
  Lemma dout_val v R : block v -> map (eval 64 (v ++ R)) dout = v.
  Proof.
    intros [L F]. rewrite (dout_o _ _ _ _ _ C), map_map. transitivity (map (fun i => nth i v 0) (seq 0 n)); [|now apply map_nth_seq']. apply map_ext_in.
    intros i Hi. apply in_seq in Hi. cbn [eval]. apply app_nth1. lia.
  Qed.
  Lemma D_val v : block v -> D (add_subkey' P K T (length eg) (V (length eg) v)) = v.
  Proof.
    intros Hv. unfold D. pose proof (dlen _ _ _ _ _ C) as DL.
    pose proof (skipn_nth_cons dg 0 [] ltac:(lia)) as S0. change (skipn 0 dg) with dg in S0. rewrite S0. cbn [fold_left].
    pose proof (V_block (length eg) v Hv) as Hb. pose proof (add_block (length eg) (V (length eg) v)) as Ha.
    rewrite (first_o _ _ _ _ _ C) by (auto; apply Ha).
    change (map _ (seq 0 n)) with (sub_subkey (length eg) (add_subkey' P K T (length eg) (V (length eg) v))).
    rewrite sub_add_subkey by assumption.
    destruct (dec_run (length eg) v 0 (le_n _) Hv eq_refl) as (z & _ & R).
    replace (S (length eg) - length eg)%nat with 1%nat in R by lia. rewrite R. now apply dout_val.
  Qed.
  Theorem D_E v : block v -> D (E v) = v.
  Proof. intros Hv. rewrite E_val by assumption. now apply D_val. Qed.
  Lemma E_onto w : block w -> exists v, block v /\ E v = w.
  Proof.
    intros Hw. destruct (V_onto (length eg) (sub_subkey (length eg) w) (le_n _) (sub_block _ _ Hw)) as (v & Bv & Ev).
    exists v. split; [assumption|]. rewrite E_val, Ev by assumption. now apply add_sub_subkey.
  Qed.
  Theorem E_D w : block w -> block (D w) /\ E (D w) = w.
  Proof. intros Hw. destruct (E_onto w Hw) as (v & Bv & <-). now rewrite D_E. Qed.
  Theorem E_spec v : block v -> E v = add_subkey P K T (Nr P / 4) (fold_left (round P K T) (seq 0 (Nr P)) v).
  Proof.
    intros Hv. rewrite E_val by assumption. rewrite add_subkey_eq.
    rewrite (proj1 (rounds_eq P K T _ (rots_s _ _ _ _ _ C) v (proj2 Hv))).
    rewrite (nr4 _ _ _ _ _ C). f_equal. rewrite Nat.mul_comm, Nat.div_mul by discriminate. reflexivity.
  Qed.
End Size.

(** The three sizes. *)
Definition consts_all (dg : list prog) : bool := forallb (forallb (fun a => match a with Set_ _ e => consts_ok 64 e end)) dg.
Lemma consts_all_ok dg s : consts_all dg = true -> Forall (fun a => match a with Set_ _ e => consts_ok 64 e = true end) (nth s dg []).
Proof.
  intros H. destruct (Nat.lt_ge_cases s (length dg)) as [L|L]; [|now rewrite nth_overflow by assumption].
  unfold consts_all in H. rewrite forallb_forall in H. specialize (H _ (nth_In dg [] L)). rewrite forallb_forall in H.
  apply Forall_forall. intros [d e] Hx. exact (H _ Hx).
Qed.
Lemma seq_check (f : nat -> bool) m : forallb f (seq 0 m) = true -> forall s, (s < m)%nat -> f s = true.
Proof. intros H s Hs. rewrite forallb_forall in H. apply H, in_seq. lia. Qed.
Lemma addw_assoc3 w a b c : addw w (addw w a b) c = addw w a (addw w b c).
Proof. rewrite addw_sum_l, addw_sum_r. apply addw_sum. lia. Qed.
Ltac explode n v := match n with O => destruct v; [|discriminate] | S ?m => destruct v as [|? v]; [discriminate|]; explode m v end.
Ltac code_tac n small grp m und :=
  constructor;
  [ exact small | cbn; lia | reflexivity | reflexivity | reflexivity | exact grp | exact (seq_check _ m und)
  | apply seq_check; vm_compute; reflexivity
  | intros s; apply consts_all_ok; vm_compute; reflexivity
  | intros v K T z Lv LK LT; cbn [Nw P256 P512 P1024 Nat.add] in *;
    explode n v; (let k := eval compute in (S n) in explode k K); explode 3%nat T;
    cbv -[addw]; rewrite ?addw_assoc3; reflexivity
  | intros v K T z Lv LK LT; cbn [Nw P256 P512 P1024 Nat.add] in *;
    explode n v; (let k := eval compute in (S n) in explode k K); explode 3%nat T;
    cbv -[addw subw]; reflexivity | reflexivity ].
Lemma code256 : code_ok P256 enc256_groups enc256_out dec256_groups dec256_out.
Proof. code_tac 4%nat p256_small enc256_group 18%nat dec256_groups_ok. Qed.
Lemma code512 : code_ok P512 enc512_groups enc512_out dec512_groups dec512_out.
Proof. code_tac 8%nat p512_small enc512_group 18%nat dec512_groups_ok. Qed.
Lemma code1024 : code_ok P1024 enc1024_groups enc1024_out dec1024_groups dec1024_out.
Proof. code_tac 16%nat p1024_small enc1024_group 20%nat dec1024_groups_ok. Qed.
