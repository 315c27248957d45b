(** Proofs about package threefish: decryption undoes encryption. *)
From Verif Require Import Words WordLemmas ListLemmas Mem SLP Mm3Spec Mm3Proofs ThreefishProg ThreefishModel ThreefishSpec ThreefishProofs.
Open Scope N_scope.

(** ** The inverse of a program of additions, rotations and exclusive ors *)
Definition split_asg (a : asg) : prog :=
  match a with
  | Set_ d (E2 BXor (E1 (URotl r) (EV d')) (EV x)) =>
      if Nat.eqb d' d && negb (Nat.eqb x d) then [Set_ d (E1 (URotl r) (EV d)); Set_ d (E2 BXor (EV d) (EV x))] else [a]
  | _ => [a]
  end.
Definition split_prog (p : prog) : prog := concat (map split_asg p).
Definition in_range (n : nat) (a : asg) : bool := Nat.ltb (asg_dst a) n.
Lemma split_asg_ok w n a st : in_range n a = true -> length st = n -> exec w (split_asg a) st = step w st a.
Proof.
  intros R L. apply Nat.ltb_lt in R. destruct a as [d e]. cbn [asg_dst] in R.
  destruct e as [| |[] [| | |[] [d'| | |]] [x| | |]|]; try reflexivity.
  cbn [split_asg]. destruct (Nat.eqb_spec d' d); [|reflexivity]. destruct (Nat.eqb_spec x d); [reflexivity|]. subst d'.
  cbn [andb negb exec fold_left step eval sem1 sem2]. rewrite upd_same by lia. rewrite upd_other by assumption. apply upd_upd.
Qed.
Lemma step_length w st a : length (step w st a) = length st.
Proof. destruct a. apply upd_length. Qed.
Lemma exec_length w p : forall st, length (exec w p st) = length st.
Proof. induction p as [|a p IH]; intros st; [reflexivity|]. cbn [exec fold_left]. fold (exec w p (step w st a)). rewrite IH. apply step_length. Qed.
Lemma exec_app' w p q st : exec w (p ++ q) st = exec w q (exec w p st).
Proof. apply fold_left_app. Qed.
Lemma split_prog_ok w n p : forallb (in_range n) p = true -> forall st, length st = n -> exec w (split_prog p) st = exec w p st.
Proof.
  induction p as [|a p IH]; intros H st L; [reflexivity|]. cbn [forallb] in H. apply andb_prop in H. destruct H as [H1 H2].
  unfold split_prog. cbn [map concat]. rewrite exec_app', (split_asg_ok w n) by assumption.
  change (exec w (a :: p) st) with (exec w p (step w st a)). apply IH; auto. now rewrite step_length.
Qed.
Definition inv1 (a : asg) : asg :=
  match a with
  | Set_ d (E2 BAdd x e) => Set_ d (E2 BSub x e)
  | Set_ d (E1 (URotl k) x) => Set_ d (E1 (URotr k) x)
  | _ => a
  end.
Definition basic (w : N) (n : nat) (a : asg) : bool :=
  in_range n a &&
  match a with
  | Set_ d (E2 BAdd (EV i) e) => Nat.eqb i d && negb (mentions d e) && consts_ok w e
  | Set_ d (E2 BXor (EV i) (EV x)) => Nat.eqb i d && negb (Nat.eqb x d)
  | Set_ d (E1 (URotl k) (EV i)) => Nat.eqb i d && (k <=? w)
  | _ => false
  end.
Lemma inv1_ok w n a st : basic w n a = true -> regs_ok w n st ->
  regs_ok w n (step w st a) /\ regs_ok w n (step w st (inv1 a)) /\
  step w (step w st a) (inv1 a) = st /\ step w (step w st (inv1 a)) a = st.
Proof.
  intros B H. unfold basic in B. apply andb_prop in B. destruct B as [R B]. apply Nat.ltb_lt in R.
  destruct a as [d e]. cbn [asg_dst] in R.
  assert (S : forall g, inverse w (Set_ d e) = Some g -> (forall st, g st = step w st (inv1 (Set_ d e))) ->
    regs_ok w n (step w st (Set_ d e)) /\ regs_ok w n (step w st (inv1 (Set_ d e))) /\
    step w (step w st (Set_ d e)) (inv1 (Set_ d e)) = st /\ step w (step w st (inv1 (Set_ d e))) (Set_ d e) = st).
  { intros g G E. destruct (inverse_sound w n _ g G R st H) as (A & B' & C & D). rewrite !E in *. auto. }
  destruct e as [| |[] [i| | |] e|[] [i| | |]]; try discriminate.
  - apply andb_prop in B. destruct B as [B B3]. apply andb_prop in B. destruct B as [B1 B2].
    apply Nat.eqb_eq in B1. subst i.
    eapply S; [|reflexivity]. cbn [inverse]. rewrite Nat.eqb_refl, B2, B3. cbn [andb].
    destruct e as [| | |[] []]; reflexivity.
  - destruct e as [x| | |]; try discriminate. apply andb_prop in B. destruct B as [B1 B2]. apply Nat.eqb_eq in B1. subst i.
    eapply S; [|intros st'; cbn [inv1 step eval sem2]; reflexivity].
    cbn [inverse mentions consts_ok]. rewrite Nat.eqb_refl, B2. reflexivity.
  - apply andb_prop in B. destruct B as [B1 B2]. apply Nat.eqb_eq in B1. subst i.
    eapply S; [|intros st'; cbn [inv1 step eval sem1]; reflexivity]. cbn [inverse]. rewrite Nat.eqb_refl, B2. reflexivity.
Qed.
Definition inv_prog (p : prog) : prog := rev (map inv1 p).
Lemma inv_prog_ok w n p : forallb (basic w n) p = true -> forall st, regs_ok w n st ->
  regs_ok w n (exec w p st) /\ regs_ok w n (exec w (inv_prog p) st) /\
  exec w (inv_prog p) (exec w p st) = st /\ exec w p (exec w (inv_prog p) st) = st.
Proof.
  unfold inv_prog. induction p as [|a p IH]; intros H st Hst; [cbn; auto|].
  cbn [forallb] in H. apply andb_prop in H. destruct H as [H1 H2].
  cbn [map rev]. rewrite !exec_app'. change (exec w (a :: p) ?s) with (exec w p (step w s a)).
  change (exec w [inv1 a] ?s) with (step w s (inv1 a)).
  destruct (inv1_ok w n a st H1 Hst) as (A1 & A2 & A3 & A4).
  destruct (IH H2 _ A1) as (B1 & B2 & B3 & B4). destruct (IH H2 _ Hst) as (C1 & C2 & C3 & C4).
  destruct (inv1_ok w n a _ H1 C2) as (D1 & D2 & D3 & D4).
  split; [assumption|]. split; [assumption|]. split.
  - rewrite B3. assumption.
  - change (exec w (a :: p) (step w (exec w (rev (map inv1 p)) st) (inv1 a))) with
      (exec w p (step w (step w (exec w (rev (map inv1 p)) st) (inv1 a)) a)). rewrite D4. assumption.
Qed.

(** ** Group by group *)
Definition pairs (m : nat) : list (nat * nat) := map (fun i => (i, i)) (seq 0 m).
Definition undo_check (n : nat) (enc dec : prog) : bool :=
  let N := (2 * n + 5)%nat in
  forallb (in_range N) enc && forallb (basic 64 N) (split_prog enc) && vn_check 64 N dec (inv_prog (split_prog enc)) (pairs (2 * n + 4)).
Lemma agree_upto m (a b : list N) : length a = S m -> length b = S m -> (forall i, (i < m)%nat -> nth i a 0 = nth i b 0) ->
  firstn m a = firstn m b.
Proof.
  intros La Lb H. apply (nth_ext _ _ 0 0).
  - rewrite !firstn_length. lia.
  - intros i Hi. rewrite firstn_length in Hi. assert (i < m)%nat by lia.
    rewrite <- (firstn_skipn m a) in H. rewrite <- (firstn_skipn m b) in H. specialize (H i ltac:(assumption)).
    rewrite !app_nth1 in H by (rewrite firstn_length; lia). assumption.
Qed.
Lemma undo_ok n enc dec : undo_check n enc dec = true -> forall st, regs_ok 64 (2 * n + 5) st ->
  firstn (2 * n + 4) (exec 64 dec (exec 64 enc st)) = firstn (2 * n + 4) st /\
  exists st', regs_ok 64 (2 * n + 5) st' /\ exec 64 enc st' = st /\ firstn (2 * n + 4) (exec 64 dec st) = firstn (2 * n + 4) st'.
Proof.
  unfold undo_check. intros H st Hst. apply andb_prop in H. destruct H as [H H3]. apply andb_prop in H. destruct H as [H1 H2].
  rewrite <- (split_prog_ok 64 (2 * n + 5) enc H1 st) by apply Hst.
  destruct (inv_prog_ok _ _ _ H2 st Hst) as (A1 & A2 & A3 & A4).
  assert (V : forall s, length s = (2 * n + 5)%nat -> firstn (2 * n + 4) (exec 64 dec s) = firstn (2 * n + 4) (exec 64 (inv_prog (split_prog enc)) s)).
  { intros s Hs. apply agree_upto; try (rewrite exec_length; lia). intros i Hi.
    apply (vn_check_sound _ _ _ _ _ H3 s Hs). unfold pairs. apply in_map_iff. exists i. split; [reflexivity|]. apply in_seq. lia. }
  split.
  - rewrite V by apply A1. now rewrite A3.
  - exists (exec 64 (inv_prog (split_prog enc)) st). split; [assumption|]. split.
    + now rewrite <- (split_prog_ok 64 (2 * n + 5) enc H1) by apply A2.
    + apply V, Hst.
Qed.
Lemma dec256_groups_ok : forallb (fun s => undo_check 4 (nth s enc256_groups []) (nth (18 - s) dec256_groups [])) (seq 0 18) = true.
Proof. vm_compute. reflexivity. Qed.
Lemma dec512_groups_ok : forallb (fun s => undo_check 8 (nth s enc512_groups []) (nth (18 - s) dec512_groups [])) (seq 0 18) = true.
Proof. vm_compute. reflexivity. Qed.
Lemma dec1024_groups_ok : forallb (fun s => undo_check 16 (nth s enc1024_groups []) (nth (20 - s) dec1024_groups [])) (seq 0 20) = true.
Proof. vm_compute. reflexivity. Qed.
