(** Straight-line programs on machine words.

    A proof tool (and, for spooky and threefish, the language into which their
    straight-line code is transcribed): a deep embedding of sequences of
    assignments such as [v0 += v1; v1 = v1<<13 | v1>>51; v1 ^= v0] with
    - a checker [reversible] whose success implies that the program is a
      bijection of the register file ([exec_bijection]), and
    - a value-numbering equivalence checker [vn_check] whose success implies that
      two programs compute equal results ([vn_check_sound]).
    Both are proved sound here; they are used by evaluation in the kernel. *)
From Verif Require Import Words WordLemmas ListLemmas.
Open Scope N_scope.

Inductive bop := BAdd | BSub | BXor | BOr | BAnd | BMul.
Inductive uop := UShl (k : N) | UShr (k : N) | URotl (k : N) | URotr (k : N) | UNot.
Inductive exp :=
| EV (i : nat)
| EC (c : N)
| E2 (o : bop) (a b : exp)
| E1 (o : uop) (a : exp).
(** The assignment [reg d := e]. *)
Inductive asg := Set_ (d : nat) (e : exp).
Definition prog := list asg.

Definition sem2 (w : N) (o : bop) (a b : N) : N :=
  match o with
  | BAdd => addw w a b | BSub => subw w a b | BXor => xor a b
  | BOr => N.lor a b | BAnd => N.land a b | BMul => mulw w a b
  end.
Definition sem1 (w : N) (o : uop) (a : N) : N :=
  match o with
  | UShl k => shlw w a k | UShr k => shr a k
  | URotl k => rotlw w a k | URotr k => rotrw w a k | UNot => notw w a
  end.
Fixpoint eval (w : N) (st : list N) (e : exp) : N :=
  match e with
  | EV i => nth i st 0
  | EC c => c
  | E2 o a b => sem2 w o (eval w st a) (eval w st b)
  | E1 o a => sem1 w o (eval w st a)
  end.
Definition step (w : N) (st : list N) (a : asg) : list N :=
  match a with Set_ d e => upd st d (eval w st e) end.
Definition exec (w : N) (p : prog) (st : list N) : list N := fold_left (step w) p st.

(** ** Well-typed expressions *)
Fixpoint consts_ok (w : N) (e : exp) : bool :=
  match e with
  | EV _ => true
  | EC c => fitsb w c
  | E2 _ a b => consts_ok w a && consts_ok w b
  | E1 _ a => consts_ok w a
  end.
Lemma nth_fits w st i : Forall (fits w) st -> fits w (nth i st 0).
Proof.
  intros H. destruct (nth_in_or_default i st 0) as [Hi| ->]; [|apply fits_0].
  rewrite Forall_forall in H. auto.
Qed.
Lemma sem2_fits w o a b : fits w a -> fits w b -> fits w (sem2 w o a b).
Proof. destruct o; cbn; auto with fits. Qed.
Lemma sem1_fits w o a : fits w a -> fits w (sem1 w o a).
Proof. destruct o; cbn; auto with fits. Qed.
Lemma eval_fits w st e : Forall (fits w) st -> consts_ok w e = true -> fits w (eval w st e).
Proof.
  intros Hs. induction e; cbn; intros H.
  - now apply nth_fits.
  - unfold fitsb in H. now apply N.ltb_lt in H.
  - apply andb_prop in H. apply sem2_fits; tauto.
  - apply sem1_fits; auto.
Qed.

(** ** Reversibility *)
Fixpoint mentions (d : nat) (e : exp) : bool :=
  match e with
  | EV i => Nat.eqb i d
  | EC _ => false
  | E2 _ a b => mentions d a || mentions d b
  | E1 _ a => mentions d a
  end.
Lemma eval_upd w st d x e : mentions d e = false -> eval w (upd st d x) e = eval w st e.
Proof.
  induction e; cbn; intros H; auto.
  - apply Nat.eqb_neq in H. now apply upd_other.
  - apply orb_false_iff in H. destruct H. now rewrite IHe1, IHe2.
  - now rewrite IHe.
Qed.

(** Inverse of an odd constant modulo 2^w by Newton iteration (its correctness is
    checked, not trusted). *)
Definition newton (w c : N) : N :=
  Nat.iter 8 (fun x => mulw w x (subw w 2 (mulw w c x))) 1.

(** The inverse of one assignment, when it is of a recognisable reversible shape. *)
Definition inverse (w : N) (a : asg) : option (list N -> list N) :=
  match a with
  | Set_ d (E2 BXor (EV i) (E1 (UShr k) (EV j))) =>
      if Nat.eqb i d then
        if Nat.eqb j d then
          if 0 <? k then Some (fun st => upd st d (unxsr (N.to_nat w) k (nth d st 0))) else None
        else Some (fun st => upd st d (xor (nth d st 0) (eval w st (E1 (UShr k) (EV j)))))
      else None
  | Set_ d (E2 BXor (EV i) (E1 (UShl k) (EV j))) =>
      if Nat.eqb i d then
        if Nat.eqb j d then
          if 0 <? k then Some (fun st => upd st d (unxsl w (N.to_nat w) k (nth d st 0))) else None
        else Some (fun st => upd st d (xor (nth d st 0) (eval w st (E1 (UShl k) (EV j)))))
      else None
  | Set_ d (E2 BMul (EV i) (EC c)) =>
      if Nat.eqb i d && (mulw w c (newton w c) =? 1)
      then Some (fun st => upd st d (mulw w (nth d st 0) (newton w c))) else None
  | Set_ d (E2 o (EV i) e) =>
      if Nat.eqb i d && negb (mentions d e) && consts_ok w e then
        match o with
        | BAdd => Some (fun st => upd st d (subw w (nth d st 0) (eval w st e)))
        | BSub => Some (fun st => upd st d (addw w (nth d st 0) (eval w st e)))
        | BXor => Some (fun st => upd st d (xor (nth d st 0) (eval w st e)))
        | _ => None
        end
      else None
  | Set_ d (E1 (URotl k) (EV i)) =>
      if Nat.eqb i d && (k <=? w) then Some (fun st => upd st d (rotrw w (nth d st 0) k)) else None
  | Set_ d (E1 (URotr k) (EV i)) =>
      if Nat.eqb i d && (k <=? w) then Some (fun st => upd st d (rotlw w (nth d st 0) k)) else None
  | _ => None
  end.

Definition asg_dst (a : asg) : nat := match a with Set_ d _ => d end.
Fixpoint reversible (w : N) (n : nat) (p : prog) : bool :=
  match p with
  | [] => true
  | a :: r =>
      match inverse w a with
      | Some _ => Nat.ltb (asg_dst a) n && reversible w n r
      | None => false
      end
  end.

Definition regs_ok (w : N) (n : nat) (st : list N) : Prop := length st = n /\ Forall (fits w) st.

(** A one-register update that is inverted by another. *)
Lemma upd_inverse w n d (f g : list N -> N) :
  (d < n)%nat ->
  (forall st, regs_ok w n st -> fits w (f st)) ->
  (forall st, regs_ok w n st -> fits w (g st)) ->
  (forall st, regs_ok w n st -> g (upd st d (f st)) = nth d st 0) ->
  (forall st, regs_ok w n st -> f (upd st d (g st)) = nth d st 0) ->
  forall st, regs_ok w n st ->
    regs_ok w n (upd st d (f st)) /\ regs_ok w n (upd st d (g st)) /\
    upd (upd st d (f st)) d (g (upd st d (f st))) = st /\
    upd (upd st d (g st)) d (f (upd st d (g st))) = st.
Proof.
  intros Hd Hf Hg Hgf Hfg st Hst. assert (Hst' := Hst). destruct Hst' as [Hl HF].
  repeat split.
  - now rewrite upd_length.
  - apply upd_Forall; auto.
  - now rewrite upd_length.
  - apply upd_Forall; auto.
  - rewrite Hgf by assumption. rewrite upd_upd. apply upd_nth.
  - rewrite Hfg by assumption. rewrite upd_upd. apply upd_nth.
Qed.

Lemma to_nat_mul_ge w k : 0 < k -> w <= N.of_nat (N.to_nat w) * k.
Proof. intros H. rewrite N2Nat.id. nia. Qed.

Lemma inverse_sound w n a g : inverse w a = Some g -> (asg_dst a < n)%nat ->
  forall st, regs_ok w n st ->
    regs_ok w n (step w st a) /\ regs_ok w n (g st) /\ g (step w st a) = st /\ step w (g st) a = st.
Proof.
  destruct a as [d e]. cbn [asg_dst step]. intros Hi Hd.
  assert (Len : forall st, regs_ok w n st -> (d < length st)%nat) by (intros st [-> _]; auto).
  assert (Fit : forall st i, regs_ok w n st -> fits w (nth i st 0)) by (intros st i [_ H]; now apply nth_fits).
  assert (Same : forall st x, regs_ok w n st -> nth d (upd st d x) 0 = x) by (intros; apply upd_same; auto).
  assert (Gen2 : forall o e', (if negb (mentions d e') && consts_ok w e' then
        match o with
        | BAdd => Some (fun st => upd st d (subw w (nth d st 0) (eval w st e')))
        | BSub => Some (fun st => upd st d (addw w (nth d st 0) (eval w st e')))
        | BXor => Some (fun st => upd st d (xor (nth d st 0) (eval w st e')))
        | _ => None
        end else None) = Some g -> forall st, regs_ok w n st ->
      regs_ok w n (upd st d (eval w st (E2 o (EV d) e'))) /\ regs_ok w n (g st) /\
      g (upd st d (eval w st (E2 o (EV d) e'))) = st /\
      upd (g st) d (eval w (g st) (E2 o (EV d) e')) = st).
  { intros o e' H.
    destruct (negb (mentions d e') && consts_ok w e') eqn:E; [|discriminate].
    apply andb_prop in E. destruct E as [E1 E2]. apply negb_true_iff in E1.
    assert (EF : forall st, regs_ok w n st -> fits w (eval w st e')) by (intros st [_ HH]; now apply eval_fits).
    destruct o; try discriminate; injection H as <-; cbn [eval sem2];
      refine (upd_inverse w n d (fun st => _) (fun st => _) Hd _ _ _ _); intros st Hst;
      rewrite ?Same, ?eval_upd by assumption; auto with fits;
      auto using sub_add_w, add_sub_w, xor_cancel. }
  assert (Shr1 : forall k, (if 0 <? k then Some (fun st => upd st d (unxsr (N.to_nat w) k (nth d st 0))) else None)
      = Some g -> forall st, regs_ok w n st ->
      regs_ok w n (upd st d (eval w st (E2 BXor (EV d) (E1 (UShr k) (EV d))))) /\ regs_ok w n (g st) /\
      g (upd st d (eval w st (E2 BXor (EV d) (E1 (UShr k) (EV d))))) = st /\
      upd (g st) d (eval w (g st) (E2 BXor (EV d) (E1 (UShr k) (EV d)))) = st).
  { intros k H. destruct (N.ltb_spec 0 k) as [Hk|]; [|discriminate]. injection H as <-.
    cbn [eval sem2 sem1].
    refine (upd_inverse w n d (fun st => _) (fun st => _) Hd _ _ _ _); intros st Hst;
      rewrite ?Same by assumption; auto using unxsr_fits with fits.
    - apply unxsr_left with (w := w); auto using to_nat_mul_ge.
    - apply unxsr_right with (w := w); auto using to_nat_mul_ge. }
  assert (Shl1 : forall k, (if 0 <? k then Some (fun st => upd st d (unxsl w (N.to_nat w) k (nth d st 0))) else None)
      = Some g -> forall st, regs_ok w n st ->
      regs_ok w n (upd st d (eval w st (E2 BXor (EV d) (E1 (UShl k) (EV d))))) /\ regs_ok w n (g st) /\
      g (upd st d (eval w st (E2 BXor (EV d) (E1 (UShl k) (EV d))))) = st /\
      upd (g st) d (eval w (g st) (E2 BXor (EV d) (E1 (UShl k) (EV d)))) = st).
  { intros k H. destruct (N.ltb_spec 0 k) as [Hk|]; [|discriminate]. injection H as <-.
    cbn [eval sem2 sem1].
    refine (upd_inverse w n d (fun st => _) (fun st => _) Hd _ _ _ _); intros st Hst;
      rewrite ?Same by assumption; auto using unxsl_fits with fits.
    - apply unxsl_left; auto using to_nat_mul_ge.
    - apply unxsl_right; auto using to_nat_mul_ge. }
  assert (Mul1 : forall c, (if mulw w c (newton w c) =? 1
      then Some (fun st => upd st d (mulw w (nth d st 0) (newton w c))) else None)
      = Some g -> forall st, regs_ok w n st ->
      regs_ok w n (upd st d (eval w st (E2 BMul (EV d) (EC c)))) /\ regs_ok w n (g st) /\
      g (upd st d (eval w st (E2 BMul (EV d) (EC c)))) = st /\
      upd (g st) d (eval w (g st) (E2 BMul (EV d) (EC c))) = st).
  { intros c H. destruct (N.eqb_spec (mulw w c (newton w c)) 1) as [Hc|]; [|discriminate]. injection H as <-.
    cbn [eval sem2 sem1].
    refine (upd_inverse w n d (fun st => _) (fun st => _) Hd _ _ _ _); intros st Hst;
      rewrite ?Same by assumption; auto with fits.
    - apply mulw_inv; auto.
    - apply mulw_inv; auto. rewrite mulw_comm. assumption. }
  assert (Hshr : forall j k, Nat.eqb j d = false -> mentions d (E1 (UShr k) (EV j)) = false) by (intros j k H; exact H).
  destruct e as [i|c|o a b|o a]; try discriminate Hi.
  - destruct a as [i|c|o' a1 a2|o' a1]; try (destruct o; discriminate Hi).
    destruct (Nat.eqb_spec i d) as [->|Hne].
    2:{ exfalso. apply Nat.eqb_neq in Hne.
        cbn [inverse] in Hi. rewrite Hne in Hi. cbn in Hi.
        destruct o; try discriminate Hi; destruct b as [?|?|? ? ?|[] b]; try discriminate Hi;
        destruct b; discriminate Hi. }
    assert (Hd2 : Nat.eqb d d = true) by apply Nat.eqb_refl.
    cbn [inverse] in Hi. rewrite Hd2 in Hi. cbn [andb] in Hi.
    destruct o.
    + apply (Gen2 BAdd b). destruct b; exact Hi.
    + apply (Gen2 BSub b). destruct b; exact Hi.
    + destruct b as [j|c|o1 b1 b2|o1 b1]; try exact (Gen2 BXor _ Hi).
      destruct o1; try exact (Gen2 BXor _ Hi).
      * destruct b1 as [j| | |]; try exact (Gen2 BXor _ Hi).
        destruct (Nat.eqb j d) eqn:Ej.
        -- apply Nat.eqb_eq in Ej; subst j. exact (Shl1 k Hi).
        -- apply (Gen2 BXor (E1 (UShl k) (EV j))). cbn [mentions consts_ok]. rewrite Ej. exact Hi.
      * destruct b1 as [j| | |]; try exact (Gen2 BXor _ Hi).
        destruct (Nat.eqb j d) eqn:Ej.
        -- apply Nat.eqb_eq in Ej; subst j. exact (Shr1 k Hi).
        -- apply (Gen2 BXor (E1 (UShr k) (EV j))). cbn [mentions consts_ok]. rewrite Ej. exact Hi.
    + apply (Gen2 BOr b). destruct b; exact Hi.
    + apply (Gen2 BAnd b). destruct b; exact Hi.
    + destruct b as [j|c|o1 b1 b2|o1 b1]; try exact (Gen2 BMul _ Hi). exact (Mul1 c Hi).
  - destruct a as [i| | |]; try (destruct o; discriminate Hi).
    destruct o; try discriminate Hi; cbn [inverse] in Hi;
      (destruct (Nat.eqb_spec i d) as [->|]; [|discriminate Hi]); cbn [andb] in Hi;
      (destruct (N.leb_spec k w); [|discriminate Hi]); injection Hi as <-; cbn [eval sem1];
      refine (upd_inverse w n d (fun st => _) (fun st => _) Hd _ _ _ _); intros st Hst;
      rewrite ?Same by assumption; auto with fits; auto using rotr_rotl, rotl_rotr.
Qed.

Theorem exec_bijection w n p : reversible w n p = true -> bijection_on (regs_ok w n) (exec w p).
Proof.
  induction p as [|a p IH]; intros H.
  - split; [auto|]. exists (fun st => st). auto.
  - cbn in H. destruct (inverse w a) as [g|] eqn:E; [|discriminate].
    apply andb_prop in H. destruct H as [Hd H]. apply Nat.ltb_lt in Hd.
    specialize (IH H). destruct IH as [IH1 [h IH2]].
    pose proof (inverse_sound w n a g E Hd) as S.
    split.
    + intros st Hst. cbn. apply IH1. now apply S.
    + exists (fun st => g (h st)). intros st Hst. cbn.
      destruct (IH2 st Hst) as (A1 & A2 & A3).
      destruct (S _ A1) as (B1 & B2 & B3 & B4).
      destruct (S _ Hst) as (C1 & C2 & C3 & C4).
      destruct (IH2 _ C1) as (D1 & D2 & D3).
      split; [auto|]. split.
      * unfold exec in D2. rewrite D2. auto.
      * rewrite B4. auto.
Qed.

(** ** Value numbering *)

(** Nodes refer to earlier nodes by their position in the table.  [NX l] is the
    exclusive or of the nodes in [l] (kept sorted, equal pairs cancelled). *)
Inductive node :=
| NIn (i : nat)
| NC (c : N)
| N2 (o : bop) (a b : nat)
| N1 (o : uop) (a : nat)
| NX (l : list nat).

Definition xsum (vals : list N) (l : list nat) : N :=
  fold_right (fun i acc => xor (nth i vals 0) acc) 0 l.
Lemma xsum_cons v x l : xsum v (x :: l) = xor (nth x v 0) (xsum v l).
Proof. reflexivity. Qed.
Definition sem_node (w : N) (ins vals : list N) (nd : node) : N :=
  match nd with
  | NIn i => nth i ins 0
  | NC c => c
  | N2 o a b => sem2 w o (nth a vals 0) (nth b vals 0)
  | N1 o a => sem1 w o (nth a vals 0)
  | NX l => xsum vals l
  end.
Definition table := list node.
Definition evalt (w : N) (ins : list N) (t : table) : list N :=
  fold_left (fun vals nd => vals ++ [sem_node w ins vals nd]) t [].

Definition refs_lt (n : nat) (nd : node) : Prop :=
  match nd with
  | NIn _ | NC _ => True
  | N2 _ a b => (a < n)%nat /\ (b < n)%nat
  | N1 _ a => (a < n)%nat
  | NX l => Forall (fun i => (i < n)%nat) l
  end.
Definition wft (t : table) : Prop := forall i nd, nth_error t i = Some nd -> refs_lt i nd.

Lemma evalt_app1 w ins t nd : evalt w ins (t ++ [nd]) = evalt w ins t ++ [sem_node w ins (evalt w ins t) nd].
Proof. unfold evalt. now rewrite fold_left_app. Qed.
Lemma evalt_length w ins t : length (evalt w ins t) = length t.
Proof.
  induction t as [|nd t IH] using rev_ind; [reflexivity|].
  rewrite evalt_app1, !app_length, IH. reflexivity.
Qed.
Lemma evalt_ext w ins t u i : (i < length t)%nat -> nth i (evalt w ins (t ++ u)) 0 = nth i (evalt w ins t) 0.
Proof.
  intros Hi. induction u as [|nd u IH] using rev_ind; [now rewrite app_nil_r|].
  rewrite app_assoc, evalt_app1, app_nth1; [exact IH|].
  rewrite evalt_length, app_length. lia.
Qed.
Lemma xsum_ext v1 v2 l : (forall i, In i l -> nth i v1 0 = nth i v2 0) -> xsum v1 l = xsum v2 l.
Proof.
  induction l as [|x l IH]; intros H; [reflexivity|]. rewrite !xsum_cons.
  rewrite (H x) by now left. rewrite IH; auto. intros; apply H. now right.
Qed.
Lemma sem_node_ext w ins v1 v2 n nd : refs_lt n nd -> (forall i, (i < n)%nat -> nth i v1 0 = nth i v2 0) ->
  sem_node w ins v1 nd = sem_node w ins v2 nd.
Proof.
  intros H E. destruct nd; cbn in *; auto.
  - now rewrite !E.
  - now rewrite E.
  - apply xsum_ext. intros i Hi. apply E. rewrite Forall_forall in H. auto.
Qed.
Lemma evalt_nth w ins t i nd : wft t -> nth_error t i = Some nd ->
  nth i (evalt w ins t) 0 = sem_node w ins (evalt w ins t) nd.
Proof.
  intros Hw Hi. assert (Hlt : (i < length t)%nat) by (apply nth_error_Some; congruence).
  apply nth_error_split in Hi. destruct Hi as (t1 & t2 & -> & <-).
  assert (Hr : refs_lt (length t1) nd).
  { apply Hw. rewrite nth_error_app2, Nat.sub_diag by lia. reflexivity. }
  change (nd :: t2) with ([nd] ++ t2). rewrite app_assoc.
  rewrite evalt_ext by (rewrite app_length; cbn; lia).
  rewrite evalt_app1 at 1. rewrite app_nth2, evalt_length, Nat.sub_diag by (rewrite evalt_length; lia).
  cbn [nth]. apply sem_node_ext with (n := length t1); auto.
  intros j Hj. rewrite <- app_assoc. now rewrite evalt_ext.
Qed.

Definition bop_eqb (a b : bop) : bool :=
  match a, b with
  | BAdd, BAdd | BSub, BSub | BXor, BXor | BOr, BOr | BAnd, BAnd | BMul, BMul => true
  | _, _ => false
  end.
Definition uop_eqb (a b : uop) : bool :=
  match a, b with
  | UShl i, UShl j | UShr i, UShr j | URotl i, URotl j | URotr i, URotr j => i =? j
  | UNot, UNot => true
  | _, _ => false
  end.
Fixpoint nats_eqb (a b : list nat) : bool :=
  match a, b with
  | [], [] => true
  | x :: a, y :: b => Nat.eqb x y && nats_eqb a b
  | _, _ => false
  end.
Definition node_eqb (a b : node) : bool :=
  match a, b with
  | NIn i, NIn j => Nat.eqb i j
  | NC i, NC j => i =? j
  | N2 o a b, N2 o' a' b' => bop_eqb o o' && Nat.eqb a a' && Nat.eqb b b'
  | N1 o a, N1 o' a' => uop_eqb o o' && Nat.eqb a a'
  | NX l, NX l' => nats_eqb l l'
  | _, _ => false
  end.
Lemma nats_eqb_eq a b : nats_eqb a b = true -> a = b.
Proof.
  revert b; induction a; intros [|y b] H; cbn in *; try discriminate; auto.
  apply andb_prop in H. destruct H as [H1 H2]. apply Nat.eqb_eq in H1. f_equal; auto.
Qed.
Lemma node_eqb_eq a b : node_eqb a b = true -> a = b.
Proof.
  destruct a, b; cbn; intros H; try discriminate;
    repeat match goal with H : _ && _ = true |- _ => apply andb_prop in H; destruct H end;
    repeat match goal with
    | H : Nat.eqb _ _ = true |- _ => apply Nat.eqb_eq in H; subst
    | H : N.eqb _ _ = true |- _ => apply N.eqb_eq in H; subst
    | H : nats_eqb _ _ = true |- _ => apply nats_eqb_eq in H; subst
    end; auto.
  - destruct o, o0; try discriminate; reflexivity.
  - destruct o, o0; try discriminate; cbn in H; try (apply N.eqb_eq in H; subst); reflexivity.
Qed.

Fixpoint find_from (i : nat) (nd : node) (t : table) : option nat :=
  match t with
  | [] => None
  | x :: r => if node_eqb x nd then Some i else find_from (S i) nd r
  end.
Lemma find_from_sound i nd t j : find_from i nd t = Some j ->
  exists k, j = (i + k)%nat /\ nth_error t k = Some nd.
Proof.
  revert i; induction t as [|x t IH]; cbn; intros i H; [discriminate|].
  destruct (node_eqb x nd) eqn:E.
  - injection H as <-. apply node_eqb_eq in E; subst. exists 0%nat. split; [lia|reflexivity].
  - apply IH in H. destruct H as (k & -> & Hk). exists (S k). split; [lia|exact Hk].
Qed.
Definition intern (t : table) (nd : node) : table * nat :=
  match find_from 0 nd t with
  | Some i => (t, i)
  | None => (t ++ [nd], length t)
  end.
Definition extends (t t' : table) : Prop := exists u, t' = t ++ u.
Lemma extends_refl t : extends t t. Proof. exists []. now rewrite app_nil_r. Qed.
Lemma extends_trans a b c : extends a b -> extends b c -> extends a c.
Proof. intros [u ->] [v ->]. exists (u ++ v). now rewrite app_assoc. Qed.
Lemma extends_length a b : extends a b -> (length a <= length b)%nat.
Proof. intros [u ->]. rewrite app_length. lia. Qed.
Lemma extends_val w ins a b i : extends a b -> (i < length a)%nat ->
  nth i (evalt w ins b) 0 = nth i (evalt w ins a) 0.
Proof. intros [u ->]. apply evalt_ext. Qed.

Lemma intern_sound t nd t' i : wft t -> refs_lt (length t) nd -> intern t nd = (t', i) ->
  wft t' /\ extends t t' /\ (i < length t')%nat /\
  forall w ins, nth i (evalt w ins t') 0 = sem_node w ins (evalt w ins t) nd.
Proof.
  intros Hw Hr. unfold intern. destruct (find_from 0 nd t) as [j|] eqn:E; intros H; injection H as <- <-.
  - apply find_from_sound in E. destruct E as (k & -> & Hk). cbn.
    split; [auto|]. split; [apply extends_refl|]. split.
    + apply nth_error_Some. congruence.
    + intros. now apply evalt_nth.
  - split; [|split; [exists [nd]; auto|split]].
    + intros i x Hi. destruct (Nat.lt_ge_cases i (length t)).
      * rewrite nth_error_app1 in Hi by assumption. auto.
      * rewrite nth_error_app2 in Hi by assumption.
        destruct (i - length t)%nat as [|[|?]] eqn:D; try discriminate.
        injection Hi as <-. replace i with (length t) by lia. exact Hr.
    + rewrite app_length; cbn; lia.
    + intros. rewrite evalt_app1, app_nth2, evalt_length, Nat.sub_diag by (rewrite evalt_length; lia).
      reflexivity.
Qed.

(** Merging two sorted xor lists, cancelling common elements. *)
Fixpoint xmerge (l1 : list nat) : list nat -> list nat :=
  match l1 with
  | [] => fun l2 => l2
  | x :: r1 =>
      fix inner (l2 : list nat) : list nat :=
        match l2 with
        | [] => x :: r1
        | y :: r2 =>
            if Nat.eqb x y then xmerge r1 r2
            else if Nat.ltb x y then x :: xmerge r1 l2
            else y :: inner r2
        end
  end.
Lemma xmerge_sound v l1 l2 : xsum v (xmerge l1 l2) = xor (xsum v l1) (xsum v l2).
Proof.
  revert l2. induction l1 as [|x r1 IH]; intros l2.
  - cbn [xmerge]. change (xsum v []) with 0. unfold xor. now rewrite N.lxor_0_l.
  - induction l2 as [|y r2 IH2].
    + cbn [xmerge]. unfold xor. change (xsum v []) with 0. now rewrite N.lxor_0_r.
    + cbn [xmerge]. destruct (Nat.eqb_spec x y) as [->|].
      * rewrite IH, !xsum_cons. unfold xor.
        rewrite (N.lxor_comm (nth y v 0) (xsum v r1)), N.lxor_assoc, <- (N.lxor_assoc (nth y v 0)).
        now rewrite N.lxor_nilpotent, N.lxor_0_l.
      * destruct (Nat.ltb x y).
        -- rewrite xsum_cons, IH, !xsum_cons. unfold xor. now rewrite !N.lxor_assoc.
        -- rewrite xsum_cons. cbn [xmerge] in IH2. rewrite IH2, !xsum_cons. unfold xor.
           generalize (N.lxor (nth x v 0) (xsum v r1)). intro a.
           now rewrite <- (N.lxor_assoc (nth y v 0)), (N.lxor_comm (nth y v 0)), N.lxor_assoc.
Qed.
Lemma xmerge_Forall (P : nat -> Prop) l1 l2 : Forall P l1 -> Forall P l2 -> Forall P (xmerge l1 l2).
Proof.
  revert l2. induction l1 as [|x r1 IH]; intros l2 H1 H2; [exact H2|].
  inversion H1; subst. induction l2 as [|y r2 IH2]; [exact H1|]. inversion H2; subst.
  cbn [xmerge]. destruct (Nat.eqb x y); [auto|]. destruct (Nat.ltb x y); constructor; auto.
Qed.

(** The xor list denoted by a node. *)
Definition xlist (t : table) (a : nat) : list nat :=
  match nth_error t a with Some (NX l) => l | _ => [a] end.
Lemma xlist_sound w ins t a : wft t -> (a < length t)%nat ->
  xsum (evalt w ins t) (xlist t a) = nth a (evalt w ins t) 0 /\
  Forall (fun i => (i < length t)%nat) (xlist t a).
Proof.
  intros Hw Ha. unfold xlist.
  assert (D : xsum (evalt w ins t) [a] = nth a (evalt w ins t) 0 /\ Forall (fun i => (i < length t)%nat) [a]).
  { split; [|auto]. cbn. unfold xor. now rewrite N.lxor_0_r. }
  destruct (nth_error t a) as [[]|] eqn:E; auto.
  split.
  - symmetry. rewrite (evalt_nth _ _ _ _ _ Hw E). reflexivity.
  - apply Hw in E. cbn in E. eapply Forall_impl; [|exact E]. cbn. lia.
Qed.

Definition comm (o : bop) : bool := match o with BSub | BXor => false | _ => true end.
Lemma sem2_comm w o a b : comm o = true -> sem2 w o a b = sem2 w o b a.
Proof.
  destruct o; intros H; try discriminate; cbn.
  - apply addw_comm. - apply N.lor_comm. - apply N.land_comm. - apply mulw_comm.
Qed.

(** Smart constructors. *)
Definition mk2 (t : table) (o : bop) (a b : nat) : table * nat :=
  match o with
  | BXor =>
      match xmerge (xlist t a) (xlist t b) with
      | [c] => (t, c)
      | l => intern t (NX l)
      end
  | _ => if comm o && Nat.ltb b a then intern t (N2 o b a) else intern t (N2 o a b)
  end.
Definition mk1 (w : N) (t : table) (o : uop) (a : nat) : table * nat :=
  match o with
  | URotr k => if k <=? w then intern t (N1 (URotl (w - k)) a) else intern t (N1 o a)
  | _ => intern t (N1 o a)
  end.
Lemma mk2_sound w0 t o a b t' i : wft t -> (a < length t)%nat -> (b < length t)%nat -> mk2 t o a b = (t', i) ->
  wft t' /\ extends t t' /\ (i < length t')%nat /\
  forall ins, nth i (evalt w0 ins t') 0 = sem2 w0 o (nth a (evalt w0 ins t) 0) (nth b (evalt w0 ins t) 0).
Proof.
  intros Hw Ha Hb.
  assert (G : (if comm o && Nat.ltb b a then intern t (N2 o b a) else intern t (N2 o a b)) = (t', i) ->
    wft t' /\ extends t t' /\ (i < length t')%nat /\
    forall ins, nth i (evalt w0 ins t') 0 = sem2 w0 o (nth a (evalt w0 ins t) 0) (nth b (evalt w0 ins t) 0)).
  { intros H. destruct (comm o && Nat.ltb b a) eqn:E.
    - apply andb_prop in E. destruct E as [E _].
      apply intern_sound in H; [|auto|cbn; auto]. destruct H as (H1 & H2 & H3 & H4).
      repeat split; auto. intros. rewrite H4. cbn. now apply sem2_comm.
    - apply intern_sound in H; [|auto|cbn; auto]. destruct H as (H1 & H2 & H3 & H4).
      repeat split; auto. intros. now rewrite H4. }
  unfold mk2. destruct o; try exact G.
  pose proof (fun ins => xlist_sound w0 ins t a Hw Ha) as Xa.
  pose proof (fun ins => xlist_sound w0 ins t b Hw Hb) as Xb.
  pose proof (fun ins => xmerge_sound (evalt w0 ins t) (xlist t a) (xlist t b)) as Xm.
  assert (XF : Forall (fun i => (i < length t)%nat) (xmerge (xlist t a) (xlist t b))).
  { apply xmerge_Forall; [apply (proj2 (Xa []))|apply (proj2 (Xb []))]. }
  destruct (xmerge (xlist t a) (xlist t b)) as [|c [|c' l]]; intros H.
  - apply intern_sound in H; [|auto|cbn; auto]. destruct H as (H1 & H2 & H3 & H4).
    repeat split; auto. intros. rewrite H4. cbn [sem_node]. rewrite Xm. cbn [sem2].
    now rewrite (proj1 (Xa ins)), (proj1 (Xb ins)).
  - injection H as <- <-. repeat split; auto using extends_refl.
    + now inversion XF.
    + intros. specialize (Xm ins). cbn [xsum fold_right] in Xm. unfold xor at 1 in Xm.
      rewrite N.lxor_0_r in Xm. rewrite Xm. cbn [sem2].
      now rewrite (proj1 (Xa ins)), (proj1 (Xb ins)).
  - apply intern_sound in H; [|auto|cbn; auto]. destruct H as (H1 & H2 & H3 & H4).
    repeat split; auto. intros. rewrite H4. cbn [sem_node]. rewrite Xm. cbn [sem2].
    now rewrite (proj1 (Xa ins)), (proj1 (Xb ins)).
Qed.
Lemma mk1_sound w t o a t' i : wft t -> (a < length t)%nat -> mk1 w t o a = (t', i) ->
  wft t' /\ extends t t' /\ (i < length t')%nat /\
  forall ins, nth i (evalt w ins t') 0 = sem1 w o (nth a (evalt w ins t) 0).
Proof.
  intros Hw Ha H.
  assert (G : forall o', (forall x, sem1 w o' x = sem1 w o x) -> intern t (N1 o' a) = (t', i) ->
    wft t' /\ extends t t' /\ (i < length t')%nat /\
    forall ins, nth i (evalt w ins t') 0 = sem1 w o (nth a (evalt w ins t) 0)).
  { intros o' Ho Hi. apply intern_sound in Hi; [|auto|cbn; auto]. destruct Hi as (H1 & H2 & H3 & H4).
    repeat split; auto. intros. rewrite H4. cbn. auto. }
  unfold mk1 in H. destruct o; try (now apply (G _ (fun x => eq_refl))).
  destruct (N.leb_spec k w); [|now apply (G _ (fun x => eq_refl))].
  apply (G (URotl (w - k))); auto. intros x. cbn.
  rewrite rotl_as_rotr by lia. f_equal. lia.
Qed.

(** Symbolic evaluation. *)
Fixpoint vn_exp (w : N) (t : table) (sg : list nat) (e : exp) : option (table * nat) :=
  match e with
  | EV i => match nth_error sg i with Some a => Some (t, a) | None => None end
  | EC c => Some (intern t (NC c))
  | E2 o a b =>
      match vn_exp w t sg a with
      | Some (t1, x) => match vn_exp w t1 sg b with Some (t2, y) => Some (mk2 t2 o x y) | None => None end
      | None => None
      end
  | E1 o a => match vn_exp w t sg a with Some (t1, x) => Some (mk1 w t1 o x) | None => None end
  end.
Fixpoint vn_exec (w : N) (t : table) (sg : list nat) (p : prog) : option (table * list nat) :=
  match p with
  | [] => Some (t, sg)
  | Set_ d e :: r => match vn_exp w t sg e with Some (t1, x) => vn_exec w t1 (upd sg d x) r | None => None end
  end.

(** [sg] describes the registers [st] over the inputs [ins]. *)
Definition agrees (w : N) (ins : list N) (t : table) (sg : list nat) (st : list N) : Prop :=
  Forall (fun i => (i < length t)%nat) sg /\
  st = map (fun i => nth i (evalt w ins t) 0) sg.
Lemma agrees_extends w ins t t' sg st : extends t t' -> agrees w ins t sg st -> agrees w ins t' sg st.
Proof.
  intros He [H1 H2]. split.
  - eapply Forall_impl; [|exact H1]. cbn. intros. pose proof (extends_length _ _ He). lia.
  - rewrite H2. apply map_ext_in. intros i Hi. rewrite Forall_forall in H1.
    symmetry. apply extends_val; auto.
Qed.
Lemma vn_exp_sound w ins sg st e : forall t t' i, wft t -> agrees w ins t sg st -> vn_exp w t sg e = Some (t', i) ->
  wft t' /\ extends t t' /\ (i < length t')%nat /\ nth i (evalt w ins t') 0 = eval w st e.
Proof.
  induction e as [j|c|o a IHa b IHb|o a IHa]; cbn; intros t t' i Hw Ha H.
  - destruct (nth_error sg j) as [x|] eqn:E; [|discriminate]. injection H as <- <-.
    destruct Ha as [H1 H2]. split; [auto|]. split; [apply extends_refl|]. split.
    + rewrite Forall_forall in H1. apply H1. now apply nth_error_In in E.
    + subst st. symmetry. apply nth_error_nth. rewrite nth_error_map, E. reflexivity.
  - injection H as H. apply intern_sound in H; [|auto|exact I]. destruct H as (H1 & H2 & H3 & H4).
    repeat split; auto. now rewrite H4.
  - destruct (vn_exp w t sg a) as [[t1 x]|] eqn:Ea; [|discriminate].
    destruct (vn_exp w t1 sg b) as [[t2 y]|] eqn:Eb; [|discriminate].
    destruct (IHa _ _ _ Hw Ha Ea) as (A1 & A2 & A3 & A4).
    destruct (IHb _ _ _ A1 (agrees_extends _ _ _ _ _ _ A2 Ha) Eb) as (B1 & B2 & B3 & B4).
    injection H as H. apply (mk2_sound w) in H; auto.
    2:{ pose proof (extends_length _ _ B2). lia. }
    destruct H as (H1 & H2 & H3 & H4). repeat split; auto.
    + eauto using extends_trans.
    + rewrite H4, B4. f_equal. rewrite (extends_val w ins _ _ _ B2 A3). exact A4.
  - destruct (vn_exp w t sg a) as [[t1 x]|] eqn:Ea; [|discriminate].
    destruct (IHa _ _ _ Hw Ha Ea) as (A1 & A2 & A3 & A4).
    injection H as H. apply mk1_sound in H; auto. destruct H as (H1 & H2 & H3 & H4).
    repeat split; auto.
    + eauto using extends_trans.
    + rewrite H4. now f_equal.
Qed.
Lemma map_upd {A B} (f : A -> B) l i x : map f (upd l i x) = upd (map f l) i (f x).
Proof. revert i; induction l; intros [|i]; cbn; auto. now rewrite IHl. Qed.
Lemma vn_exec_sound w ins p : forall t sg st t' sg', wft t -> agrees w ins t sg st ->
  vn_exec w t sg p = Some (t', sg') -> wft t' /\ extends t t' /\ agrees w ins t' sg' (exec w p st).
Proof.
  induction p as [|[d e] p IH]; cbn; intros t sg st t' sg' Hw Ha H.
  - injection H as <- <-. auto using extends_refl.
  - destruct (vn_exp w t sg e) as [[t1 x]|] eqn:E; [|discriminate].
    destruct (vn_exp_sound _ _ _ _ _ _ _ _ Hw Ha E) as (A1 & A2 & A3 & A4).
    pose proof (agrees_extends _ _ _ _ _ _ A2 Ha) as [B1 B2].
    destruct (IH t1 (upd sg d x) (upd st d (eval w st e)) t' sg' A1) as (C1 & C2 & C3); auto.
    + split; [now apply upd_Forall|]. rewrite map_upd, A4. now rewrite B2 at 1.
    + repeat split; auto; [eauto using extends_trans|apply C3|apply C3].
Qed.

Definition vn_init (n : nat) : table * list nat := (map NIn (seq 0 n), seq 0 n).
Lemma evalt_inputs w ins s : evalt w ins (map NIn s) = map (fun i => nth i ins 0) s.
Proof.
  induction s as [|i s IH] using rev_ind; [reflexivity|].
  rewrite !map_app. cbn [map]. rewrite evalt_app1, IH. reflexivity.
Qed.
Lemma map_nth_seq (ins : list N) : map (fun i => nth i ins 0) (seq 0 (length ins)) = ins.
Proof.
  induction ins as [|x l IH]; [reflexivity|].
  cbn [length seq map nth]. f_equal. rewrite <- seq_shift, map_map. exact IH.
Qed.
Lemma vn_init_sound w n ins : length ins = n ->
  wft (fst (vn_init n)) /\ agrees w ins (fst (vn_init n)) (snd (vn_init n)) ins.
Proof.
  intros Hn. cbn. split.
  - intros i nd H. rewrite nth_error_map in H. destruct (nth_error (seq 0 n) i); [|discriminate].
    injection H as <-. exact I.
  - split.
    + rewrite map_length, seq_length. apply Forall_forall. intros i Hi. apply in_seq in Hi. lia.
    + rewrite evalt_inputs. rewrite <- Hn. now rewrite map_nth_seq, map_nth_seq.
Qed.

(** [vn_check w n p1 p2 outs]: started on the same [n] registers, register [i]
    after [p1] equals register [j] after [p2] for all [(i, j)] in [outs]. *)
Definition vn_check (w : N) (n : nat) (p1 p2 : prog) (outs : list (nat * nat)) : bool :=
  let '(t0, sg) := vn_init n in
  match vn_exec w t0 sg p1 with
  | Some (t1, s1) =>
      match vn_exec w t1 sg p2 with
      | Some (t2, s2) =>
          forallb (fun '(i, j) => match nth_error s1 i, nth_error s2 j with
                                  | Some a, Some b => Nat.eqb a b | _, _ => false end) outs
      | None => false
      end
  | None => false
  end.
Theorem vn_check_sound w n p1 p2 outs : vn_check w n p1 p2 outs = true ->
  forall st, length st = n -> forall i j, In (i, j) outs ->
  nth i (exec w p1 st) 0 = nth j (exec w p2 st) 0.
Proof.
  unfold vn_check. intros H st Hn i j Hij.
  destruct (vn_init n) as [t0 sg] eqn:E0.
  destruct (vn_init_sound w n st Hn) as [I1 I2]. rewrite E0 in I1, I2. cbn [fst snd] in I1, I2.
  destruct (vn_exec w t0 sg p1) as [[t1 s1]|] eqn:E1; [|discriminate].
  destruct (vn_exec w t1 sg p2) as [[t2 s2]|] eqn:E2; [|discriminate].
  destruct (vn_exec_sound w st p1 _ _ _ _ _ I1 I2 E1) as (A1 & A2 & A3).
  destruct (vn_exec_sound w st p2 _ _ _ _ _ A1 (agrees_extends _ _ _ _ _ _ A2 I2) E2) as (B1 & B2 & B3).
  pose proof (agrees_extends _ _ _ _ _ _ B2 A3) as C3.
  rewrite forallb_forall in H. specialize (H _ Hij). cbn in H.
  destruct (nth_error s1 i) as [a|] eqn:Ea; [|discriminate].
  destruct (nth_error s2 j) as [b|] eqn:Eb; [|discriminate].
  apply Nat.eqb_eq in H; subst b.
  destruct C3 as [_ ->]. destruct B3 as [_ ->].
  erewrite !nth_error_nth; [reflexivity| |]; rewrite nth_error_map.
  - rewrite Eb. reflexivity.
  - rewrite Ea. reflexivity.
Qed.
