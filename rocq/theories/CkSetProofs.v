(** Proofs about package keccak under other build settings: the permutation. *)
From Coq Require Import ZArith Bool.
From Verif Require Import Words WordLemmas ListLemmas Mem SLP Bij Mm3Spec KeccakModel KeccakSpec KeccakProofs KeccakProofs2 KeccakProofs3 CkProg CkRounds CkModel CkProofs CkVecModel CkSetProg CkSetRounds CkSetModel.
Open Scope N_scope.

Lemma round1_Round s i : (i < 24)%nat -> state_ok s -> round1 (nth i KeccakF1600RoundConstants 0) s (par s) = Round s i /\ state_ok (Round s i).
Proof.
  intros Hi Hs. rewrite (proj1 (rconst i Hi)). destruct (Round_ok i s Hi Hs) as [E O]. rewrite E. split; [|exact O].
  unfold round1, thetaB, round_. now rewrite theta_addD by apply Hs.
Qed.

(** ** A sequence of rounds, whatever the macros are *)
Fixpoint trace (fuel step : nat) (body : list call) (i : nat) : list call :=
  if Nat.ltb i 24 then
    match fuel with
    | O => []
    | S fuel => map (fun c => match c with Rd o x y => Rd (i + o) x y | Last o x y => Last (i + o) x y | Copy x y => Copy x y end) body
                ++ trace fuel step body (i + step)
    end
  else [].
Fixpoint ends (fuel step i : nat) : bool :=
  if Nat.ltb i 24 then match fuel with O => false | S fuel => ends fuel step (i + step) end else true.
Lemma for24_trace M step body fuel : forall i m, ends fuel step i = true ->
  for24 fuel M step body i m = Ok (fold_left (call_ M 0) (trace fuel step body i) m).
Proof.
  induction fuel as [|fuel IH]; intros i m H; cbn [for24 trace ends] in *.
  - destruct (Nat.ltb i 24); [discriminate|reflexivity].
  - destruct (Nat.ltb i 24); [|reflexivity]. rewrite (IH _ _ H), fold_left_app. f_equal. f_equal.
    clear. revert m. induction body as [|c body IH]; intros m; [reflexivity|]. cbn [map fold_left]. rewrite IH. f_equal.
    destruct c; reflexivity.
Qed.
(** A sequence of calls does the rounds in order and ends in A. *)
Fixpoint sched (l : list call) (cur : bool) (n : nat) : bool :=
  match l with
  | [] => negb cur && Nat.eqb n 24
  | Rd i x y :: r => Bool.eqb x cur && Bool.eqb y (negb x) && Nat.eqb i n && Nat.ltb n 24 && sched r y (S n)
  | Last i x y :: r => match r with [] => cur && x && negb y && Nat.eqb i n && Nat.eqb n 23 | _ => false end
  | Copy x y :: r => cur && negb x && y && sched r false n
  end.
Lemma unrollings_ok : Forall (fun u => ends 24 (fst u) 0 && sched (trace 24 (fst u) (snd u) 0) false 0 = true) unrollings.
Proof. repeat constructor. Qed.
Section Schedule.
  Variable M : macros.
  Variable rep : bool -> m_mem M -> list N -> Prop.
  Variable fin : m_mem M -> list N -> Prop.
  Hypothesis H_round : forall i x m s, (i < 24)%nat -> rep x m s -> rep (negb x) (m_round M (nth i KeccakF1600RoundConstants 0) x (negb x) m) (Round s i).
  Hypothesis H_last : forall m s, rep true m s -> fin (m_last M (nth 23 KeccakF1600RoundConstants 0) true false m) (Round s 23).
  Hypothesis H_copy : forall m s, rep true m s -> rep false (m_copy M false true m) s.
  Hypothesis H_fin : forall m s, rep false m s -> fin m s.
  Lemma sched_ok l : forall cur n m s, sched l cur n = true -> rep cur m s ->
    fin (fold_left (call_ M 0) l m) (fold_left Round (seq n (24 - n)) s).
  Proof.
    induction l as [|c l IH]; intros cur n m s H R; cbn [sched] in H.
    - apply andb_prop in H. destruct H as [H1 H2]. apply Nat.eqb_eq in H2. subst n. destruct cur; [discriminate|]. cbn. now apply H_fin.
    - rewrite fold_left_cons. destruct c as [i x y|i x y|x y]; cbn [call_ Nat.add].
      + repeat (apply andb_prop in H; destruct H as [H ?]). apply eqb_prop in H. apply eqb_prop in H3. apply Nat.eqb_eq in H2. apply Nat.ltb_lt in H1. subst.
        replace (24 - n)%nat with (S (24 - S n)) by lia. cbn [seq]. rewrite fold_left_cons.
        apply (IH (negb cur)); [assumption|]. now apply H_round.
      + destruct l; [|discriminate]. repeat (apply andb_prop in H; destruct H as [H ?]). destruct y; [discriminate|].
        apply Nat.eqb_eq in H0, H1. subst. cbn [fold_left]. change (24 - 23)%nat with 1%nat. cbn [seq fold_left].
        now apply H_last.
      + repeat (apply andb_prop in H; destruct H as [H ?]). destruct cur; [|discriminate]. destruct x; [discriminate|]. destruct y; [|discriminate].
        apply (IH false); [assumption|]. now apply H_copy.
  Qed.
  Lemma rounds_ok u m s : In u unrollings -> rep false (m_prepare M m) s -> exists m', rounds M u m = Ok m' /\ fin m' (keccak_f 24 s).
  Proof.
    intros Hu R. pose proof (proj1 (Forall_forall _ _) unrollings_ok u Hu) as H. apply andb_prop in H. destruct H as [H1 H2].
    unfold rounds. rewrite for24_trace by exact H1. eexists. split; [reflexivity|]. exact (sched_ok _ _ _ _ _ H2 R).
  Qed.
End Schedule.

(** ** 64-bit words, with and without complemented lanes *)
Section Plain.
  Local Transparent theta rhopi chi iota.
  Lemma plain_AE c st : regs_ok 64 85 st -> fits 64 c ->
    block 25 (exec 64 (plain_round c 0 25) st) = round1 c (block 0 st) (cols st) /\
    cols (exec 64 (plain_round c 0 25) st) = par (round1 c (block 0 st) (cols st)).
  Proof. intros [L F] Hc. explode 85%nat st. inv_forall. round_eq. split; reflexivity. Qed.
  Lemma plain_EA c st : regs_ok 64 85 st -> fits 64 c ->
    block 0 (exec 64 (plain_round c 25 0) st) = round1 c (block 25 st) (cols st) /\
    cols (exec 64 (plain_round c 25 0) st) = par (round1 c (block 25 st) (cols st)).
  Proof. intros [L F] Hc. explode 85%nat st. inv_forall. round_eq. split; reflexivity. Qed.
  Lemma plain_last_EA c st : regs_ok 64 85 st -> fits 64 c ->
    block 0 (exec 64 (plain_last c 25 0) st) = round1 c (block 25 st) (cols st).
  Proof. intros [L F] Hc. explode 85%nat st. inv_forall. round_eq. reflexivity. Qed.
End Plain.
