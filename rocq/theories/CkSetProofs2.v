(** Proofs about package keccak under other build settings: the permutation, for each of the implementations. *)
From Coq Require Import ZArith Bool.
From Verif Require Import Words WordLemmas ListLemmas Mem SLP Bij Mm3Spec KeccakModel KeccakSpec KeccakProofs KeccakProofs2 KeccakProofs3 CkProg CkRounds CkModel CkProofs CkVecModel CkSetProg CkSetRounds CkSetModel CkSetProofs.
Open Scope N_scope.
Strategy 1000 [rounds24 plain_round plain_last thetaRhoPiChiIotaPrepareTheta thetaRhoPiChiIota v64_round v64_last v128_round].

Lemma rfits i : (i < 24)%nat -> fits 64 (nth i KeccakF1600RoundConstants 0).
Proof. intros H. destruct (rconst i H) as [-> F]. exact F. Qed.
Lemma copy_ok st : length st = 85%nat -> block 0 (exec 64 (copyStateVariables 0 25) st) = block 25 st /\ cols (exec 64 (copyStateVariables 0 25) st) = cols st.
Proof. intros L. explode 85%nat st. split; reflexivity. Qed.
Lemma regs_copy st : regs_ok 64 85 st -> regs_ok 64 85 (exec 64 (copyStateVariables 0 25) st).
Proof. apply exec_regs. reflexivity. Qed.

(** ** Scalar, complemented lanes *)
Definition rep_bebi (x : bool) (st s : list N) : Prop := repr (at64 x) st s.
Lemma bebi_rounds u s junk : In u unrollings -> state_ok s -> regs_ok 64 60 junk ->
  exists m, rounds (scalar_macros true) u (masked s ++ junk) = Ok m /\ firstn 25 m = masked (keccak_f 24 s).
Proof.
  intros Hu Hs Hj.
  apply (rounds_ok (scalar_macros true) rep_bebi (fun m s => firstn 25 m = masked s)).
  - intros i [|] m s0 Hi R; [now apply repr_EA|now apply repr_AE].
  - intros m s0 R. exact (repr_last 23 m s0 ltac:(lia) R).
  - intros m s0 [R S0 B C]. destruct (copy_ok m (proj1 R)) as [E1 E2]. cbn [scalar_macros m_copy at64].
    constructor; [now apply regs_copy|exact S0|exact (eq_trans E1 B)|exact (eq_trans E2 C)].
  - intros m s0 [R S0 B C]. exact B.
  - exact Hu.
  - now apply repr_start.
Qed.

(** ** Scalar, no complemented lanes *)
Record reprp (x : bool) (st s : list N) : Prop := {
  pp_regs : regs_ok 64 85 st; pp_state : state_ok s; pp_block : block (at64 x) st = s; pp_cols : cols st = par s }.
Lemma regs_plain c x st : fits 64 c -> regs_ok 64 85 st -> regs_ok 64 85 (exec 64 (plain_round c (at64 x) (at64 (negb x))) st).
Proof. intros Hc. apply exec_regs. apply fitsb_true in Hc. destruct x; cbv -[fitsb]; rewrite Hc; reflexivity. Qed.
Lemma plain_rounds u s junk : In u unrollings -> state_ok s -> regs_ok 64 60 junk ->
  exists m, rounds (scalar_macros false) u (s ++ junk) = Ok m /\ firstn 25 m = keccak_f 24 s.
Proof.
  intros Hu Hs Hj.
  apply (rounds_ok (scalar_macros false) reprp (fun m s => firstn 25 m = s)).
  - intros i x m s0 Hi [R S0 B C]. destruct (round1_Round s0 i Hi S0) as [E Hr]. pose proof (rfits i Hi) as Hc. cbn [scalar_macros m_round].
    destruct x; cbn [negb at64] in B |- *.
    + destruct (plain_EA _ m R Hc) as [E1 E2]. rewrite B, C, E in E1, E2.
      constructor; [exact (regs_plain _ true m Hc R)|exact Hr|exact E1|exact E2].
    + destruct (plain_AE _ m R Hc) as [E1 E2]. rewrite B, C, E in E1, E2.
      constructor; [exact (regs_plain _ false m Hc R)|exact Hr|exact E1|exact E2].
  - intros m s0 [R S0 B C]. assert (H : (23 < 24)%nat) by lia. destruct (round1_Round s0 23 H S0) as [E Hr].
    cbn [scalar_macros m_last at64] in B |- *. pose proof (plain_last_EA _ m R (rfits 23 H)) as E1. rewrite B, C, E in E1. exact E1.
  - intros m s0 [R S0 B C]. destruct (copy_ok m (proj1 R)) as [E1 E2]. cbn [scalar_macros m_copy at64] in B |- *.
    constructor; [now apply regs_copy|exact S0|exact (eq_trans E1 B)|exact (eq_trans E2 C)].
  - intros m s0 [R S0 B C]. exact B.
  - exact Hu.
  - destruct Hj as [Lj Fj], Hs as [Ls Fs]. assert (R : regs_ok 64 85 (s ++ junk)) by (split; [rewrite app_length; lia|apply Forall_app; auto]).
    destruct (prepare_ok _ (proj1 R)) as [E1 E2]. assert (B : block 0 (s ++ junk) = s) by (unfold block; rewrite skipn_O; now apply firstn_app_exact).
    rewrite B in E1, E2. constructor; [now apply regs_prepare|now split|exact E2|exact E1].
Qed.

(** ** __m64 *)
Record repr64 (x : bool) (m : vmem N) (s : list N) : Prop := {
  p6_state : state_ok s; p6_lanes : lanes64 (at64 x) m = s; p6_cols : cols64 m = par s; p6_mem : length (vstate m) = 25%nat }.
Lemma run64_mem p : forall m, length (vstate (run64 p m)) = length (vstate m).
Proof. induction p as [|s p IH]; intros m; [reflexivity|]. change (run64 (s :: p) m) with (run64 p (stm64 m s)). rewrite IH. destruct s; cbn; now rewrite ?upd_length. Qed.
Definition fin64 (m : vmem N) (s : list N) : Prop := lanes64 0 m = s /\ length (vstate m) = 25%nat.
Lemma mmx_steps :
  (forall i x m s, (i < 24)%nat -> repr64 x m s -> repr64 (negb x) (run64 (v64_round (nth i KeccakF1600RoundConstants 0) (at64 x) (at64 (negb x))) m) (Round s i)) /\
  (forall m s, repr64 true m s -> fin64 (run64 (v64_last (nth 23 KeccakF1600RoundConstants 0) 25 0) m) (Round s 23)) /\
  (forall m s, repr64 true m s -> repr64 false (run64 (v64_copy 0 25) m) s) /\
  (forall m s, repr64 false m s -> fin64 m s) /\
  (forall m s, state_ok s -> lanes64 0 m = s -> length (vstate m) = 25%nat -> repr64 false (run64 v64_prepare m) s).
Proof.
  split; [|split; [|split; [|split]]].
  - intros i x m s H [S0 B C L]. destruct (round1_Round s i H S0) as [E Hr].
    destruct x; cbn [negb at64] in B |- *; [destruct (v64_EA (nth i KeccakF1600RoundConstants 0) m) as [E1 E2]|destruct (v64_AE (nth i KeccakF1600RoundConstants 0) m) as [E1 E2]];
      rewrite B, C, E in E1, E2; (constructor; [exact Hr|exact E1|exact E2|now rewrite run64_mem]).
  - intros m s [S0 B C L]. split; [|now rewrite run64_mem]. rewrite v64_last_EA. cbn [at64] in B. rewrite B, C.
    apply round1_Round; [lia|exact S0].
  - intros m s [S0 B C L]. destruct (v64_copy_ok m) as [E1 E2]. constructor; [exact S0|exact (eq_trans E1 B)|exact (eq_trans E2 C)|now rewrite run64_mem].
  - intros m s [S0 B C L]. split; assumption.
  - intros m s S0 B L. destruct (v64_prepare_ok m) as [E1 E2]. rewrite B in E1, E2. constructor; [exact S0|exact E1|exact E2|now rewrite run64_mem].
Qed.
Lemma mmx_rounds u m s : In u unrollings -> state_ok s -> lanes64 0 m = s -> length (vstate m) = 25%nat ->
  exists m', rounds mmx_macros u m = Ok m' /\ vstate (run64 (v64_store 0) m') = keccak_f 24 s.
Proof.
  intros Hu Hs HL HM. destruct mmx_steps as (S1 & S2 & S3 & S4 & S5).
  destruct (rounds_ok mmx_macros repr64 fin64 S1 S2 S3 S4 u m s Hu (S5 m s Hs HL HM)) as (m' & E & F1 & F2).
  exists m'. split; [exact E|]. rewrite v64_store_ok by exact F2. exact F1.
Qed.

(** ** __m128i with the 64-bit macros: the low halves *)
Definition lowrel (m : vmem (N * N)) (l : vmem N) : Prop :=
  (forall r, fst (vars m r) = vars l r) /\ vstate m = vstate l /\ vinput m = vinput l.
Fixpoint low_exp (e : vexp) : bool :=
  match e with
  | VV _ | VConst _ | VMem64 _ _ => true
  | VXor a b | VAndn a b => low_exp a && low_exp b
  | VRol a _ => low_exp a
  | _ => false
  end.
Definition low_prog (p : vprog) : bool := forallb (fun s => match s with VSet _ e | VStore _ e => low_exp e | _ => false end) p.
Lemma low_ev m l e : lowrel m l -> low_exp e = true -> fst (ev128 m e) = ev64 l e.
Proof.
  intros (Hv & Hs & Hi). induction e as [r|r h|c|a i|al a i|a IHa b IHb|a IHa b IHb|a IHa o|a IHa b IHb|a IHa b IHb|a IHa|]; cbn [low_exp]; intros H; try discriminate;
    cbn [ev128 ev64 fst]; try (apply andb_prop in H; destruct H as [H1 H2]; now rewrite IHa, IHb); auto.
  - unfold mword. destruct a; now rewrite ?Hs, ?Hi.
  - now rewrite IHa.
Qed.
Lemma low_run p : forall m l, low_prog p = true -> lowrel m l -> lowrel (run128 p m) (run64 p l).
Proof.
  induction p as [|s p IH]; intros m l H R; [exact R|]. cbn [low_prog forallb] in H. apply andb_prop in H. destruct H as [H1 H2].
  change (run128 (s :: p) m) with (run128 p (stm128 m s)). change (run64 (s :: p) l) with (run64 p (stm64 l s)). apply (IH _ _ H2).
  destruct s as [r e|i e|i r h]; [| |discriminate].
  - pose proof (low_ev m l e R H1) as E. destruct R as (Hv & Hs & Hi). split; [|split]; [|exact Hs|exact Hi]. intros k. cbn. unfold setv. destruct (Nat.eqb k r); [exact E|apply Hv].
  - pose proof (low_ev m l e R H1) as E. destruct R as (Hv & Hs & Hi). split; [exact Hv|split]; [|exact Hi]. cbn. now rewrite E, Hs.
Qed.
Lemma sse64_rounds u m s : In u unrollings -> state_ok s -> lanes64 0 (mkV (fun r => fst (vars m r)) (vstate m) (vinput m)) = s -> length (vstate m) = 25%nat ->
  exists m', rounds sse64_macros u m = Ok m' /\ vstate (run128 (v64_store 0) m') = keccak_f 24 s.
Proof.
  intros Hu Hs HL HM. destruct mmx_steps as (S1 & S2 & S3 & S4 & S5).
  assert (LR : lowrel m (mkV (fun r => fst (vars m r)) (vstate m) (vinput m))) by (repeat split).
  destruct (rounds_ok sse64_macros (fun x m s => exists l, lowrel m l /\ repr64 x l s) (fun m s => exists l, lowrel m l /\ fin64 l s)) with (u := u) (m := m) (s := s)
    as (m' & E & l & L & F1 & F2).
  - intros i x m0 s0 Hi (l & L & R). eexists. split; [apply low_run; [|exact L]|exact (S1 i x l s0 Hi R)]. destruct x; reflexivity.
  - intros m0 s0 (l & L & R). eexists. split; [apply low_run; [|exact L]|exact (S2 l s0 R)]. reflexivity.
  - intros m0 s0 (l & L & R). eexists. split; [apply low_run; [|exact L]|exact (S3 l s0 R)]. reflexivity.
  - intros m0 s0 (l & L & R). exists l. split; [exact L|exact (S4 l s0 R)].
  - exact Hu.
  - eexists. split; [apply low_run; [|exact LR]; reflexivity|]. apply S5; assumption.
  - exists m'. split; [exact E|]. assert (P : low_prog (v64_store 0) = true) by reflexivity.
    destruct (low_run (v64_store 0) m' l P L) as (_ & Q & _). rewrite Q, v64_store_ok by exact F2. exact F1.
Qed.

(** ** __m128i with the 128-bit macros *)
Record repr128 (x : bool) (m : vmem (N * N)) (s : list N) : Prop := {
  p8_state : state_ok s; p8_lanes : lanes128 (at128 x) m = s; p8_cols : cols128 m = par s; p8_mem : length (vstate m) = 25%nat }.
Lemma run128_mem p : forall m, length (vstate (run128 p m)) = length (vstate m).
Proof. induction p as [|s p IH]; intros m; [reflexivity|]. change (run128 (s :: p) m) with (run128 p (stm128 m s)). rewrite IH. destruct s; cbn; now rewrite ?upd_length. Qed.
Lemma sse128_rounds u m s : In u unrollings -> state_ok s -> lanes128 0 m = s -> cols128 m = par s -> length (vstate m) = 25%nat ->
  exists m', rounds sse128_macros u m = Ok m' /\ vstate (run128 (v128_store 0) m') = keccak_f 24 s.
Proof.
  intros Hu Hs HL HC HM.
  assert (S1 : forall i x m s, (i < 24)%nat -> repr128 x m s -> repr128 (negb x) (run128 (v128_round (nth i KeccakF1600RoundConstants 0) (at128 x) (at128 (negb x))) m) (Round s i)).
  { intros i x m0 s0 Hi [S0 B C L]. destruct (round1_Round s0 i Hi S0) as [E Hr].
    destruct x; cbn [negb at128] in B |- *; [destruct (v128_EA (nth i KeccakF1600RoundConstants 0) m0) as [E1 E2]|destruct (v128_AE (nth i KeccakF1600RoundConstants 0) m0) as [E1 E2]];
      rewrite B, C, E in E1, E2; (constructor; [exact Hr|exact E1|exact E2|now rewrite run128_mem]). }
  destruct (rounds_ok sse128_macros repr128 (fun m s => lanes128 0 m = s /\ length (vstate m) = 25%nat)) with (u := u) (m := m) (s := s) as (m' & E & F1 & F2).
  - exact S1.
  - intros m0 s0 R. destruct (S1 23%nat true m0 s0 ltac:(lia) R) as [_ B _ L]. split; [exact B|exact L].
  - intros m0 s0 [S0 B C L]. destruct (v128_copy_ok m0) as [E1 E2]. cbn [at128] in B. constructor; [exact S0|exact (eq_trans E1 B)|exact (eq_trans E2 C)|]. cbn [sse128_macros m_copy at128]. now rewrite run128_mem.
  - intros m0 s0 [S0 B C L]. split; [exact B|exact L].
  - exact Hu.
  - constructor; assumption.
  - exists m'. split; [exact E|]. rewrite v128_store_ok by exact F2. exact F1.
Qed.
