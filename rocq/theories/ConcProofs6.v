(** Goroutines that set Hf2 to different names, without a mutex (C110). *)
From Coq Require Import NArith ZArith Lia List Arith Bool String.
From Verif Require Import Words WordLemmas ListLemmas Mem KeccakModel KeccakProofs3 Mm3Model HashfModel HashfSpec HashfProofs ConcModel ConcSpec ConcProofs ConcProofs2 ConcProofs3.
Import ListNotations.
Open Scope N_scope.
Open Scope list_scope.

Record stilln (a0 : nat) (m0 : heap) (names : list string) (s : shared) : Prop := {
  sn_name : In (hf2 s) names;
  sn_still : still a0 m0 (hf2 s) s }.
Lemma still_name a0 m0 n n' s : still a0 m0 n s -> still a0 m0 n' (set_hf2 s n').
Proof. intros [A B C D E]. now constructor. Qed.
Record viewn (e : ext) (grow : nat -> nat -> nat) (names : list string) (m0 : heap) (p : list top) (s : shared) (t : thread) (m : heap) (dn pend : list (list N * N)) : Prop := {
  n_len : length m = length m0;
  n_alen : forall a, length (array m a) = length (array m0 a);
  n_same : forall a x, In x p -> uses x a -> array (mem (vars s)) a = array m a;
  n_prog : incl (prog t) p;
  n_asked : asked m0 p = dn ++ pend ++ asked m (prog t);
  n_done : Forall2 (under_some e names) (results t) dn;
  n_run : match run t with
          | None => pend = []
          | Some (cs, r) => (exists n k seed, In n names /\ In (THash k seed) p /\ cs = whole (hashf_code e grow n k seed) /\ pend = [(read m k, seed)]) \/
                            (cs = [] /\ exists h x, r = [h] /\ pend = [x] /\ under_some e names h x)
          end }.
Definition viewedn e grow names m0 p s t := exists m dn pend, viewn e grow names m0 p s t m dn pend.
Definition takes (e : ext) (names : list string) (x : list N * N) : Prop := forall n, In n names -> reference e n (fst x) (snd x) <> None.

Lemma named_step e grow a0 m0 names p s t : ext_ok e -> incl names safe_names -> stilln a0 m0 names s -> Forall (top_ok a0 m0) p -> Forall (naming names) p ->
  Forall (takes e names) (asked m0 p) -> viewedn e grow names m0 p s t ->
  exists s' t', tstep e grow s t = Ok (s', t') /\ stilln a0 m0 names s' /\ viewedn e grow names m0 p s' t' /\
    (mem (vars s') = mem (vars s) \/ exists a o bs, In (TWrite a o bs) p /\ mem (vars s') = store (mem (vars s)) a o bs).
Proof.
  intros He Hn [Hin Hst] Hok Hpl Hsome (m & dn & pend & [V1 V2 V3 V4 V5 Vd V6]). unfold tstep.
  destruct t as [pr rn rs]. cbn [prog run results] in *.
  destruct rn as [[cs r]|].
  - destruct V6 as [(n & k & seed & Nn & Ik & -> & ->)|(-> & h & x & -> & -> & U)].
    + assert (Hk : hop_ok a0 m0 (Call "" k seed)) by (rewrite Forall_forall in Hok; exact (Hok _ Ik)).
      destruct Hk as ((W1 & W2 & W3) & _ & Lk & Hs).
      assert (Er : read (mem (vars s)) k = read m k) by (apply read_array; eapply V3; [exact Ik|reflexivity]).
      assert (W : wf (mem (vars s)) k) by (repeat split; rewrite ?(st_alen _ _ _ _ Hst), ?(st_len _ _ _ _ Hst); assumption).
      destruct (reference e n (read m k) seed) as [h|] eqn:Eh.
      2:{ exfalso. rewrite V5 in Hsome. apply Forall_app in Hsome. destruct Hsome as [_ H]. cbn [app] in H. rewrite Forall_cons_iff in H. destruct H as [H _]. exact (H n Nn Eh). }
      pose proof Eh as Eh'. rewrite <- Er in Eh'.
      destruct (safe_value e grow n k seed s h He (st_ok _ _ _ _ Hst) W Lk Hs (Hn _ Nn) Eh') as (c & Ec & Hc).
      rewrite Ec. rewrite (Hc s eq_refl r). cbn [rbind]. do 2 eexists. split; [reflexivity|]. split; [now constructor|]. split; [|now left].
      exists m, dn, [(read m k, seed)]. constructor; cbn [prog run results]; try assumption.
      right. split; [reflexivity|]. exists h, (read m k, seed). split; [reflexivity|]. split; [reflexivity|]. now exists n.
    + do 2 eexists. split; [reflexivity|]. split; [now constructor|]. split; [|now left].
      exists m, (dn ++ [x]), []. constructor; cbn [prog run results]; try assumption; try reflexivity.
      * rewrite V5, <- app_assoc. reflexivity.
      * apply Forall2_app; [exact Vd|]. constructor; [exact U|constructor].
  - subst pend. destruct pr as [|x pr].
    + do 2 eexists. split; [reflexivity|]. split; [now constructor|]. split; [|now left]. exists m, dn, []. now constructor.
    + assert (Hx : In x p) by (apply V4; now left). assert (Hi : incl pr p) by (intros y Hy; apply V4; now right).
      assert (Px : naming names x) by (rewrite Forall_forall in Hpl; now apply Hpl).
      assert (Ox : top_ok a0 m0 x) by (rewrite Forall_forall in Hok; now apply Hok).
      destruct x as [| |n|a o bs|k seed]; try contradiction.
      * do 2 eexists. split; [reflexivity|]. split; [constructor; [exact Px|exact (still_name _ _ _ n s Hst)]|]. split; [|now left].
        exists m, dn, []. now constructor.
      * do 2 eexists. split; [reflexivity|]. split; [constructor; [exact Hin|now apply still_set_mem]|]. split; [|right; exists a, o, bs; split; [exact Hx|reflexivity]].
        destruct Ox as (Hf & Ha & Hl & Hb). destruct Hst as [S1 S2 S3 S4 S5].
        exists (store m a o bs), dn, []. constructor; cbn [prog run results vars set_vars mem withMem]; try assumption; try reflexivity.
        -- now rewrite store_length.
        -- intros b. rewrite store_array_length; [apply V2|lia|now rewrite V2].
        -- intros b y Hy Hu. destruct (Nat.eq_dec b a) as [->|Hne].
           ++ rewrite !array_store_same by lia. now rewrite (V3 a _ Hx eq_refl).
           ++ rewrite !array_store_other by assumption. eapply V3; eassumption.
      * do 2 eexists. split; [reflexivity|]. split; [now constructor|]. split; [|now left].
        exists m, dn, [(read m k, seed)]. constructor; cbn [prog run results]; try assumption.
        left. exists (hf2 s), k, seed. split; [exact Hin|]. split; [exact Hx|]. unfold whole.
        destruct (hashf_code e grow (hf2 s) k seed). split; reflexivity.
Qed.
Definition all_viewedn e grow names m0 ps s ts :=
  length ts = length ps /\ forall i p t, nth_error ps i = Some p -> nth_error ts i = Some t -> viewedn e grow names m0 p s t.
Lemma named_run e grow a0 m0 names ps sched : ext_ok e -> incl names safe_names -> private ps ->
  Forall (Forall (top_ok a0 m0)) ps -> Forall (Forall (naming names)) ps -> Forall (fun p => Forall (takes e names) (asked m0 p)) ps ->
  forall s ts, stilln a0 m0 names s -> all_viewedn e grow names m0 ps s ts ->
  exists s' ts', conc_run e grow sched s ts = Ok (s', ts') /\ stilln a0 m0 names s' /\ all_viewedn e grow names m0 ps s' ts'.
Proof.
  intros He Hn Hp Hok Hpl Hsome. induction sched as [|i sched IH]; intros s ts Hst [Hlen Hv]; cbn [conc_run].
  { exists s, ts. split; [reflexivity|]. split; [exact Hst|]. now split. }
  destruct (nth_error ts i) as [t|] eqn:Et; [|apply IH; [assumption|now split]].
  destruct (nth_error ps i) as [p|] eqn:Ep.
  2:{ apply nth_error_None in Ep. assert (i < length ts)%nat by (apply nth_error_Some; congruence). lia. }
  pose proof (nth_error_In _ _ Ep) as Ip. rewrite Forall_forall in Hok, Hpl, Hsome.
  destruct (named_step e grow a0 m0 names p s t He Hn Hst (Hok _ Ip) (Hpl _ Ip) (Hsome _ Ip) (Hv i p t Ep Et)) as (s' & t' & E & Hst' & Hv' & Hch).
  rewrite E. cbn [rbind]. rewrite <- Forall_forall in Hok, Hpl, Hsome. apply IH; [exact Hst'|]. split; [now rewrite upd_length|].
  intros j q u Eq Eu. apply nth_error_upd in Eu. destruct Eu as [(-> & -> & _)|(Hne & Eu)].
  - assert (q = p) as -> by congruence. exact Hv'.
  - destruct (Hv j q u Eq Eu) as (m & dn & pend & [V1 V2 V3 V4 V5 Vd V6]). exists m, dn, pend. constructor; try assumption.
    intros b x Hx Hu. destruct Hch as [->|(a & o & bs & Hin & ->)]; [now apply (V3 b x)|].
    rewrite array_store_other; [eapply V3; eassumption|].
    intros ->. exact (Hp i j p q a o bs x (not_eq_sym Hne) Ep Eq Hin Hx Hu).
Qed.
(** Two goroutines that each set Hf2 and call: both set it before either calls. *)
Lemma renamed e grow n w n0 n1 k0 seed0 k1 seed1 h0 h1 : ext_ok e -> world_ok w -> key_ok w k0 seed0 -> key_ok w k1 seed1 -> counter n1 = false ->
  reference e n1 (read (mem w) k0) seed0 = Some h0 -> reference e n1 (read (mem w) k1) seed1 = Some h1 ->
  exists a b s, conc_run e grow ([0; 1] ++ repeat 0 a ++ repeat 1 b)%nat (conc_start n w) (threads [[TName n0; THash k0 seed0]; [TName n1; THash k1 seed1]]) =
    Ok (s, [mkThread [] None [h0]; mkThread [] None [h1]]).
Proof.
  intros He Hw K0 K1 C R0 R1. set (s := set_hf2 (set_hf2 (conc_start n w) n0) n1).
  destruct (call_ok e grow s n1 k0 seed0 h0 He Hw K0 C R0) as (sA & rA & EA & WA & KA & HA & NA & _).
  rewrite <- (keeps_read w (vars sA) k1 KA (ko_wf _ _ _ K1) (ko_apart _ _ _ K1)) in R1.
  destruct (call_ok e grow sA n1 k1 seed1 h1 He WA (keeps_key _ _ _ _ KA K1) C R1) as (sB & rB & EB & WB & KB & HB & NB & _).
  exists (S (length (whole (hashf_code e grow n1 k0 seed0)) + 1)), (S (length (whole (hashf_code e grow n1 k1 seed1)) + 1)), sB.
  cbn [app conc_run threads map nth_error tstep run prog results rbind upd]. fold s. cbn [repeat]. rewrite !repeat_app.
  cbn [app conc_run nth_error tstep run prog results rbind upd]. change (hf2 s) with n1.
  unfold whole in *. destruct (hashf_code e grow n1 k0 seed0) as [c1 c2]. cbn [fst snd] in *. rewrite <- app_assoc, conc_run_app.
  rewrite (drive e grow 0 [] [] (c1 ++ c2) [] s [] [mkThread [] (Some (c1 ++ c2, [])) []; mkThread [THash k1 seed1] None []] sA rA); [|now rewrite app_nil_r|exact EA].
  cbn [rbind upd repeat app conc_run nth_error tstep run prog results]. rewrite NA. change (hf2 s) with n1.
  destruct (hashf_code e grow n1 k1 seed1) as [d1 d2]. cbn [fst snd] in *. rewrite conc_run_app.
  rewrite (drive e grow 1 [] [] (d1 ++ d2) [] sA [] [mkThread [] None [reg 0 rA]; mkThread [] (Some (d1 ++ d2, [])) []] sB rB); [|now rewrite app_nil_r|exact EB].
  cbn [rbind upd repeat app conc_run nth_error tstep run prog results]. now rewrite HA, HB.
Qed.
