(** Goroutines without a mutex that all call siphash64pg with one seed. *)
From Coq Require Import NArith ZArith List Arith Lia String.
From Verif Require Import Words WordLemmas ListLemmas Mem KeccakModel KeccakProofs3 Mm3Model HashfModel HashfSpec HashfProofs ConcModel ConcSpec ConcProofs ConcProofs2.
From Verif Require SipModel SipSpec SipProps.
Import ListNotations.
Open Scope N_scope.

Local Opaque SipSpec.sip_spec SipModel.pg_siphash.
Definition sip : string := "siphash64pg"%string.
Definition of_seed (seed : N) (o : top) : Prop := match o with THash _ s => s = seed | _ => True end.
Definition low (seed : N) (s : shared) : Prop := firstn 8 (seeds (vars s)) = firstn 8 (sipSeedSet seed).
Definition full (seed : N) (s : shared) : Prop := seeds (vars s) = sipSeedSet seed.
Definition up (seed : N) (s s' : shared) : Prop := (low seed s -> low seed s') /\ (full seed s -> full seed s').
Lemma full_low seed s : full seed s -> low seed s.
Proof. unfold full, low. now intros ->. Qed.
Definition c_low (seed : N) : step := assign (fun s r => set_vars s (set_seeds (vars s) (firstn 8 (sipSeedSet seed) ++ skipn 8 (seeds (vars s))))).
Definition c_high : step := assign (fun s r => set_vars s (set_seeds (vars s) (firstn 8 (seeds (vars s)) ++ firstn 8 (seeds (vars s))))).
Definition c_sum (k : slice) : step := look (fun s _ => match SipModel.pg_siphash (read (mem (vars s)) k) (seeds (vars s)) 2 4 false with
                        | Some (h, _) => Ok [h] | None => Panics end).
Lemma sip_code e grow k seed : whole (hashf_code e grow sip k seed) = [c_low seed; c_high; c_sum k].
Proof. reflexivity. Qed.
Definition sip_hash (seed : N) (kb : list N) : N := SipSpec.sip_spec 2 4 seed seed kb.
Lemma sip_reference e kb seed : reference e sip kb seed = Some (sip_hash seed kb).
Proof. unfold reference, sip, sip_hash. cbn [assoc table String.eqb Ascii.eqb Bool.eqb]. reflexivity. Qed.
Lemma c_sum_value s k seed r : full seed s -> heap_ok (mem (vars s)) -> wf (mem (vars s)) k -> N.of_nat (len k) < 2 ^ 64 -> seed < 2 ^ 64 ->
  c_sum k s r = Ok (s, [sip_hash seed (read (mem (vars s)) k)]).
Proof.
  intros F Hm Hk Hl Hs. destruct (sipSeedSet_ok seed Hs) as (Q1 & Q2 & Q3). unfold c_sum, look. rewrite F.
  assert (Hb : bytes_ok (read (mem (vars s)) k)) by now apply read_ok.
  rewrite (proj1 (SipProps.c13_pg_agrees _ (sipSeedSet seed) Q1 Hb)), Q2, Q3.
  rewrite (proj1 (SipProps.c51_is_siphash_2_4 seed seed _ Hb)). cbn [rbind]. unfold sip_hash. reflexivity.
Qed.

Record sipview (seed : N) (e : ext) (m0 : heap) (p : list top) (s : shared) (t : thread) (m : heap) (pend : list (option N)) : Prop := {
  y_len : length m = length m0;
  y_alen : forall a, length (array m a) = length (array m0 a);
  y_same : forall a x, In x p -> uses x a -> array (mem (vars s)) a = array m a;
  y_prog : incl (prog t) p;
  y_hashes : hashes e sip m0 p = map Some (results t) ++ pend ++ hashes e sip m (prog t);
  y_run : match run t with
          | None => pend = []
          | Some (cs, r) =>
            (exists k, In (THash k seed) p /\ pend = [Some (sip_hash seed (read m k))] /\
               (cs = [c_low seed; c_high; c_sum k] \/ (cs = [c_high; c_sum k] /\ low seed s) \/ (cs = [c_sum k] /\ full seed s))) \/
            (cs = [] /\ exists h, r = [h] /\ pend = [Some h])
          end }.
Definition sipviewed seed e m0 p s t := exists m pend, sipview seed e m0 p s t m pend.
Lemma sipview_up seed e m0 p s s' t m pend : up seed s s' -> mem (vars s') = mem (vars s) -> sipview seed e m0 p s t m pend -> sipview seed e m0 p s' t m pend.
Proof.
  intros [U1 U2] Em [Y1 Y2 Y3 Y4 Y5 Y6]. constructor; try assumption; [now rewrite Em|].
  destruct (run t) as [[cs r]|]; [|exact Y6]. destruct Y6 as [(k & H1 & H2 & H3)|H]; [left; exists k|now right].
  split; [exact H1|]. split; [exact H2|]. destruct H3 as [H|[[H L]|[H L]]]; auto 6.
Qed.
Lemma up_refl seed s : up seed s s. Proof. split; auto. Qed.
Lemma still_seeds a0 m0 name s x : still a0 m0 name s -> still a0 m0 name (set_vars s (set_seeds (vars s) x)).
Proof. intros [S1 S2 S3 S4 S5]. constructor; try assumption. cbn [vars set_vars]. destruct S2. now constructor. Qed.

Lemma sip_step seed e grow a0 m0 p s t : seed < 2 ^ 64 -> still a0 m0 sip s -> Forall (top_ok a0 m0) p -> Forall plain p -> Forall (of_seed seed) p ->
  sipviewed seed e m0 p s t ->
  exists s' t', tstep e grow s t = Ok (s', t') /\ still a0 m0 sip s' /\ sipviewed seed e m0 p s' t' /\ up seed s s' /\
    (mem (vars s') = mem (vars s) \/ exists a o bs, In (TWrite a o bs) p /\ s' = set_vars s (withMem (vars s) (store (mem (vars s)) a o bs))).
Proof.
  intros Hseed Hst Hok Hpl Hsd (m & pend & [V1 V2 V3 V4 V5 V6]). unfold tstep.
  destruct t as [pr rn rs]. cbn [prog run results] in *.
  destruct rn as [[cs r]|].
  - destruct V6 as [(k & Hin & -> & Hcs)|(-> & h & -> & ->)].
    + assert (Hk : hop_ok a0 m0 (Call "" k seed)) by (rewrite Forall_forall in Hok; exact (Hok _ Hin)).
      destruct Hk as ((W1 & W2 & W3) & _ & Lk & Hs).
      assert (Er : read (mem (vars s)) k = read m k) by (apply read_array; eapply V3; [exact Hin|reflexivity]).
      assert (W : wf (mem (vars s)) k) by (repeat split; rewrite ?(st_alen _ _ _ _ Hst), ?(st_len _ _ _ _ Hst); assumption).
      destruct Hcs as [->|[[-> Hl]|[-> Hf]]].
      * unfold c_low at 1, assign. cbn [rbind]. do 2 eexists. split; [reflexivity|]. split; [now apply still_seeds|].
        assert (Lw : low seed (set_vars s (set_seeds (vars s) (firstn 8 (sipSeedSet seed) ++ skipn 8 (seeds (vars s)))))) by reflexivity.
        split; [|split; [split; [intros _; exact Lw|]|now left]].
        -- exists m, [Some (sip_hash seed (read m k))]. constructor; cbn [prog run results vars set_vars mem set_seeds]; try assumption.
           left. exists k. split; [exact Hin|]. split; [reflexivity|]. right. left. split; [reflexivity|exact Lw].
        -- unfold full. cbn [vars set_vars seeds set_seeds]. intros ->. reflexivity.
      * unfold c_high at 1, assign. cbn [rbind]. do 2 eexists. split; [reflexivity|]. split; [now apply still_seeds|].
        assert (Lf : full seed (set_vars s (set_seeds (vars s) (firstn 8 (seeds (vars s)) ++ firstn 8 (seeds (vars s)))))).
        { unfold full. cbn [vars set_vars seeds set_seeds]. unfold low in Hl. rewrite Hl. reflexivity. }
        split; [|split; [split; intros _; [now apply full_low|exact Lf]|now left]].
        exists m, [Some (sip_hash seed (read m k))]. constructor; cbn [prog run results vars set_vars mem set_seeds]; try assumption.
        left. exists k. split; [exact Hin|]. split; [reflexivity|]. right. right. split; [reflexivity|exact Lf].
      * rewrite (c_sum_value s k seed r Hf (o_mem _ (st_ok _ _ _ _ Hst)) W Lk Hseed). cbn [rbind]. do 2 eexists. split; [reflexivity|].
        split; [exact Hst|]. split; [|split; [apply up_refl|now left]]. rewrite Er.
        exists m, [Some (sip_hash seed (read m k))]. constructor; cbn [prog run results]; try assumption.
        right. split; [reflexivity|]. eexists. split; reflexivity.
    + do 2 eexists. split; [reflexivity|]. split; [exact Hst|]. split; [|split; [apply up_refl|now left]].
      exists m, []. constructor; cbn [prog run results]; try assumption; try reflexivity.
      rewrite V5, map_app, <- app_assoc. reflexivity.
  - subst pend. destruct pr as [|x pr].
    + do 2 eexists. split; [reflexivity|]. split; [exact Hst|]. split; [|split; [apply up_refl|now left]]. exists m, []. now constructor.
    + assert (Hx : In x p) by (apply V4; now left). assert (Hi : incl pr p) by (intros y Hy; apply V4; now right).
      assert (Px : plain x) by (rewrite Forall_forall in Hpl; now apply Hpl).
      assert (Ox : top_ok a0 m0 x) by (rewrite Forall_forall in Hok; now apply Hok).
      assert (Sx : of_seed seed x) by (rewrite Forall_forall in Hsd; now apply Hsd).
      destruct x as [| | |a o bs|k sd]; try contradiction.
      * do 2 eexists. split; [reflexivity|]. split; [now apply still_set_mem|]. split; [|split; [split; intros X; exact X|right; exists a, o, bs; split; [exact Hx|reflexivity]]].
        destruct Ox as (Hf & Ha & Hl & Hb). destruct Hst as [S1 S2 S3 S4 S5].
        exists (store m a o bs), []. constructor; cbn [prog run results vars set_vars mem withMem]; try assumption; try reflexivity.
        -- now rewrite store_length.
        -- intros b. rewrite store_array_length; [apply V2|lia|now rewrite V2].
        -- intros b y Hy Hu. destruct (Nat.eq_dec b a) as [->|Hne].
           ++ rewrite !array_store_same by lia. now rewrite (V3 a _ Hx eq_refl).
           ++ rewrite !array_store_other by assumption. eapply V3; eassumption.
      * cbn [of_seed] in Sx. subst sd. rewrite (st_name _ _ _ _ Hst).
        pose proof (sip_code e grow k seed) as C. unfold whole in C. destruct (hashf_code e grow sip k seed) as [c1 c2]. cbn [fst snd] in C.
        do 2 eexists. split; [reflexivity|]. split; [exact Hst|]. split; [|split; [apply up_refl|now left]].
        exists m, [Some (sip_hash seed (read m k))]. constructor; cbn [prog run results]; try assumption.
        left. exists k. split; [exact Hx|]. split; [reflexivity|]. left. exact C.
Qed.
Definition all_sip seed e m0 ps s ts :=
  length ts = length ps /\ forall i p t, nth_error ps i = Some p -> nth_error ts i = Some t -> sipviewed seed e m0 p s t.
Lemma sip_run seed e grow a0 m0 ps sched : seed < 2 ^ 64 -> private ps ->
  Forall (Forall (top_ok a0 m0)) ps -> Forall (Forall plain) ps -> Forall (Forall (of_seed seed)) ps ->
  forall s ts, still a0 m0 sip s -> all_sip seed e m0 ps s ts ->
  exists s' ts', conc_run e grow sched s ts = Ok (s', ts') /\ still a0 m0 sip s' /\ all_sip seed e m0 ps s' ts'.
Proof.
  intros Hs Hp Hok Hpl Hsd. induction sched as [|i sched IH]; intros s ts Hst [Hlen Hv]; cbn [conc_run]; [eexists; eexists; repeat split; try apply Hst; assumption|].
  destruct (nth_error ts i) as [t|] eqn:Et; [|apply IH; [assumption|now split]].
  destruct (nth_error ps i) as [p|] eqn:Ep.
  2:{ apply nth_error_None in Ep. assert (i < length ts)%nat by (apply nth_error_Some; congruence). lia. }
  pose proof (nth_error_In _ _ Ep) as Ip. rewrite Forall_forall in Hok, Hpl, Hsd.
  destruct (sip_step seed e grow a0 m0 p s t Hs Hst (Hok _ Ip) (Hpl _ Ip) (Hsd _ Ip) (Hv i p t Ep Et)) as (s' & t' & E & Hst' & Hv' & Hup & Hch).
  rewrite E. cbn [rbind]. rewrite <- Forall_forall in Hok, Hpl, Hsd. apply IH; [exact Hst'|]. split; [now rewrite upd_length|].
  intros j q u Eq Eu. apply nth_error_upd in Eu. destruct Eu as [(-> & -> & _)|(Hne & Eu)].
  - assert (q = p) as -> by congruence. exact Hv'.
  - destruct (Hv j q u Eq Eu) as (m & pend & V). exists m, pend. destruct Hch as [Em|(a & o & bs & Hin & ->)]; [now apply (sipview_up seed e m0 q s)|].
    destruct V as [V1 V2 V3 V4 V5 V6]. constructor; try assumption.
    intros b x Hx Hu. cbn [vars set_vars mem withMem]. rewrite array_store_other; [eapply V3; eassumption|].
    intros ->. exact (Hp i j p q a o bs x (not_eq_sym Hne) Ep Eq Hin Hx Hu).
Qed.
Lemma start_sip seed e m0 ps s : mem (vars s) = m0 -> all_sip seed e m0 ps s (threads ps).
Proof.
  intros E. split; [unfold threads; apply map_length|]. intros i p t Ep Et. unfold threads in Et. rewrite nth_error_map, Ep in Et. injection Et as <-.
  exists m0, []. constructor; cbn [prog run results]; auto using incl_refl. intros a x _ _. now rewrite E.
Qed.
