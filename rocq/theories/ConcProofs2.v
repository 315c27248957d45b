(** Goroutines without a mutex: safe names, and how the others fail. *)
From Coq Require Import NArith ZArith List Arith Lia String.
From Verif Require Import Words WordLemmas ListLemmas Mem KeccakModel KeccakProofs3 Mm3Model HashfModel HashfSpec HashfProofs ConcModel ConcSpec ConcProofs.
From Verif Require HashfProps.
From Verif Require GomapModel SmallModel JenkinsModel SpookyModel FarmModel MetroModel SipModel.
Import ListNotations.
Open Scope N_scope.

Lemma in_names {P : string -> Prop} l : Forall P l -> forall n, In n l -> P n.
Proof. intros H n. now apply Forall_forall. Qed.
Lemma safe_local e grow name k seed : In name safe_names -> exists f, hashf_code e grow name k seed = local k f.
Proof.
  apply (@in_names (fun n => exists f, hashf_code e grow n k seed = local k f)). unfold safe_names.
  repeat (constructor; [eexists; reflexivity|]). constructor.
Qed.
Lemma safe_counter name : In name safe_names -> counter name = false.
Proof. apply (@in_names (fun n => counter n = false)). repeat (constructor; [reflexivity|]). constructor. Qed.
Lemma safe_value e grow name k seed s h : ext_ok e -> world_ok (vars s) -> wf (mem (vars s)) k -> N.of_nat (len k) < 2 ^ 64 -> seed < 2 ^ 64 ->
  In name safe_names -> reference e name (read (mem (vars s)) k) seed = Some h ->
  exists c, whole (hashf_code e grow name k seed) = [c] /\
    forall s', read (mem (vars s')) k = read (mem (vars s)) k -> forall r, c s' r = Ok (s', [h]).
Proof.
  intros He Hw Hk Hl Hs Hn Hr. pose proof (straight e grow s name k seed) as St.
  destruct (safe_local e grow name k seed Hn) as [f Ef]. rewrite Ef in St |- *. rewrite local_straight in St.
  pose proof (Hashf_right e grow (vars s) name k seed He Hw Hk Hl Hs (safe_counter name Hn)) as R. unfold right in R. rewrite Hr in R.
  destruct R as (w' & E & _). rewrite E in St. unfold pure, told in St. destruct (f (read (mem (vars s)) k)) as [x| | |] eqn:Ex; try discriminate.
  cbn [rbind] in St. assert (x = h) as -> by congruence.
  eexists. split; [reflexivity|]. intros s' Er r. unfold compute. now rewrite Er, Ex.
Qed.

(** ** Safe names *)
Record still (a0 : nat) (m0 : heap) (name : string) (s : shared) : Prop := {
  st_name : hf2 s = name;
  st_ok : world_ok (vars s);
  st_fps : map arr (fps (vars s)) = [a0; a0 + 1; a0 + 2; a0 + 3; a0 + 4]%nat;
  st_len : length (mem (vars s)) = length m0;
  st_alen : forall a, length (array (mem (vars s)) a) = length (array m0 a) }.
Record view (e : ext) (grow : nat -> nat -> nat) (name : string) (m0 : heap) (p : list top) (s : shared) (t : thread) (m : heap) (pend : list (option N)) : Prop := {
  v_len : length m = length m0;
  v_alen : forall a, length (array m a) = length (array m0 a);
  v_same : forall a x, In x p -> uses x a -> array (mem (vars s)) a = array m a;
  v_prog : incl (prog t) p;
  v_hashes : hashes e name m0 p = map Some (results t) ++ pend ++ hashes e name m (prog t);
  v_run : match run t with
          | None => pend = []
          | Some (cs, r) => (exists k seed, In (THash k seed) p /\ cs = whole (hashf_code e grow name k seed) /\ pend = [reference e name (read m k) seed]) \/
                            (cs = [] /\ exists h, r = [h] /\ pend = [Some h])
          end }.
Definition viewed e grow name m0 p s t := exists m pend, view e grow name m0 p s t m pend.
Lemma read_array m m' k : array m (arr k) = array m' (arr k) -> read m k = read m' k.
Proof. intros E. unfold read. now rewrite E. Qed.
Lemma array_far m a : (length m <= a)%nat -> array m a = [].
Proof. intros H. unfold array. now apply nth_overflow. Qed.
Lemma still_set_mem a0 m0 name s a o bs : still a0 m0 name s -> hop_ok a0 m0 (Assign a o bs) ->
  still a0 m0 name (set_vars s (withMem (vars s) (store (mem (vars s)) a o bs))).
Proof.
  intros [S1 S2 S3 S4 S5] (Hf & Ha & Hl & Hb). constructor; cbn [hf2 vars set_vars mem withMem]; try assumption.
  - apply withMem_ok; [exact S2|apply store_ok; [apply S2|exact Hb]|now rewrite store_length|].
    intros b _. apply store_array_length; [lia|now rewrite S5].
  - now rewrite store_length.
  - intros b. rewrite store_array_length; [apply S5|lia|now rewrite S5].
Qed.

Lemma safe_step e grow a0 m0 name p s t : ext_ok e -> In name safe_names -> still a0 m0 name s -> Forall (top_ok a0 m0) p -> Forall plain p ->
  Forall (fun x => x <> None) (hashes e name m0 p) -> viewed e grow name m0 p s t ->
  exists s' t', tstep e grow s t = Ok (s', t') /\ still a0 m0 name s' /\ viewed e grow name m0 p s' t' /\
    (s' = s \/ exists a o bs, In (TWrite a o bs) p /\ s' = set_vars s (withMem (vars s) (store (mem (vars s)) a o bs))).
Proof.
  intros He Hn Hst Hok Hpl Hsome (m & pend & [V1 V2 V3 V4 V5 V6]). unfold tstep.
  destruct t as [pr rn rs]. cbn [prog run results] in *.
  destruct rn as [[cs r]|].
  - destruct V6 as [(k & seed & Hin & -> & ->)|(-> & h & -> & ->)].
    + assert (Hk : hop_ok a0 m0 (Call "" k seed)) by (rewrite Forall_forall in Hok; exact (Hok _ Hin)).
      destruct Hk as ((W1 & W2 & W3) & _ & Lk & Hs).
      assert (Er : read (mem (vars s)) k = read m k) by (apply read_array; eapply V3; [exact Hin|reflexivity]).
      assert (W : wf (mem (vars s)) k) by (repeat split; rewrite ?(st_alen _ _ _ _ Hst), ?(st_len _ _ _ _ Hst); assumption).
      destruct (reference e name (read m k) seed) as [h|] eqn:Eh.
      2:{ rewrite V5 in Hsome. apply Forall_app in Hsome. destruct Hsome as [_ H]. cbn [app] in H. rewrite Forall_cons_iff in H. now destruct H as [H _]. }
      rewrite <- Er in Eh.
      destruct (safe_value e grow name k seed s h He (st_ok _ _ _ _ Hst) W Lk Hs Hn Eh) as (c & Ec & Hc).
      rewrite Ec. rewrite (Hc s eq_refl r). cbn [rbind]. do 2 eexists. split; [reflexivity|]. split; [exact Hst|]. split; [|now left].
      exists m, [Some h]. constructor; cbn [prog run results]; try assumption.
      right. split; [reflexivity|]. exists h. split; reflexivity.
    + do 2 eexists. split; [reflexivity|]. split; [exact Hst|]. split; [|now left].
      exists m, []. constructor; cbn [prog run results]; try assumption; try reflexivity.
      rewrite V5, map_app, <- app_assoc. reflexivity.
  - subst pend. destruct pr as [|x pr].
    + do 2 eexists. split; [reflexivity|]. split; [exact Hst|]. split; [|now left]. exists m, []. now constructor.
    + assert (Hx : In x p) by (apply V4; now left). assert (Hi : incl pr p) by (intros y Hy; apply V4; now right).
      assert (Px : plain x) by (rewrite Forall_forall in Hpl; now apply Hpl).
      assert (Ox : top_ok a0 m0 x) by (rewrite Forall_forall in Hok; now apply Hok).
      destruct x as [| | |a o bs|k seed]; try contradiction.
      * do 2 eexists. split; [reflexivity|]. split; [now apply still_set_mem|]. split; [|right; exists a, o, bs; split; [exact Hx|reflexivity]].
        destruct Ox as (Hf & Ha & Hl & Hb). destruct Hst as [S1 S2 S3 S4 S5].
        exists (store m a o bs), []. constructor; cbn [prog run results vars set_vars mem withMem]; try assumption; try reflexivity.
        -- now rewrite store_length.
        -- intros b. rewrite store_array_length; [apply V2|lia|now rewrite V2].
        -- intros b y Hy Hu. destruct (Nat.eq_dec b a) as [->|Hne].
           ++ rewrite !array_store_same by lia. now rewrite (V3 a _ Hx eq_refl).
           ++ rewrite !array_store_other by assumption. eapply V3; eassumption.
      * do 2 eexists. split; [reflexivity|]. split; [exact Hst|]. split; [|now left].
        exists m, [reference e name (read m k) seed]. constructor; cbn [prog run results]; try assumption.
        left. exists k, seed. split; [exact Hx|]. rewrite (st_name _ _ _ _ Hst). unfold whole.
        destruct (hashf_code e grow name k seed). split; reflexivity.
Qed.
Lemma nth_error_upd {A} (l : list A) i j x y : nth_error (upd l i x) j = Some y -> (j = i /\ y = x /\ (i < length l)%nat) \/ (j <> i /\ nth_error l j = Some y).
Proof.
  revert i j; induction l as [|z l IH]; intros [|i] [|j] H; cbn in *; try discriminate; auto.
  - injection H as <-. left. repeat split. lia.
  - destruct (IH _ _ H) as [(-> & -> & L)|(N & E)]; [left; repeat split; lia|right; split; [lia|exact E]].
Qed.
Definition all_viewed e grow name m0 ps s ts :=
  length ts = length ps /\ forall i p t, nth_error ps i = Some p -> nth_error ts i = Some t -> viewed e grow name m0 p s t.
Lemma safe_run e grow a0 m0 name ps sched : ext_ok e -> In name safe_names -> private ps ->
  Forall (Forall (top_ok a0 m0)) ps -> Forall (Forall plain) ps -> Forall (fun p => Forall (fun x => x <> None) (hashes e name m0 p)) ps ->
  forall s ts, still a0 m0 name s -> all_viewed e grow name m0 ps s ts ->
  exists s' ts', conc_run e grow sched s ts = Ok (s', ts') /\ still a0 m0 name s' /\ all_viewed e grow name m0 ps s' ts'.
Proof.
  intros He Hn Hp Hok Hpl Hsome. induction sched as [|i sched IH]; intros s ts Hst [Hlen Hv]; cbn [conc_run]; [eexists; eexists; repeat split; try apply Hst; assumption|].
  destruct (nth_error ts i) as [t|] eqn:Et; [|apply IH; [assumption|now split]].
  destruct (nth_error ps i) as [p|] eqn:Ep.
  2:{ apply nth_error_None in Ep. assert (i < length ts)%nat by (apply nth_error_Some; congruence). lia. }
  pose proof (nth_error_In _ _ Ep) as Ip. rewrite Forall_forall in Hok, Hpl, Hsome.
  destruct (safe_step e grow a0 m0 name p s t He Hn Hst (Hok _ Ip) (Hpl _ Ip) (Hsome _ Ip) (Hv i p t Ep Et)) as (s' & t' & E & Hst' & Hv' & Hch).
  rewrite E. cbn [rbind]. rewrite <- Forall_forall in Hok, Hpl, Hsome. apply IH; [exact Hst'|]. split; [now rewrite upd_length|].
  intros j q u Eq Eu. apply nth_error_upd in Eu. destruct Eu as [(-> & -> & _)|(Hne & Eu)].
  - assert (q = p) as -> by congruence. exact Hv'.
  - destruct Hch as [->|(a & o & bs & Hin & ->)]; [now apply (Hv j)|].
    destruct (Hv j q u Eq Eu) as (m & pend & [V1 V2 V3 V4 V5 V6]). exists m, pend. constructor; try assumption.
    intros b x Hx Hu. cbn [vars set_vars mem withMem]. rewrite array_store_other; [eapply V3; eassumption|].
    intros ->. exact (Hp i j p q a o bs x (not_eq_sym Hne) Ep Eq Hin Hx Hu).
Qed.

(** ** One goroutine moves several steps *)
Lemma conc_run_app e grow a b s ts : conc_run e grow (a ++ b) s ts = ('(s, ts) <~ conc_run e grow a s ts ;; conc_run e grow b s ts).
Proof.
  revert s ts; induction a as [|i a IH]; intros s ts; [reflexivity|]. cbn [conc_run app]. destruct (nth_error ts i) as [t|]; [|apply IH].
  destruct (tstep e grow s t) as [[s' t']| | |]; cbn [rbind]; auto.
Qed.
Lemma nth_error_upd_same {A} (l : list A) i x : (i < length l)%nat -> nth_error (upd l i x) i = Some x.
Proof. revert i; induction l; intros [|i] H; cbn in *; try lia; auto. apply IHl. lia. Qed.
Lemma upd_id {A} (l : list A) i x : nth_error l i = Some x -> upd l i x = l.
Proof. revert i; induction l; intros [|i] H; cbn in *; try discriminate; [congruence|]. now rewrite IHl. Qed.
Lemma drive e grow i p rs cs : forall cs' s r ts s' r', nth_error ts i = Some (mkThread p (Some (cs ++ cs', r)) rs) -> exec cs s r = Ok (s', r') ->
  conc_run e grow (repeat i (length cs)) s ts = Ok (s', upd ts i (mkThread p (Some (cs', r')) rs)).
Proof.
  induction cs as [|c cs IH]; intros cs' s r ts s' r' En Ee; cbn [exec app length repeat conc_run] in *.
  - injection Ee as <- <-. now rewrite upd_id.
  - rewrite En. unfold tstep. cbn [run prog results]. destruct (c s r) as [[s1 r1]| | |]; cbn [rbind] in *; try discriminate.
    assert (L : (i < length ts)%nat) by (apply nth_error_Some; congruence).
    rewrite (IH cs' s1 r1 _ s' r'); [now rewrite upd_upd| |exact Ee]. now apply nth_error_upd_same.
Qed.

(** ** The other names *)
Lemma unsafe_counter name : In name unsafe_names -> counter name = false.
Proof. apply (@in_names (fun n => counter n = false)). repeat (constructor; [reflexivity|]). constructor. Qed.
Lemma unsafe_reads e grow name k seed k' seed' : In name unsafe_names ->
  snd (hashf_code e grow name k seed) = snd (hashf_code e grow name k' seed') /\
  (forall s r r', exec (snd (hashf_code e grow name k seed)) s r = exec (snd (hashf_code e grow name k seed)) s r') /\
  (forall s r s' r', exec (snd (hashf_code e grow name k seed)) s r = Ok (s', r') -> s' = s).
Proof.
  revert name. apply (@in_names (fun name => snd (hashf_code e grow name k seed) = snd (hashf_code e grow name k' seed') /\
  (forall s r r', exec (snd (hashf_code e grow name k seed)) s r = exec (snd (hashf_code e grow name k seed)) s r') /\
  (forall s r s' r', exec (snd (hashf_code e grow name k seed)) s r = Ok (s', r') -> s' = s))).
  assert (B : forall get : world -> slice, let c := [look (fun s _ => h <~ be8 (read (mem (vars s)) (get (vars s))) ;; Ok [h])] in
    (forall s r r', exec c s r = exec c s r') /\ (forall s r s' r', exec c s r = Ok (s', r') -> s' = s)).
  { intros get c. split; [reflexivity|]. intros s r s' r'. unfold c, look. cbn [exec]. destruct (be8 _); cbn [rbind]; congruence. }
  unfold unsafe_names. repeat constructor; try (intros s r s' r' H; injection H; congruence); try apply (B fp8); try apply (B fp20); try apply (B fp28); try apply (B fp32); try apply (B fp64).
Qed.
Lemma straight_ok e grow s name k seed w h : Hashf e grow (vars s) name k seed = Ok (w, h) ->
  exists s' r, exec (whole (hashf_code e grow name k seed)) s [] = Ok (s', r) /\ vars s' = w /\ reg 0 r = h /\ hf2 s' = hf2 s /\ lock s' = lock s.
Proof.
  intros E. pose proof (straight e grow s name k seed) as St. rewrite E in St. unfold seen, told in St.
  destruct (exec _ _ _) as [[s' r]| | |]; try discriminate. cbn [rbind] in St. exists s', r. split; [reflexivity|].
  repeat split; congruence.
Qed.
(** Keys of other arrays are not changed by calls. *)
Definition apart (w : world) (k : slice) : Prop := cap k = 0%nat \/ ~ In (arr k) (map arr (fps w)).
Lemma keeps_wf w w' k : keeps w w' -> wf (mem w) k -> wf (mem w') k.
Proof. intros [(L & _ & A) _ _ _] (W1 & W2 & W3). repeat split; rewrite ?A, ?L; assumption. Qed.
Lemma keeps_read w w' k : keeps w w' -> wf (mem w) k -> apart w k -> read (mem w') k = read (mem w) k.
Proof.
  intros K W [H|H].
  - unfold read. destruct W as (W1 & _). replace (len k) with 0%nat by lia. reflexivity.
  - destruct K as [(_ & S & _) _ _ _]. apply read_array. now apply S.
Qed.
Lemma keeps_apart w w' k : keeps w w' -> apart w k -> apart w' k.
Proof. intros K [H|H]; [now left|right]. now rewrite (kp_fps _ _ K). Qed.
Record key_ok (w : world) (k : slice) (seed : N) : Prop := {
  ko_wf : wf (mem w) k; ko_apart : apart w k; ko_len : N.of_nat (len k) < 2 ^ 64; ko_seed : seed < 2 ^ 64 }.
Lemma keeps_key w w' k seed : keeps w w' -> key_ok w k seed -> key_ok w' k seed.
Proof. intros K [H1 H2 H3 H4]. constructor; [now apply (keeps_wf w)|now apply (keeps_apart w)|assumption..]. Qed.
Lemma call_ok e grow s name k seed h : ext_ok e -> world_ok (vars s) -> key_ok (vars s) k seed -> counter name = false ->
  reference e name (read (mem (vars s)) k) seed = Some h ->
  exists s' r, exec (whole (hashf_code e grow name k seed)) s [] = Ok (s', r) /\ world_ok (vars s') /\ keeps (vars s) (vars s') /\ reg 0 r = h /\ hf2 s' = hf2 s /\ lock s' = lock s.
Proof.
  intros He Hw [H1 H2 H3 H4] Hc Hr. pose proof (Hashf_right e grow (vars s) name k seed He Hw H1 H3 H4 Hc) as R. unfold right in R. rewrite Hr in R.
  destruct R as (w' & E & Hw' & K). destruct (straight_ok e grow s name k seed w' h E) as (s' & r & Ee & <- & Er & Eh & El).
  exists s', r. auto 10.
Qed.
Lemma exec_split c1 c2 s r s' r' : exec (c1 ++ c2) s r = Ok (s', r') -> (forall s r s' r', exec c2 s r = Ok (s', r') -> s' = s) ->
  exists r1, exec c1 s r = Ok (s', r1) /\ exec c2 s' r1 = Ok (s', r').
Proof.
  rewrite exec_app. intros H Ro. destruct (exec c1 s r) as [[s1 r1]| | |]; try discriminate. cbn [rbind] in H.
  pose proof (Ro _ _ _ _ H) as ->. exists r1. split; [reflexivity|exact H].
Qed.
(** Goroutine 0 stops before it reads, goroutine 1 makes its call, goroutine 0 goes on. *)
Definition overtake (e : ext) (grow : nat -> nat -> nat) (name : string) (k0 : slice) (seed0 : N) (k1 : slice) (seed1 : N) : list nat :=
  let c0 := hashf_code e grow name k0 seed0 in let c1 := hashf_code e grow name k1 seed1 in
  0%nat :: repeat 0%nat (length (fst c0)) ++ 1%nat :: repeat 1%nat (length (whole c1)) ++ 1%nat :: repeat 0%nat (length (snd c0)) ++ [0%nat].
Lemma overtaken e grow name k0 seed0 k1 seed1 s sA rA sB rB sC rC :
  hf2 s = name -> hf2 sA = name ->
  exec (fst (hashf_code e grow name k0 seed0)) s [] = Ok (sA, rA) ->
  exec (whole (hashf_code e grow name k1 seed1)) sA [] = Ok (sB, rB) ->
  exec (snd (hashf_code e grow name k0 seed0)) sB rA = Ok (sC, rC) ->
  conc_run e grow (overtake e grow name k0 seed0 k1 seed1) s (threads [[THash k0 seed0]; [THash k1 seed1]]) =
    Ok (sC, [mkThread [] None [reg 0 rC]; mkThread [] None [reg 0 rB]]).
Proof.
  intros Hn HnA E1 E2 E3. unfold overtake. cbv zeta. cbn [conc_run threads map nth_error]. unfold tstep at 1. cbn [run prog results]. rewrite Hn.
  destruct (hashf_code e grow name k0 seed0) as [c1 c2]. cbn [fst snd rbind upd] in *.
  rewrite conc_run_app. rewrite (drive e grow 0 [] [] c1 c2 s [] [mkThread [] (Some (c1 ++ c2, [])) []; mkThread [THash k1 seed1] None []] sA rA eq_refl E1). cbn [rbind upd conc_run nth_error].
  unfold tstep at 1. cbn [run prog results]. rewrite HnA. unfold whole in *.
  destruct (hashf_code e grow name k1 seed1) as [d1 d2]. cbn [fst snd rbind upd] in *.
  rewrite conc_run_app. rewrite (drive e grow 1 [] [] (d1 ++ d2) [] sA [] [mkThread [] (Some (c2, rA)) []; mkThread [] (Some (d1 ++ d2, [])) []] sB rB); [|now rewrite app_nil_r|exact E2].
  cbn [rbind upd conc_run nth_error]. unfold tstep at 1. cbn [run prog results rbind upd app].
  rewrite conc_run_app. rewrite (drive e grow 0 [] [] c2 [] sB rA [mkThread [] (Some (c2, rA)) []; mkThread [] None [reg 0 rB]] sC rC); [|now rewrite app_nil_r|exact E3].
  cbn [rbind upd conc_run nth_error tstep run prog results app]. reflexivity.
Qed.
Lemma swap e grow name w k0 seed0 k1 seed1 h0 h1 : ext_ok e -> world_ok w -> key_ok w k0 seed0 -> key_ok w k1 seed1 -> In name unsafe_names ->
  reference e name (read (mem w) k0) seed0 = Some h0 -> reference e name (read (mem w) k1) seed1 = Some h1 ->
  exists s, conc_run e grow (overtake e grow name k0 seed0 k1 seed1) (conc_start name w) (threads [[THash k0 seed0]; [THash k1 seed1]]) =
    Ok (s, [mkThread [] None [h1]; mkThread [] None [h1]]).
Proof.
  intros He Hw K0 K1 Hn R0 R1. set (s := conc_start name w).
  destruct (call_ok e grow s name k0 seed0 h0 He Hw K0 (unsafe_counter _ Hn) R0) as (sA & rA & EA & WA & KA & _ & NA & _).
  assert (K1' : key_ok (vars sA) k1 seed1) by (eapply keeps_key; eassumption).
  rewrite <- (keeps_read w (vars sA) k1 KA (ko_wf _ _ _ K1) (ko_apart _ _ _ K1)) in R1.
  destruct (call_ok e grow sA name k1 seed1 h1 He WA K1' (unsafe_counter _ Hn) R1) as (sB & rB & EB & WB & KB & HB & NB & _).
  destruct (unsafe_reads e grow name k0 seed0 k1 seed1 Hn) as (Esnd & Blind & Ro0).
  destruct (unsafe_reads e grow name k1 seed1 k1 seed1 Hn) as (_ & _ & Ro1).
  unfold whole in EA, EB. destruct (exec_split _ _ _ _ _ _ EA Ro0) as (ra & EA1 & _).
  destruct (exec_split _ _ _ _ _ _ EB Ro1) as (rb & EB1 & EB2).
  exists sB. rewrite (overtaken e grow name k0 seed0 k1 seed1 s sA ra sB rB sB rB eq_refl NA EA1 EB).
  - now rewrite HB.
  - rewrite (Blind _ ra rb), Esnd. exact EB2.
Qed.
Lemma sip_swap e grow w k0 seed0 k1 seed1 : ext_ok e -> world_ok w -> key_ok w k0 seed0 -> key_ok w k1 seed1 ->
  exists s h h', reference e "siphash64pg" (read (mem w) k0) seed1 = Some h /\ reference e "siphash64pg" (read (mem w) k1) seed1 = Some h' /\
    conc_run e grow (overtake e grow "siphash64pg" k0 seed0 k1 seed1) (conc_start "siphash64pg" w) (threads [[THash k0 seed0]; [THash k1 seed1]]) =
    Ok (s, [mkThread [] None [h]; mkThread [] None [h']]).
Proof.
  intros He Hw K0 K1. set (s := conc_start "siphash64pg" w).
  assert (R0 : exists h, reference e "siphash64pg" (read (mem w) k0) seed1 = Some h) by (eexists; reflexivity). destruct R0 as [h R0].
  assert (R1 : exists h, reference e "siphash64pg" (read (mem w) k1) seed1 = Some h) by (eexists; reflexivity). destruct R1 as [h' R1].
  set (sA := set_vars s (set_seeds w (sipSeedSet seed0))).
  assert (KA : keeps w (vars sA)) by (apply keeps_refl; reflexivity).
  assert (EA : exec (fst (hashf_code e grow "siphash64pg" k0 seed0)) s [] = Ok (sA, [])).
  { cbn [hashf_code String.eqb Ascii.eqb Bool.eqb fst exec]. unfold assign. cbn [rbind vars set_vars s conc_start seeds set_seeds]. rewrite sip_seeds. reflexivity. }
  assert (WA : world_ok (vars sA)) by (destruct Hw; now constructor).
  assert (K0' : key_ok (vars sA) k0 seed1) by (constructor; [apply K0|apply K0|apply K0|apply K1]).
  assert (K1' : key_ok (vars sA) k1 seed1) by (eapply keeps_key; eassumption).
  destruct (call_ok e grow sA "siphash64pg" k1 seed1 h' He WA K1' eq_refl R1) as (sB & rB & EB & _ & _ & HB & _ & _).
  destruct (call_ok e grow sA "siphash64pg" k0 seed1 h He WA K0' eq_refl R0) as (sC & rC & EC & _ & _ & HC & _ & _).
  assert (Ro : forall k seed s r s' r', exec (snd (hashf_code e grow "siphash64pg" k seed)) s r = Ok (s', r') -> s' = s).
  { intros k seed s1 r s' r'. cbn [hashf_code String.eqb Ascii.eqb Bool.eqb snd exec]. unfold look. destruct (SipModel.pg_siphash _ _ _ _ _) as [[x y]|]; cbn [rbind]; congruence. }
  destruct (exec_split _ _ _ _ _ _ EB (Ro _ _)) as (rb & EB1 & EB2).
  destruct (exec_split _ _ _ _ _ _ EC (Ro _ _)) as (rc & EC1 & EC2).
  assert (sC = sB /\ rc = rb) as [-> ->] by (split; [assert (X : Ok (sC, rc) = Ok (sB, rb)) by (rewrite <- EC1, <- EB1; reflexivity); congruence|assert (X : Ok (sC, rc) = Ok (sB, rb)) by (rewrite <- EC1, <- EB1; reflexivity); congruence]).
  exists sB, h, h'. split; [exact R0|]. split; [exact R1|].
  assert (rb = []) as ->.
  { revert EB1. cbn [hashf_code String.eqb Ascii.eqb Bool.eqb fst exec]. unfold assign. cbn [rbind]. congruence. }
  rewrite (overtaken e grow "siphash64pg" k0 seed0 k1 seed1 s sA [] sB rB sB rC eq_refl eq_refl EA EB EC2).
  now rewrite HB, HC.
Qed.

(** ** Half of one result, half of another *)
Definition tear : list nat := [0; 0; 1; 1; 0; 0; 1; 0; 0; 0; 1; 1; 1; 1]%nat.
Lemma conc_run_cons e grow i sched s ts t s' t' : nth_error ts i = Some t -> tstep e grow s t = Ok (s', t') ->
  conc_run e grow (i :: sched) s ts = conc_run e grow sched s' (upd ts i t').
Proof. intros E F. cbn [conc_run]. now rewrite E, F. Qed.
Ltac turn tac := erewrite conc_run_cons; [|reflexivity|unfold tstep; cbn [run prog results]; tac; reflexivity]; cbn [upd].
Lemma torn_tl e grow name w k0 seed0 k1 seed1 f0 f1 x0 y0 x1 y1 :
  hashf_code e grow name k0 seed0 = via_tl k0 f0 -> hashf_code e grow name k1 seed1 = via_tl k1 f1 ->
  f0 (read (mem w) k0) = Ok (x0, y0) -> f1 (read (mem w) k1) = Ok (x1, y1) ->
  exists s, conc_run e grow tear (conc_start name w) (threads [[THash k0 seed0]; [THash k1 seed1]]) =
    Ok (s, [mkThread [] None [xor x1 y0]; mkThread [] None [xor x1 y1]]).
Proof.
  intros E0 E1 F0 F1. eexists. unfold tear, threads. cbn [map].
  turn ltac:(cbn [hf2 conc_start]; rewrite E0; cbn [via_tl app]). turn ltac:(unfold compute; cbn [vars conc_start]; rewrite F0; cbn [rbind]).
  turn ltac:(cbn [hf2 conc_start]; rewrite E1; cbn [via_tl app]). turn ltac:(unfold compute; cbn [vars conc_start]; rewrite F1; cbn [rbind]).
  do 10 turn idtac. reflexivity.
Qed.
Lemma torn_j364 e grow w k0 seed0 k1 seed1 c0 b0 c1 b1 :
  JenkinsModel.jenkins364 (read (mem w) k0) (Z.of_nat (len k0)) (wrap 32 seed0) (wrap 32 seed0) = Ok (c0, b0) ->
  JenkinsModel.jenkins364 (read (mem w) k1) (Z.of_nat (len k1)) (wrap 32 seed1) (wrap 32 seed1) = Ok (c1, b1) ->
  exists s, conc_run e grow tear (conc_start "j364" w) (threads [[THash k0 seed0]; [THash k1 seed1]]) =
    Ok (s, [mkThread [] None [N.lor (shl64 b0 32) c1]; mkThread [] None [N.lor (shl64 b1 32) c1]]).
Proof.
  intros F0 F1. eexists. unfold tear, threads. cbn [map].
  turn ltac:(cbn [hf2 conc_start hashf_code String.eqb Ascii.eqb Bool.eqb app]). turn ltac:(unfold compute; cbn [vars conc_start]; rewrite F0; cbn [rbind]).
  turn ltac:(cbn [hf2 conc_start hashf_code String.eqb Ascii.eqb Bool.eqb app]). turn ltac:(unfold compute; cbn [vars conc_start]; rewrite F1; cbn [rbind]).
  do 10 turn idtac. reflexivity.
Qed.
Lemma drive_panics e grow i p rs cs : forall s r ts, nth_error ts i = Some (mkThread p (Some (cs, r)) rs) -> exec cs s r = Panics ->
  conc_run e grow (repeat i (length cs)) s ts = Panics.
Proof.
  induction cs as [|c cs IH]; intros s r ts En Ee; cbn [exec length repeat conc_run] in *; [discriminate|].
  rewrite En. unfold tstep. cbn [run prog results]. destruct (c s r) as [[s1 r1]| | |]; cbn [rbind] in *; try discriminate; [|reflexivity].
  assert (L : (i < length ts)%nat) by (apply nth_error_Some; congruence).
  apply (IH s1 r1); [now apply nth_error_upd_same|exact Ee].
Qed.
