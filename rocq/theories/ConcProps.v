(** Hashf called from several goroutines. *)
From Coq Require Import NArith ZArith List Arith Lia String.
From Verif Require Import Words WordLemmas ListLemmas Mem KeccakModel HashfModel HashfSpec HashfProofs ConcModel ConcSpec ConcProofs ConcProofs2 ConcProofs3 ConcProofs4 ConcProofs5 ConcProofs6.
From Verif Require HashfProps JenkinsModel.
Import ListNotations.
Open Scope N_scope.

(** C110.  Every name of the dispatcher is in one of the two lists, or is "siphash64pg"; the two
    counting names are apart. *)
Theorem c110_names e name : In name (map fst (table e)) <-> In name safe_names \/ In name unsafe_names \/ name = "siphash64pg"%string.
Proof.
  split; intros H.
  - assert (A : forallb (fun n => existsb (String.eqb n) (safe_names ++ unsafe_names ++ ["siphash64pg"%string])) (map fst (table e)) = true) by reflexivity.
    rewrite forallb_forall in A. specialize (A _ H). apply existsb_exists in A. destruct A as (x & Hx & Ex). apply String.eqb_eq in Ex. subst x.
    apply in_app_iff in Hx. destruct Hx as [Hx|Hx]; [auto|]. apply in_app_iff in Hx. destruct Hx as [Hx|[<-|[]]]; auto.
  - assert (B : forallb (fun n => existsb (String.eqb n) (map fst (table e))) (safe_names ++ unsafe_names ++ ["siphash64pg"%string]) = true) by reflexivity.
    rewrite forallb_forall in B. assert (Hi : In name (safe_names ++ unsafe_names ++ ["siphash64pg"%string])).
    { rewrite !in_app_iff. cbn [In]. destruct H as [H|[H|H]]; auto. }
    specialize (B _ Hi). apply existsb_exists in B. destruct B as (x & Hx & Ex). apply String.eqb_eq in Ex. now subst x.
Qed.
Print Assumptions c110_names.

(** A goroutine that is not interrupted gets from a call what Hashf, as one function, gives. *)
Theorem c110_alone e grow w name k seed :
  (forall w' h, Hashf e grow w name k seed = Ok (w', h) ->
     exists n s, conc_run e grow (repeat 0%nat n) (conc_start name w) (threads [[THash k seed]]) = Ok (s, [mkThread [] None [h]]) /\ vars s = w') /\
  (Hashf e grow w name k seed = Panics ->
     exists n, conc_run e grow (repeat 0%nat n) (conc_start name w) (threads [[THash k seed]]) = Panics).
Proof.
  set (s := conc_start name w). set (c := whole (hashf_code e grow name k seed)).
  assert (Start : forall n, conc_run e grow (repeat 0%nat (S n)) s (threads [[THash k seed]]) = conc_run e grow (repeat 0%nat n) s [mkThread [] (Some (c, [])) []]).
  { intros n. cbn [repeat]. erewrite conc_run_cons; [|reflexivity|reflexivity]. unfold c, whole, s. cbn [hf2 conc_start upd threads map results].
    destruct (hashf_code e grow name k seed). reflexivity. }
  split.
  - intros w' h E. destruct (straight_ok e grow s name k seed w' h E) as (s' & r & Ee & Ev & Er & _). fold c in Ee.
    exists (S (length c + 1)), s'. split; [|exact Ev]. rewrite Start, repeat_app, conc_run_app.
    rewrite (drive e grow 0 [] [] c [] s [] [mkThread [] (Some (c, [])) []] s' r); [|now rewrite app_nil_r|exact Ee].
    cbn [rbind upd repeat conc_run nth_error tstep run prog results app]. now rewrite Er.
  - intros E. exists (S (length c)). rewrite Start. apply (drive_panics e grow 0 [] [] c s []); [reflexivity|].
    pose proof (straight e grow s name k seed) as St. cbn [vars s conc_start] in St. rewrite E in St. fold c in St. unfold seen in St. cbn [told rbind] in St.
    destruct (exec c s []) as [[s' r]| | |]; try discriminate; reflexivity.
Qed.
Print Assumptions c110_alone.

(** Other packages, for the examples: digests that depend on the first byte. *)
Definition toy2 : ext :=
  let d n k := repeat (hd 0 k mod 256) n in
  mkExt (fun k s => hd 0 k + s) (fun x s => x + s) (fun k => hd 0 k) (d 20%nat) (d 64%nat) (d 32%nat) (d 28%nat).
Lemma toy2_ok : ext_ok toy2.
Proof.
  assert (B : forall n (k : list N), bytes_ok (repeat (hd 0 k mod 256) n)).
  { intros n k. apply Forall_forall. intros x Hx. apply repeat_spec in Hx. subst. apply N.mod_lt. discriminate. }
  constructor; intros k _; (split; [apply repeat_length|apply B]).
Qed.
Definition mem2 : heap := [[1; 2; 3; 4; 5; 6; 7; 8; 9]; [200; 100; 50; 25; 12; 6; 3; 1]].
Lemma mem2_ok : Forall bytes_ok mem2.
Proof. repeat constructor. Qed.
Definition key0 := mkSlice 0 0 9 9.
Definition key1 := mkSlice 1 0 8 8.
Lemma keys_ok : hop_ok 2 (mem (init mem2)) (Call "" key0 5) /\ hop_ok 2 (mem (init mem2)) (Call "" key1 7).
Proof.
  split; (split; [repeat split; cbn; lia|]); (split; [right; left; cbn; lia|]); split; reflexivity.
Qed.
Example c110_alone_nonvacuous : exists w' h, Hashf toy2 (fun _ n => n) (init mem2) "keccakpg643" key1 7 = Ok (w', h) /\
  Hashf toy2 (fun _ n => n) (init mem2) "skein256" key1 7 = Panics.
Proof. do 2 eexists. split; vm_compute; reflexivity. Qed.

Lemma start_still m name : Forall bytes_ok m -> still (length m) (mem (init m)) name (conc_start name (init m)).
Proof.
  intros H. destruct (init_inv m H) as [O F L S A _ _]. constructor; cbn [hf2 vars conc_start]; auto.
Qed.
Lemma start_viewed e grow name m0 ps s : mem (vars s) = m0 -> all_viewed e grow name m0 ps s (threads ps).
Proof.
  intros E. split; [unfold threads; apply map_length|]. intros i p t Ep Et. unfold threads in Et. rewrite nth_error_map, Ep in Et. injection Et as <-.
  exists m0, []. constructor; cbn [prog run results]; auto using incl_refl. intros a x _ _. now rewrite E.
Qed.
Lemma viewed_results e grow name m0 p s t : viewed e grow name m0 p s t ->
  exists rest, hashes e name m0 p = map Some (results t) ++ rest /\ (finished t -> rest = []).
Proof.
  intros (m & pend & [V1 V2 V3 V4 V5 V6]). exists (pend ++ hashes e name m (prog t)). split; [exact V5|].
  intros [F1 F2]. rewrite F2 in V6. subst pend. now rewrite F1.
Qed.
(** With a safe name any number of goroutines may call Hashf at once, in any order of steps, each
    writing its own arrays in between: no call panics, and each goroutine gets the hashes of its
    own keys, as if it were alone. *)
Theorem c110_safe e grow m name ps sched : ext_ok e -> Forall bytes_ok m -> In name safe_names -> private ps ->
  Forall (fun p => Forall plain p /\ Forall (top_ok (length m) (mem (init m))) p /\ Forall (fun h => h <> None) (hashes e name (mem (init m)) p)) ps ->
  exists s ts, conc_run e grow sched (conc_start name (init m)) (threads ps) = Ok (s, ts) /\ length ts = length ps /\
    forall i p t, nth_error ps i = Some p -> nth_error ts i = Some t ->
      exists rest, hashes e name (mem (init m)) p = map Some (results t) ++ rest /\ (finished t -> rest = []).
Proof.
  intros He Hm Hn Hp Hps.
  destruct (safe_run e grow (length m) (mem (init m)) name ps sched He Hn Hp) with (s := conc_start name (init m)) (ts := threads ps) as (s & ts & E & _ & [Hl Hv]).
  - eapply Forall_impl; [|exact Hps]. intros p H. apply H.
  - eapply Forall_impl; [|exact Hps]. intros p H. apply H.
  - eapply Forall_impl; [|exact Hps]. intros p H. apply H.
  - now apply start_still.
  - now apply start_viewed.
  - exists s, ts. split; [exact E|]. split; [exact Hl|]. intros i p t Ep Et. eapply viewed_results. now apply (Hv i p t).
Qed.
Print Assumptions c110_safe.

(** And from every state that is reached all goroutines can be brought to their end: none waits. *)
Theorem c110_safe_ends e grow m name ps sched : ext_ok e -> Forall bytes_ok m -> In name safe_names -> private ps ->
  Forall (fun p => Forall plain p /\ Forall (top_ok (length m) (mem (init m))) p /\ Forall (fun h => h <> None) (hashes e name (mem (init m)) p)) ps ->
  exists sched' s ts, conc_run e grow (sched ++ sched') (conc_start name (init m)) (threads ps) = Ok (s, ts) /\ Forall finished ts /\
    map (fun t => map Some (results t)) ts = map (hashes e name (mem (init m))) ps.
Proof.
  intros He Hm Hn Hp Hps. set (m0 := mem (init m)) in *.
  assert (H1 : Forall (Forall (top_ok (length m) m0)) ps) by (eapply Forall_impl; [|exact Hps]; intros p H; apply H).
  assert (H2 : Forall (Forall plain) ps) by (eapply Forall_impl; [|exact Hps]; intros p H; apply H).
  assert (H3 : Forall (fun p => Forall (fun x => x <> None) (hashes e name m0 p)) ps) by (eapply Forall_impl; [|exact Hps]; intros p H; apply H).
  pose proof (fun sc => safe_run e grow (length m) m0 name ps sc He Hn Hp H1 H2 H3) as Run.
  destruct (Run sched (conc_start name (init m)) (threads ps) (start_still m name Hm) (start_viewed e grow name m0 ps (conc_start name (init m)) eq_refl)) as (s & ts & E & Hst & Hv).
  destruct (finish e grow (fun s ts => still (length m) m0 name s /\ all_viewed e grow name m0 ps s ts)) with (s := s) (ts := ts) as (sched' & s' & ts' & E' & [_ [Hl Hv']] & F).
  - clear - Run. intros s ts i t [Hst Hv] Et. destruct (Run [i] s ts Hst Hv) as (s' & ts' & E & Hst' & Hv'). cbn [conc_run] in E. rewrite Et in E.
    destruct (tstep e grow s t) as [[s1 t1]| | |]; try discriminate. cbn [rbind] in E. injection E as <- <-. do 2 eexists. split; [reflexivity|]. split; assumption.
  - clear - H2. intros s ts [_ [Hl Hv]]. destruct (unfinished ts) as [F|(i & t & Et & F)]; [now left|right]. exists i, t. split; [exact Et|]. split; [exact F|].
    intros (_ & _ & q & Eq). destruct (nth_error ps i) as [p|] eqn:Ep.
    2:{ apply nth_error_None in Ep. assert (i < length ts)%nat by (apply nth_error_Some; congruence). lia. }
    destruct (Hv i p t Ep Et) as (m' & pend & [_ _ _ V4 _ _]). rewrite Forall_forall in H2. pose proof (H2 p (nth_error_In _ _ Ep)) as Pl. rewrite Forall_forall in Pl.
    apply (Pl TLock). apply V4. rewrite Eq. now left.
  - split; assumption.
  - exists sched', s', ts'. rewrite conc_run_app, E. split; [exact E'|]. split; [exact F|].
    apply nth_error_ext. intros i. rewrite !nth_error_map. destruct (nth_error ts' i) as [t|] eqn:Et; destruct (nth_error ps i) as [p|] eqn:Ep; cbn [option_map].
    + destruct (viewed_results _ _ _ _ _ _ _ (Hv' i p t Ep Et)) as (rest & Eh & Er). rewrite Forall_forall in F.
      rewrite (Er (F t (nth_error_In _ _ Et))), app_nil_r in Eh. now rewrite Eh.
    + apply nth_error_None in Ep. assert (i < length ts')%nat by (apply nth_error_Some; congruence). lia.
    + apply nth_error_None in Et. assert (i < length ps)%nat by (apply nth_error_Some; congruence). lia.
    + reflexivity.
Qed.
Print Assumptions c110_safe_ends.

(** Three goroutines, one of them changing its key between calls. *)
Definition three : list (list top) :=
  [[THash key0 5; TWrite 0 2 [77]; THash key0 5]; [THash key1 7; THash (mkSlice 1 2 4 6) 7]; [THash key1 9]].
Example c110_safe_nonvacuous : private three /\
  Forall (fun p => Forall plain p /\ Forall (top_ok 2 (mem (init mem2))) p /\ Forall (fun h => h <> None) (hashes toy2 "j264" (mem (init mem2)) p)) three /\
  exists s ts, conc_run toy2 (fun _ n => n) [0; 1; 2; 0; 0; 0; 1; 2; 0; 1; 2; 0; 0; 1; 1; 1; 1]%nat (conc_start "j264" (init mem2)) (threads three) = Ok (s, ts) /\
    Forall finished ts /\ map (fun t => map Some (results t)) ts = map (hashes toy2 "j264" (mem (init mem2))) three.
Proof.
  split; [|split].
  - intros i j p q a o bs x Hij Ep Eq Hin Hx Hu.
    destruct i as [|[|[|[|i]]]]; cbn in Ep; try discriminate; injection Ep as <-; cbn in Hin; repeat (destruct Hin as [Hin|Hin]; [try discriminate|]); try contradiction.
    injection Hin as <- <- <-. destruct j as [|[|[|[|j]]]]; cbn in Eq; try discriminate; try congruence; injection Eq as <-;
      cbn in Hx; repeat (destruct Hx as [Hx|Hx]; [subst x; discriminate Hu|]); contradiction.
  - assert (Nn : forall kb seed, reference toy2 "j264" kb seed <> None) by (intros kb seed X; discriminate X).
    assert (K : forall k seed, (arr k < 2)%nat -> slice_in (mem (init mem2)) k -> N.of_nat (len k) < 2 ^ 64 -> seed < 2 ^ 64 -> top_ok 2 (mem (init mem2)) (THash k seed))
      by (intros k seed Ha Hk Hl Hs; split; [exact Hk|]; split; [right; left; exact Ha|]; split; assumption).
    assert (K0 : forall seed, seed < 2 ^ 64 -> top_ok 2 (mem (init mem2)) (THash key0 seed)) by (intros seed Hs; apply K; [cbn; lia|repeat split; cbn; lia|reflexivity|exact Hs]).
    assert (K1 : forall seed, seed < 2 ^ 64 -> top_ok 2 (mem (init mem2)) (THash key1 seed)) by (intros seed Hs; apply K; [cbn; lia|repeat split; cbn; lia|reflexivity|exact Hs]).
    assert (K2 : top_ok 2 (mem (init mem2)) (THash (mkSlice 1 2 4 6) 7)) by (apply K; [cbn; lia|repeat split; cbn; lia|reflexivity|reflexivity]).
    assert (W : top_ok 2 (mem (init mem2)) (TWrite 0 2 [77])) by (repeat split; [left; cbn; lia|cbn; lia|cbn; lia|repeat constructor]).
    unfold three. apply Forall_cons; [|apply Forall_cons; [|apply Forall_cons; [|apply Forall_nil]]]; (split; [|split]); cbn [hashes];
      repeat (apply Forall_cons; [first [exact Logic.I|exact W|exact K2|apply Nn|apply K0; reflexivity|apply K1; reflexivity]|]); apply Forall_nil.
  - do 2 eexists. split; [vm_compute; reflexivity|]. split; [repeat constructor|vm_compute; reflexivity].
Qed.

(** With the other names a goroutine can get the hash of another goroutine's key. *)
Lemma hop_key m k seed : Forall bytes_ok m -> hop_ok (length m) (mem (init m)) (Call "" k seed) -> key_ok (init m) k seed.
Proof.
  intros Hm (W & Hf & Lk & Hs). destruct (init_inv m Hm) as [O F L S A _ _]. constructor; try assumption.
  destruct Hf as [Hf|Hf]; [now left|right]. rewrite F. now apply not_mine.
Qed.
Lemma unsafe_total e name k seed : In name unsafe_names -> exists h, reference e name k seed = Some h.
Proof.
  revert name. apply (@in_names (fun name => exists h, reference e name k seed = Some h)). unfold unsafe_names.
  repeat (constructor; [unfold reference; cbn [assoc table String.eqb Ascii.eqb Bool.eqb]; try (eexists; reflexivity)|]); [|constructor].
  destruct (JenkinsSpec.lookup3 _ _ _). eexists. reflexivity.
Qed.
Theorem c110_swap e grow m name k0 seed0 k1 seed1 : ext_ok e -> Forall bytes_ok m -> In name unsafe_names ->
  hop_ok (length m) (mem (init m)) (Call "" k0 seed0) -> hop_ok (length m) (mem (init m)) (Call "" k1 seed1) ->
  exists sched s h, reference e name (read (mem (init m)) k1) seed1 = Some h /\
    conc_run e grow sched (conc_start name (init m)) (threads [[THash k0 seed0]; [THash k1 seed1]]) =
      Ok (s, [mkThread [] None [h]; mkThread [] None [h]]).
Proof.
  intros He Hm Hn H0 H1. destruct (unsafe_total e name (read (mem (init m)) k0) seed0 Hn) as [h0 R0]. destruct (unsafe_total e name (read (mem (init m)) k1) seed1 Hn) as [h1 R1].
  destruct (swap e grow name (init m) k0 seed0 k1 seed1 h0 h1 He (init_ok m Hm) (hop_key m k0 seed0 Hm H0) (hop_key m k1 seed1 Hm H1) Hn R0 R1) as [s E].
  eexists. exists s, h1. split; [exact R1|exact E].
Qed.
Print Assumptions c110_swap.
Definition differ (name : string) : bool :=
  match reference toy2 name (read mem2 key0) 5, reference toy2 name (read mem2 key1) 7 with Some a, Some b => negb (a =? b) | _, _ => false end.
(** So no unsafe name is safe: for each there are keys and an order of steps with a wrong result. *)
Theorem c110_unsafe_refuted name : In name unsafe_names ->
  exists e m k0 seed0 k1 seed1 sched s h, ext_ok e /\ Forall bytes_ok m /\
    hop_ok (length m) (mem (init m)) (Call "" k0 seed0) /\ hop_ok (length m) (mem (init m)) (Call "" k1 seed1) /\
    conc_run e (fun _ n => n) sched (conc_start name (init m)) (threads [[THash k0 seed0]; [THash k1 seed1]]) = Ok (s, [mkThread [] None [h]; mkThread [] None [h]]) /\
    reference e name (read (mem (init m)) k0) seed0 <> Some h.
Proof.
  intros Hn. destruct keys_ok as [K0 K1].
  destruct (c110_swap toy2 (fun _ n => n) mem2 name key0 5 key1 7 toy2_ok mem2_ok Hn K0 K1) as (sched & s & h & R & E).
  exists toy2, mem2, key0, 5, key1, 7, sched, s, h. split; [exact toy2_ok|]. split; [exact mem2_ok|]. split; [exact K0|]. split; [exact K1|]. split; [exact E|].
  assert (D : forallb differ unsafe_names = true) by (vm_compute; reflexivity). rewrite forallb_forall in D. specialize (D _ Hn). unfold differ in D.
  change (read mem2 key0) with (read (mem (init mem2)) key0) in D. change (read mem2 key1) with (read (mem (init mem2)) key1) in D.
  rewrite R in D. destruct (reference toy2 name (read (mem (init mem2)) key0) 5) as [a|]; [|discriminate].
  intros X. injection X as ->. now rewrite N.eqb_refl in D.
Qed.
Print Assumptions c110_unsafe_refuted.
(** "siphash64pg": the hash of the own key, but with the other goroutine's seed. *)
Theorem c110_swap_seed e grow m k0 seed0 k1 seed1 : ext_ok e -> Forall bytes_ok m ->
  hop_ok (length m) (mem (init m)) (Call "" k0 seed0) -> hop_ok (length m) (mem (init m)) (Call "" k1 seed1) ->
  exists sched s h h', reference e "siphash64pg" (read (mem (init m)) k0) seed1 = Some h /\ reference e "siphash64pg" (read (mem (init m)) k1) seed1 = Some h' /\
    conc_run e grow sched (conc_start "siphash64pg" (init m)) (threads [[THash k0 seed0]; [THash k1 seed1]]) =
      Ok (s, [mkThread [] None [h]; mkThread [] None [h']]).
Proof.
  intros He Hm H0 H1.
  destruct (sip_swap e grow (init m) k0 seed0 k1 seed1 He (init_ok m Hm) (hop_key m k0 seed0 Hm H0) (hop_key m k1 seed1 Hm H1)) as (s & h & h' & E1 & E2 & E).
  exists (overtake e grow "siphash64pg" k0 seed0 k1 seed1), s, h, h'. auto.
Qed.
Print Assumptions c110_swap_seed.
Example c110_swap_seed_nonvacuous : reference toy2 "siphash64pg" (read (mem (init mem2)) key0) 5 <> reference toy2 "siphash64pg" (read (mem (init mem2)) key0) 7.
Proof. vm_compute. discriminate. Qed.

(** When all goroutines use one seed, siphash64pg may be used at once: they write the same bytes
    to the seeds of the package, and a goroutine that has written them finds them. *)
Theorem c110_one_seed e grow m seed ps sched : Forall bytes_ok m -> seed < 2 ^ 64 -> private ps ->
  Forall (fun p => Forall plain p /\ Forall (top_ok (length m) (mem (init m))) p /\
    forall k seed', In (THash k seed') p -> seed' = seed) ps ->
  exists s ts, conc_run e grow sched (conc_start "siphash64pg" (init m)) (threads ps) = Ok (s, ts) /\ length ts = length ps /\
    forall i p t, nth_error ps i = Some p -> nth_error ts i = Some t ->
      exists rest, hashes e "siphash64pg" (mem (init m)) p = map Some (results t) ++ rest /\ (finished t -> rest = []).
Proof.
  intros Hm Hs Hp Hps.
  destruct (sip_run seed e grow (length m) (mem (init m)) ps sched Hs Hp) with (s := conc_start "siphash64pg" (init m)) (ts := threads ps) as (s & ts & E & _ & [Hl Hv]).
  - eapply Forall_impl; [|exact Hps]. intros p H. apply H.
  - eapply Forall_impl; [|exact Hps]. intros p H. apply H.
  - eapply Forall_impl; [|exact Hps]. intros p (_ & _ & H). apply Forall_forall. intros [| | | |k sd] Hx; try exact Logic.I. exact (H _ _ Hx).
  - now apply start_still.
  - now apply start_sip.
  - exists s, ts. split; [exact E|]. split; [exact Hl|]. intros i p t Ep Et. destruct (Hv i p t Ep Et) as (m' & pend & [V1 V2 V3 V4 V5 V6]).
    exists (pend ++ hashes e "siphash64pg" m' (prog t)). split; [exact V5|]. intros [F1 F2]. rewrite F2 in V6. subst pend. now rewrite F1.
Qed.
Print Assumptions c110_one_seed.
(** Two goroutines with one seed, one of them changing its key; the other takes its first step last. *)
Definition same_seed : list (list top) := [[THash key0 5; TWrite 0 2 [77]; THash key0 5]; [THash key1 5]].
Example c110_one_seed_nonvacuous : private same_seed /\
  Forall (fun p => Forall plain p /\ Forall (top_ok 2 (mem (init mem2))) p /\ forall k seed', In (THash k seed') p -> seed' = 5) same_seed /\
  exists s ts, conc_run toy2 (fun _ n => n) [0; 1; 0; 0; 1; 0; 1; 0; 0; 0; 0; 1; 1; 0; 0; 0]%nat (conc_start "siphash64pg" (init mem2)) (threads same_seed) = Ok (s, ts) /\
    Forall finished ts /\ map (fun t => map Some (results t)) ts = map (hashes toy2 "siphash64pg" (mem (init mem2))) same_seed.
Proof.
  split; [|split].
  - intros i j p q a o bs x Hij Ep Eq Hin Hx Hu.
    destruct i as [|[|[|i]]]; cbn in Ep; try discriminate; injection Ep as <-; cbn in Hin; repeat (destruct Hin as [Hin|Hin]; [try discriminate|]); try contradiction.
    injection Hin as <- <- <-. destruct j as [|[|[|j]]]; cbn in Eq; try discriminate; try congruence; injection Eq as <-;
      cbn in Hx; repeat (destruct Hx as [Hx|Hx]; [subst x; discriminate Hu|]); contradiction.
  -
    assert (K0 : top_ok 2 (mem (init mem2)) (THash key0 5)) by (split; [repeat split; cbn; lia|]; split; [right; left; cbn; lia|]; split; reflexivity).
    assert (K1 : top_ok 2 (mem (init mem2)) (THash key1 5)) by (split; [repeat split; cbn; lia|]; split; [right; left; cbn; lia|]; split; reflexivity).
    assert (W : top_ok 2 (mem (init mem2)) (TWrite 0 2 [77])) by (repeat split; [left; cbn; lia|cbn; lia|cbn; lia|repeat constructor]).
    unfold same_seed. apply Forall_cons; [|apply Forall_cons; [|apply Forall_nil]]; (split; [|split]);
      try (repeat (apply Forall_cons; [first [exact Logic.I|exact W|exact K0|exact K1]|]); apply Forall_nil);
      intros k seed' Hin; cbn in Hin; repeat (destruct Hin as [Hin|Hin]; [try discriminate; now injection Hin as <- <-|]); contradiction.
  - do 2 eexists. split; [vm_compute; reflexivity|]. split; [repeat constructor|vm_compute; reflexivity].
Qed.

(** Not even the hash of some key: the names that combine two halves can combine halves of
    different keys. *)
Definition halves : list (string * string * string) := [
  ("spooky128xor", "spooky128h", "spooky128l"); ("FarmHash128-xor", "FarmHash128-high", "FarmHash128-low");
  ("MetroHash128-1xor", "MetroHash128-1h", "MetroHash128-1l"); ("MetroHash128-2xor", "MetroHash128-2h", "MetroHash128-2l")]%string.
Definition pair_of (name : string) (seed : N) : list N -> res (N * N) :=
  if (name =? "spooky128xor")%string then fun kb => SpookyModel.spooky_hash128 kb seed
  else if (name =? "FarmHash128-xor")%string then FarmModel.farm_hash128
  else if (name =? "MetroHash128-1xor")%string then fun kb => MetroModel.hash128_1 kb (wrap 32 seed)
  else fun kb => MetroModel.hash128_2 kb (wrap 32 seed).
Lemma halves_code e grow x hi lo w k seed : In (x, hi, lo) halves ->
  hashf_code e grow x k seed = via_tl k (pair_of x seed) /\ Hashf e grow w hi k seed = pure w (first (pair_of x seed (read (mem w) k))) /\
  Hashf e grow w lo k seed = pure w (second (pair_of x seed (read (mem w) k))) /\ counter hi = false /\ counter lo = false.
Proof. cbn [In halves]. intros [H|[H|[H|[H|[]]]]]; injection H as <- <- <-; repeat split. Qed.
Lemma halves_value e (grow : nat -> nat -> nat) x hi lo w k seed h l : ext_ok e -> world_ok w -> key_ok w k seed -> In (x, hi, lo) halves ->
  reference e hi (read (mem w) k) seed = Some h -> reference e lo (read (mem w) k) seed = Some l -> pair_of x seed (read (mem w) k) = Ok (h, l).
Proof.
  intros He Hw [K1 K2 K3 K4] Hx Hh Hl. destruct (halves_code e grow x hi lo w k seed Hx) as (_ & E1 & E2 & C1 & C2).
  pose proof (Hashf_right e grow w hi k seed He Hw K1 K3 K4 C1) as R1. pose proof (Hashf_right e grow w lo k seed He Hw K1 K3 K4 C2) as R2.
  unfold right in R1, R2. rewrite Hh in R1. rewrite Hl in R2. destruct R1 as (w1 & R1 & _). destruct R2 as (w2 & R2 & _). rewrite E1 in R1. rewrite E2 in R2.
  destruct (pair_of x seed (read (mem w) k)) as [[a b]| | |]; try discriminate. unfold pure, first, second in *. cbn [rbind] in *. congruence.
Qed.
Theorem c110_torn e grow m x hi lo k0 seed0 k1 seed1 h1 l0 h0 l1 : ext_ok e -> Forall bytes_ok m -> In (x, hi, lo) halves ->
  hop_ok (length m) (mem (init m)) (Call "" k0 seed0) -> hop_ok (length m) (mem (init m)) (Call "" k1 seed1) ->
  reference e hi (read (mem (init m)) k0) seed0 = Some h0 -> reference e lo (read (mem (init m)) k0) seed0 = Some l0 ->
  reference e hi (read (mem (init m)) k1) seed1 = Some h1 -> reference e lo (read (mem (init m)) k1) seed1 = Some l1 ->
  exists sched s, conc_run e grow sched (conc_start x (init m)) (threads [[THash k0 seed0]; [THash k1 seed1]]) =
    Ok (s, [mkThread [] None [N.lxor h1 l0]; mkThread [] None [N.lxor h1 l1]]).
Proof.
  intros He Hm Hx H0 H1 A0 B0 A1 B1. set (w := init m) in *.
  pose proof (halves_value e grow x hi lo w k0 seed0 h0 l0 He (init_ok m Hm) (hop_key m k0 seed0 Hm H0) Hx A0 B0) as P0.
  pose proof (halves_value e grow x hi lo w k1 seed1 h1 l1 He (init_ok m Hm) (hop_key m k1 seed1 Hm H1) Hx A1 B1) as P1.
  destruct (halves_code e grow x hi lo w k0 seed0 Hx) as (C0 & _). destruct (halves_code e grow x hi lo w k1 seed1 Hx) as (C1 & _).
  destruct (torn_tl e grow x w k0 seed0 k1 seed1 _ _ h0 l0 h1 l1 C0 C1 P0 P1) as [s E]. exists tear, s. exact E.
Qed.
Print Assumptions c110_torn.
(** The result is the hash of neither key. *)
Example c110_torn_nonvacuous : exists h1 l0, reference toy2 "MetroHash128-1h" (read (mem (init mem2)) key1) 7 = Some h1 /\
  reference toy2 "MetroHash128-1l" (read (mem (init mem2)) key0) 5 = Some l0 /\
  Some (N.lxor h1 l0) <> reference toy2 "MetroHash128-1xor" (read (mem (init mem2)) key0) 5 /\
  Some (N.lxor h1 l0) <> reference toy2 "MetroHash128-1xor" (read (mem (init mem2)) key1) 7.
Proof. do 2 eexists. split; [vm_compute; reflexivity|]. split; [vm_compute; reflexivity|]. split; vm_compute; discriminate. Qed.
Theorem c110_torn_j364 e grow m k0 seed0 k1 seed1 b0 c1 b1 : ext_ok e -> Forall bytes_ok m ->
  hop_ok (length m) (mem (init m)) (Call "" k0 seed0) -> hop_ok (length m) (mem (init m)) (Call "" k1 seed1) ->
  reference e "j332b" (read (mem (init m)) k0) seed0 = Some b0 ->
  reference e "j332c" (read (mem (init m)) k1) seed1 = Some c1 -> reference e "j332b" (read (mem (init m)) k1) seed1 = Some b1 ->
  exists sched s, conc_run e grow sched (conc_start "j364" (init m)) (threads [[THash k0 seed0]; [THash k1 seed1]]) =
    Ok (s, [mkThread [] None [b0 * 2 ^ 32 + c1]; mkThread [] None [b1 * 2 ^ 32 + c1]]).
Proof.
  intros He Hm H0 H1 B0 C1 B1. set (w := init m) in *.
  assert (P : forall k seed, hop_ok (length m) (mem w) (Call "" k seed) -> exists c b,
    JenkinsModel.jenkins364 (read (mem w) k) (Z.of_nat (len k)) (wrap 32 seed) (wrap 32 seed) = Ok (c, b) /\ b < 2 ^ 32 /\ c < 2 ^ 32 /\
    reference e "j332c" (read (mem w) k) seed = Some c /\ reference e "j332b" (read (mem w) k) seed = Some b).
  { intros k seed Hk. destruct (hop_key m k seed Hm Hk) as [K1 K2 K3 K4].
    pose proof (KeccakProofs3.read_ok (mem w) k (o_mem w (init_ok m Hm))) as Hb. pose proof (KeccakProofs3.read_length (mem w) k K1) as Lr.
    pose proof (proj1 (JenkinsProps.c55_lookup3_reference (read (mem w) k) (low32 seed) (low32 seed) Hb)) as L3.
    pose proof (JenkinsProofs6.lookup3_ok (read (mem w) k) (low32 seed) (low32 seed)) as [Rc Rb].
    unfold reference. cbn [assoc table String.eqb Ascii.eqb Bool.eqb]. rewrite !wrap_low32. rewrite <- Lr.
    destruct (JenkinsSpec.lookup3 _ _ _) as [c b]. exists c, b. auto. }
  destruct (P k0 seed0 H0) as (c0' & b0' & J0 & F0 & _ & _ & E0). destruct (P k1 seed1 H1) as (c1' & b1' & J1 & F1 & G1 & E1 & E1').
  assert (b0' = b0 /\ c1' = c1 /\ b1' = b1) as (-> & -> & ->) by (repeat split; congruence).
  destruct (torn_j364 e grow w k0 seed0 k1 seed1 c0' b0 c1 b1 J0 J1) as [s E]. exists tear, s. rewrite E.
  assert (J : forall b c, b < 2 ^ 32 -> c < 2 ^ 32 -> N.lor (shl64 b 32) c = b * 2 ^ 32 + c).
  { intros b c Hb Hc. unfold shl64, shlw. rewrite N.shiftl_mul_pow2.
    rewrite wrap_small by (unfold fits; change (2 ^ 64) with (2 ^ 32 * 2 ^ 32); now apply N.mul_lt_mono_pos_r). now apply (lor_step _ b _ 32). }
  now rewrite !J by assumption.
Qed.
Print Assumptions c110_torn_j364.
(** Again the hash of neither key. *)
Example c110_torn_j364_nonvacuous : exists b0 c1 b1 r0, reference toy2 "j332b" (read (mem (init mem2)) key0) 5 = Some b0 /\
  reference toy2 "j332c" (read (mem (init mem2)) key1) 7 = Some c1 /\ reference toy2 "j332b" (read (mem (init mem2)) key1) 7 = Some b1 /\
  reference toy2 "j364" (read (mem (init mem2)) key0) 5 = Some r0 /\ b0 * 2 ^ 32 + c1 <> r0 /\ b0 <> b1.
Proof. do 4 eexists. repeat (split; [vm_compute; reflexivity|]). split; vm_compute; discriminate. Qed.

(** Nor need it be the hash of one key: with the digest objects it can be the hash of the two
    keys joined. *)
Definition digests : list string := ["adler32"; "murmur332"; "murmur364"; "keccak224"; "whirlpool"; "blake2b"; "sha1"]%string.
Theorem c110_joined e grow m name k0 seed0 k1 seed1 : ext_ok e -> Forall bytes_ok m -> In name digests ->
  hop_ok (length m) (mem (init m)) (Call "" k0 seed0) -> hop_ok (length m) (mem (init m)) (Call "" k1 seed1) ->
  exists sched s t1 h, conc_run e grow sched (conc_start name (init m)) (threads [[THash k0 seed0]; [THash k1 seed1]]) = Ok (s, [mkThread [] None [h]; t1]) /\
    reference e name (read (mem (init m)) k0 ++ read (mem (init m)) k1) seed0 = Some h.
Proof.
  intros He Hm Hn H0 H1. set (w := init m) in *. pose proof (init_ok m Hm : world_ok w) as O.
  assert (Hb : bytes_ok (read (mem w) k0 ++ read (mem w) k1)) by (apply Forall_app; split; apply KeccakProofs3.read_ok; apply O).
  cbn [In digests] in Hn. destruct Hn as [<-|[<-|[<-|[<-|[<-|[<-|[<-|[]]]]]]]].
  - destruct (joined_adler e grow w k0 seed0 k1 seed1) as (s & t1 & E). eexists _, s, t1, _. split; [exact E|reflexivity].
  - destruct (joined_m332 e grow w k0 seed0 k1 seed1 O) as (s & t1 & E). eexists _, s, t1, _. split; [exact E|reflexivity].
  - destruct (joined_m364 e grow w k0 seed0 k1 seed1 O) as (s & t1 & E). eexists _, s, t1, _. split; [exact E|reflexivity].
  - destruct (e_keccak224 e He _ Hb) as [L B].
    destruct (joined_ext e grow "keccak224" w k0 seed0 k1 seed1 "keccak224" (keccak224 e) fp28 set_mem_fp28 28 _ eq_refl eq_refl ltac:(intros; split; reflexivity) O ltac:(cbn; auto) (o_28 w O) eq_refl B ltac:(lia)) as (s & t1 & E).
    eexists _, s, t1, _. split; [exact E|reflexivity].
  - destruct (e_whirlpool e He _ Hb) as [L B].
    destruct (joined_ext e grow "whirlpool" w k0 seed0 k1 seed1 "whirlpool" (whirlpool e) fp64 set_mem_fp64 64 _ eq_refl eq_refl ltac:(intros; split; reflexivity) O ltac:(cbn; auto 6) (o_64 w O) eq_refl B ltac:(lia)) as (s & t1 & E).
    eexists _, s, t1, _. split; [exact E|reflexivity].
  - destruct (e_blake2b e He _ Hb) as [L B].
    destruct (joined_ext e grow "blake2b" w k0 seed0 k1 seed1 "blake2b" (blake2b e) fp32 set_mem_fp32 32 _ eq_refl eq_refl ltac:(intros; split; reflexivity) O ltac:(cbn; auto) (o_32 w O) eq_refl B ltac:(lia)) as (s & t1 & E).
    eexists _, s, t1, _. split; [exact E|reflexivity].
  - destruct (e_sha1 e He _ Hb) as [L B]. destruct (joined_sha1 e grow w k0 seed0 k1 seed1 _ O eq_refl B ltac:(lia)) as (s & t1 & E).
    eexists _, s, t1, _. split; [exact E|reflexivity].
Qed.
Print Assumptions c110_joined.
(** The hash of the joined keys is that of neither. *)
Example c110_joined_nonvacuous : let r k := reference toy2 "murmur332" k 0 in
  r (read (mem (init mem2)) key0 ++ read (mem (init mem2)) key1) <> r (read (mem (init mem2)) key0) /\
  r (read (mem (init mem2)) key0 ++ read (mem (init mem2)) key1) <> r (read (mem (init mem2)) key1).
Proof. split; vm_compute; discriminate. Qed.
(** With a keccakpg name the second key is moreover written to memory of the program, behind the
    first key, where the first key has room left.  (Called alone Hashf writes no such memory, C44.) *)
Definition pg_rates : list (string * nat) := [("keccakpg643", 184); ("keccakpg644", 184); ("keccakpg648", 184); ("keccakpg160", 160)]%string%nat.
Theorem c110_overwrites e grow m name B k0 seed0 k1 seed1 : ext_ok e -> Forall bytes_ok m -> In (name, B) pg_rates ->
  hop_ok (length m) (mem (init m)) (Call "" k0 seed0) -> hop_ok (length m) (mem (init m)) (Call "" k1 seed1) ->
  (0 < len k0)%nat -> (len k0 + len k1 < B)%nat -> (len k0 + len k1 <= cap k0)%nat ->
  exists sched s t1 h, conc_run e grow sched (conc_start name (init m)) (threads [[THash k0 seed0]; [THash k1 seed1]]) = Ok (s, [mkThread [] None [h]; t1]) /\
    reference e name (read (mem (init m)) k0 ++ read (mem (init m)) k1) seed0 = Some h /\
    array (mem (vars s)) (arr k0) =
      let a := array (mem (init m)) (arr k0) in let o := (off k0 + len k0)%nat in
      firstn o a ++ read (mem (init m)) k1 ++ skipn (o + len k1) a.
Proof.
  intros He Hm Hn H0 H1 P Hb Hc. set (w := init m) in *. pose proof (init_ok m Hm : world_ok w) as O.
  pose proof (hop_key m k0 seed0 Hm H0 : key_ok w k0 seed0) as K0. pose proof (hop_key m k1 seed1 Hm H1 : key_ok w k1 seed1) as K1.
  assert (A : forall s, array (mem (vars s)) (arr k0) = array (store (mem w) (arr k0) (off k0 + len k0) (read (mem w) k1)) (arr k0) ->
    array (mem (vars s)) (arr k0) = let a := array (mem w) (arr k0) in let o := (off k0 + len k0)%nat in firstn o a ++ read (mem w) k1 ++ skipn (o + len k1) a).
  { intros s ->. destruct (ko_wf _ _ _ K0) as (W1 & W2 & W3). rewrite KeccakProofs3.array_store_same by lia. cbv zeta.
    now rewrite (KeccakProofs3.read_length (mem w) k1 (ko_wf _ _ _ K1)). }
  cbn [In pg_rates] in Hn. destruct Hn as [Hn|[Hn|[Hn|[Hn|[]]]]]; injection Hn as <- <-.
  - destruct (joined_pg e grow "keccakpg643" w k0 seed0 k1 seed1 fp8 set_mem_fp8 k643 set_k643 8 64 3 2 eq_refl eq_refl ltac:(intros; repeat split; reflexivity)
      ltac:(intros; repeat split; reflexivity) ltac:(reflexivity) O ltac:(cbn; auto) (o_8 w O) ltac:(repeat split; lia) (o_643 w O) ltac:(lia) K0 K1 P ltac:(assumption) Hc) as (s & t1 & E & Ea).
    eexists _, s, t1, _. split; [exact E|]. split; [reflexivity|now apply A].
  - destruct (joined_pg e grow "keccakpg644" w k0 seed0 k1 seed1 fp8 set_mem_fp8 k644 set_k644 8 64 4 2 eq_refl eq_refl ltac:(intros; repeat split; reflexivity)
      ltac:(intros; repeat split; reflexivity) ltac:(reflexivity) O ltac:(cbn; auto) (o_8 w O) ltac:(repeat split; lia) (o_644 w O) ltac:(lia) K0 K1 P ltac:(assumption) Hc) as (s & t1 & E & Ea).
    eexists _, s, t1, _. split; [exact E|]. split; [reflexivity|now apply A].
  - destruct (joined_pg e grow "keccakpg648" w k0 seed0 k1 seed1 fp8 set_mem_fp8 k648 set_k648 8 64 8 2 eq_refl eq_refl ltac:(intros; repeat split; reflexivity)
      ltac:(intros; repeat split; reflexivity) ltac:(reflexivity) O ltac:(cbn; auto) (o_8 w O) ltac:(repeat split; lia) (o_648 w O) ltac:(lia) K0 K1 P ltac:(assumption) Hc) as (s & t1 & E & Ea).
    eexists _, s, t1, _. split; [exact E|]. split; [reflexivity|now apply A].
  - destruct (joined_pg e grow "keccakpg160" w k0 seed0 k1 seed1 fp32 set_mem_fp32 k160 set_k160 32 160 24 5 eq_refl eq_refl ltac:(intros; repeat split; reflexivity)
      ltac:(intros; repeat split; reflexivity) ltac:(reflexivity) O ltac:(cbn; auto) (o_32 w O) ltac:(repeat split; lia) (o_160 w O) ltac:(lia) K0 K1 P ltac:(assumption) Hc) as (s & t1 & E & Ea).
    eexists _, s, t1, _. split; [exact E|]. split; [reflexivity|now apply A].
Qed.
Print Assumptions c110_overwrites.
(** The first three of nine bytes, and another key of two. *)
Example c110_overwrites_nonvacuous : let k0 := mkSlice 0 0 3 9 in let k1 := mkSlice 1 4 2 2 in
  hop_ok 2 (mem (init mem2)) (Call "" k0 0) /\ hop_ok 2 (mem (init mem2)) (Call "" k1 0) /\ (0 < len k0)%nat /\ (len k0 + len k1 < 160)%nat /\ (len k0 + len k1 <= cap k0)%nat /\
  firstn 3 (array (mem (init mem2)) 0) ++ read (mem (init mem2)) k1 ++ skipn 5 (array (mem (init mem2)) 0) = [1; 2; 3; 12; 6; 6; 7; 8; 9].
Proof.
  cbv zeta. repeat split; try (cbn; lia); right; left; cbn; lia.
Qed.

(** With a mutex held around every use, and Hf2 set after it is taken, any names may be used, and
    arrays shared: whatever the order of steps, no call panics, and the goroutines get the answers
    of one sequential program (C44) made of their sections, one whole section after the other,
    the sections of each goroutine in its order; [cur] is the section that is being executed. *)
Theorem c110_locked e grow m name ps sched : ext_ok e -> Forall bytes_ok m ->
  Forall (fun p => disciplined Out p = true /\ Forall (Forall (fun o => hop_ok (length m) (mem (init m)) o /\ callable e o)) (sections None p)) ps ->
  exists s ts done cur, conc_run e grow sched (conc_start name (init m)) (threads ps) = Ok (s, ts) /\ length ts = length ps /\ (length cur <= 1)%nat /\
    forall i p t, nth_error ps i = Some p -> nth_error ts i = Some t ->
      exists rest pend,
        sections None p = runs_of i done ++ rest /\
        (forall ops, In (i, ops) cur -> exists more rest', rest = (ops ++ more) :: rest') /\
        answers_of e (mem (init m)) i (trace (done ++ cur)) = map Some (results t) ++ pend /\ (length pend <= 1)%nat /\
        (run t = None -> pend = []) /\ (finished t -> rest = []).
Proof.
  intros He Hm Hps. set (m0 := mem (init m)).
  assert (H1 : Forall (fun p => Forall (Forall (fun o => hop_ok (length m) m0 o /\ callable e o)) (sections None p)) ps) by (eapply Forall_impl; [|exact Hps]; intros p H; apply H).
  assert (H2 : Forall (fun p => disciplined Out p = true) ps) by (eapply Forall_impl; [|exact Hps]; intros p H; apply H).
  destruct (serial_run e grow (length m) m0 ps He H1 sched _ _ _ _ (serial_start e (length m) m0 ps name (init m) (init_inv m Hm) H2)) as (s & ts & done & cur & E & R).
  exists s, ts, done, (opened cur). split; [exact E|]. split; [apply R|]. split; [destruct cur; cbn; lia|].
  intros i p t Ep Et. pose proof (r_threads _ _ _ _ _ _ _ _ R i p t Ep Et) as T. destruct (holds_lock cur i) as [l|] eqn:Eh.
  - assert (cur = Some (i, l)) as ->.
    { unfold holds_lock in Eh. destruct cur as [[j l']|]; [|discriminate]. destruct (Nat.eqb_spec j i); [congruence|discriminate]. }
    destruct T as (st & nm & [N1 N2 N3 N4 N5]). destruct (sections_head (prog t) nm l) as (more & rest & Es). rewrite Es in N3. cbn [opened].
    assert (Nf : finished t -> (l ++ more) :: rest = []) by (intros [F1 F2]; rewrite F1 in N2; destruct st; [contradiction|discriminate..]).
    assert (Ic : forall ops, In (i, ops) [(i, l)] -> exists more0 rest', (l ++ more) :: rest = (ops ++ more0) :: rest').
    { intros ops [Eo|[]]. injection Eo as <-. now exists more, rest. }
    destruct (run t) as [[cs r]|] eqn:Er.
    + destruct N5 as (_ & _ & s1 & r1 & h & _ & _ & _ & _ & _ & An). exists ((l ++ more) :: rest), [Some h].
      repeat (split; [assumption|]). split; [cbn; lia|]. split; [discriminate|exact Nf].
    + destruct N5 as [_ An]. exists ((l ++ more) :: rest), []. rewrite app_nil_r.
      repeat (split; [assumption|]). split; [cbn; lia|]. split; [reflexivity|exact Nf].
  - destruct T as [W1 W2 W3 W4]. exists (sections None (prog t)), []. rewrite app_nil_r. split; [exact W3|]. split.
    + intros ops Hin. unfold holds_lock in Eh. destruct cur as [[j l']|]; [|contradiction]. destruct Hin as [Hin|[]]. injection Hin as -> _. rewrite Nat.eqb_refl in Eh. discriminate.
    + split; [exact W4|]. split; [cbn; lia|]. split; [reflexivity|]. intros [F1 _]. now rewrite F1.
Qed.
Print Assumptions c110_locked.
(** The goroutines never wait for each other for ever: from every state that is reached, all can
    be brought to their end. *)
Theorem c110_locked_ends e grow m name ps sched : ext_ok e -> Forall bytes_ok m ->
  Forall (fun p => disciplined Out p = true /\ Forall (Forall (fun o => hop_ok (length m) (mem (init m)) o /\ callable e o)) (sections None p)) ps ->
  exists sched' s ts, conc_run e grow (sched ++ sched') (conc_start name (init m)) (threads ps) = Ok (s, ts) /\ Forall finished ts.
Proof.
  intros He Hm Hps. set (m0 := mem (init m)).
  assert (H1 : Forall (fun p => Forall (Forall (fun o => hop_ok (length m) m0 o /\ callable e o)) (sections None p)) ps) by (eapply Forall_impl; [|exact Hps]; intros p H; apply H).
  assert (H2 : Forall (fun p => disciplined Out p = true) ps) by (eapply Forall_impl; [|exact Hps]; intros p H; apply H).
  destruct (serial_run e grow (length m) m0 ps He H1 sched _ _ _ _ (serial_start e (length m) m0 ps name (init m) (init_inv m Hm) H2)) as (s & ts & done & cur & E & R).
  destruct (serial_finish e grow (length m) m0 ps He H1 s ts done cur R) as (sched' & s' & ts' & E' & F).
  exists sched', s', ts'. rewrite conc_run_app, E. auto.
Qed.
Print Assumptions c110_locked_ends.
(** Two goroutines with one buffer: each writes its key to it, takes the hash and releases it;
    and they count calls. *)
Definition sharing (x : N) : list top :=
  [TLock; TName "keccakpg643"; TWrite 0 0 [x]; THash key0 0; TName "nullhash"; THash key0 0; TUnlock; TLock; TName "sha1"; THash key0 0; TUnlock]%string.
Definition ordering : list nat := repeat 0%nat 5 ++ repeat 1%nat 3 ++ repeat 0%nat 12 ++ repeat 1%nat 40 ++ repeat 0%nat 20.
Example c110_locked_nonvacuous :
  Forall (fun p => disciplined Out p = true /\ Forall (Forall (fun o => hop_ok 2 (mem (init mem2)) o /\ callable toy2 o)) (sections None p)) [sharing 11; sharing 22] /\
  exists s ts, conc_run toy2 (fun _ n => n) ordering (conc_start "" (init mem2)) (threads [sharing 11; sharing 22]) = Ok (s, ts) /\ Forall finished ts /\
    map (fun t => map Some (results t)) ts =
      [[reference toy2 "keccakpg643" [11; 2; 3; 4; 5; 6; 7; 8; 9] 0; Some 1; reference toy2 "sha1" [22; 2; 3; 4; 5; 6; 7; 8; 9] 0];
       [reference toy2 "keccakpg643" [22; 2; 3; 4; 5; 6; 7; 8; 9] 0; Some 2; reference toy2 "sha1" [22; 2; 3; 4; 5; 6; 7; 8; 9] 0]].
Proof.
  split.
  - assert (K : forall n, hop_ok 2 (mem (init mem2)) (Call n key0 0)) by (intros n; split; [repeat split; cbn; lia|]; split; [right; left; cbn; lia|]; split; reflexivity).
    assert (W : forall x, x < 256 -> hop_ok 2 (mem (init mem2)) (Assign 0 0 [x])) by (intros x Hx; repeat split; [left; cbn; lia|cbn; lia|cbn; lia|constructor; [exact Hx|constructor]]).
    assert (A : forall x, x < 256 -> disciplined Out (sharing x) = true /\ Forall (Forall (fun o => hop_ok 2 (mem (init mem2)) o /\ callable toy2 o)) (sections None (sharing x))).
    { intros x Hx. split; [reflexivity|]. unfold sharing. cbn [sections app].
      assert (C1 : callable toy2 (Call "keccakpg643" key0 0)) by (right; right; intros kb _; unfold reference; cbn [assoc table String.eqb Ascii.eqb Bool.eqb]; discriminate).
      assert (C2 : callable toy2 (Call "sha1" key0 0)) by (right; right; intros kb _; unfold reference; cbn [assoc table String.eqb Ascii.eqb Bool.eqb]; discriminate).
      assert (C3 : callable toy2 (Call "nullhash" key0 0)) by (left; reflexivity).
      repeat first [apply Forall_nil | apply Forall_cons]; split; first [apply K | apply W; exact Hx | exact Logic.I | assumption]. }
    constructor; [apply A; reflexivity|constructor; [apply A; reflexivity|constructor]].
  - do 2 eexists. split; [vm_compute; reflexivity|]. split; [repeat constructor|vm_compute; reflexivity].
Qed.

(** The name is a variable of the package too.  When goroutines set it to different safe names and
    call without a mutex, no call panics, and each answer is the hash of the goroutine's own key
    and seed, under one of the names in use. *)
Theorem c110_some_name e grow m names name ps sched : ext_ok e -> Forall bytes_ok m -> incl names safe_names -> In name names -> private ps ->
  Forall (fun p => Forall (naming names) p /\ Forall (top_ok (length m) (mem (init m))) p /\
    Forall (fun x => forall n, In n names -> reference e n (fst x) (snd x) <> None) (asked (mem (init m)) p)) ps ->
  exists s ts, conc_run e grow sched (conc_start name (init m)) (threads ps) = Ok (s, ts) /\ length ts = length ps /\ In (hf2 s) names /\
    forall i p t, nth_error ps i = Some p -> nth_error ts i = Some t ->
      exists xs rest, asked (mem (init m)) p = xs ++ rest /\ Forall2 (under_some e names) (results t) xs /\ (finished t -> rest = []).
Proof.
  intros He Hm Hn Hi Hp Hps.
  destruct (named_run e grow (length m) (mem (init m)) names ps sched He Hn Hp) with (s := conc_start name (init m)) (ts := threads ps) as (s & ts & E & [Hs _] & [Hl Hv]).
  - eapply Forall_impl; [|exact Hps]. intros p H. apply H.
  - eapply Forall_impl; [|exact Hps]. intros p H. apply H.
  - eapply Forall_impl; [|exact Hps]. intros p H. apply H.
  - constructor; [exact Hi|]. now apply start_still.
  - split; [unfold threads; apply map_length|]. intros i p t Ep Et. unfold threads in Et. rewrite nth_error_map, Ep in Et. injection Et as <-.
    exists (mem (init m)), [], []. constructor; cbn [prog run results]; auto using incl_refl.
  - exists s, ts. split; [exact E|]. split; [exact Hl|]. split; [exact Hs|]. intros i p t Ep Et.
    destruct (Hv i p t Ep Et) as (m' & dn & pend & [V1 V2 V3 V4 V5 Vd V6]).
    exists dn, (pend ++ asked m' (prog t)). split; [exact V5|]. split; [exact Vd|]. intros [F1 F2]. rewrite F2 in V6. subst pend. now rewrite F1.
Qed.
Print Assumptions c110_some_name.
Definition two_names : list (list top) :=
  [[TName "j264"; THash key0 5; TWrite 0 2 [77]; THash key0 5]; [TName "siphash64"; THash key1 7]].
Example c110_some_name_nonvacuous : let names := ["j264"; "siphash64"]%string in incl names safe_names /\ private two_names /\
  Forall (fun p => Forall (naming names) p /\ Forall (top_ok 2 (mem (init mem2))) p /\
    Forall (fun x => forall n, In n names -> reference toy2 n (fst x) (snd x) <> None) (asked (mem (init mem2)) p)) two_names.
Proof.
  intros names. split; [|split].
  - intros n [<-|[<-|[]]]; cbn; tauto.
  - intros i j p q a o bs x Hij Ep Eq Hin Hx Hu.
    destruct i as [|[|[|i]]]; cbn in Ep; try discriminate; injection Ep as <-; cbn in Hin; repeat (destruct Hin as [Hin|Hin]; [try discriminate|]); try contradiction.
    injection Hin as <- <- <-. destruct j as [|[|[|j]]]; cbn in Eq; try discriminate; try congruence; injection Eq as <-;
      cbn in Hx; repeat (destruct Hx as [Hx|Hx]; [subst x; cbn in Hu; first [discriminate Hu|contradiction]|]); contradiction.
  - assert (Nn : forall (x : list N * N) n, In n names -> reference toy2 n (fst x) (snd x) <> None) by (intros x n [<-|[<-|[]]] X; discriminate X).
    assert (K0 : top_ok 2 (mem (init mem2)) (THash key0 5)) by (split; [repeat split; cbn; lia|]; split; [right; left; cbn; lia|]; split; reflexivity).
    assert (K1 : top_ok 2 (mem (init mem2)) (THash key1 7)) by (split; [repeat split; cbn; lia|]; split; [right; left; cbn; lia|]; split; reflexivity).
    assert (W : top_ok 2 (mem (init mem2)) (TWrite 0 2 [77])) by (repeat split; [left; cbn; lia|cbn; lia|cbn; lia|repeat constructor]).
    unfold two_names. apply Forall_cons; [|apply Forall_cons; [|apply Forall_nil]]; (split; [|split]); cbn [asked];
      repeat (apply Forall_cons; [first [exact Logic.I|exact W|exact K0|exact K1|apply Nn|now left|right; now left]|]); apply Forall_nil.
Qed.

(** But not under its own name: with any two names, one goroutine can get the hash of the name
    the other one has set. *)
Theorem c110_renamed e grow m name n0 n1 k0 seed0 k1 seed1 h0 h1 : ext_ok e -> Forall bytes_ok m ->
  hop_ok (length m) (mem (init m)) (Call "" k0 seed0) -> hop_ok (length m) (mem (init m)) (Call "" k1 seed1) -> counter n1 = false ->
  reference e n1 (read (mem (init m)) k0) seed0 = Some h0 -> reference e n1 (read (mem (init m)) k1) seed1 = Some h1 ->
  exists sched s, conc_run e grow sched (conc_start name (init m)) (threads [[TName n0; THash k0 seed0]; [TName n1; THash k1 seed1]]) =
    Ok (s, [mkThread [] None [h0]; mkThread [] None [h1]]).
Proof.
  intros He Hm H0 H1 C R0 R1.
  destruct (renamed e grow name (init m) n0 n1 k0 seed0 k1 seed1 h0 h1 He (init_ok m Hm) (hop_key m k0 seed0 Hm H0) (hop_key m k1 seed1 Hm H1) C R0 R1) as (a & b & s & E).
  eexists _, s. exact E.
Qed.
Print Assumptions c110_renamed.
Example c110_renamed_nonvacuous : exists h0 h1, counter "siphash64" = false /\
  reference toy2 "siphash64" (read (mem (init mem2)) key0) 5 = Some h0 /\ reference toy2 "siphash64" (read (mem (init mem2)) key1) 7 = Some h1 /\
  reference toy2 "j264" (read (mem (init mem2)) key0) 5 <> Some h0 /\
  exists s, conc_run toy2 (fun _ n => n) [0; 1; 0; 0; 0; 1; 1; 1]%nat (conc_start "" (init mem2)) (threads [[TName "j264"; THash key0 5]; [TName "siphash64"; THash key1 7]]) =
    Ok (s, [mkThread [] None [h0]; mkThread [] None [h1]]).
Proof.
  do 2 eexists. split; [reflexivity|]. split; [vm_compute; reflexivity|]. split; [vm_compute; reflexivity|]. split; [vm_compute; discriminate|].
  eexists. vm_compute. reflexivity.
Qed.

(** And no goroutine waits: from every state that is reached all can be brought to their end. *)
Theorem c110_some_name_ends e grow m names name ps sched : ext_ok e -> Forall bytes_ok m -> incl names safe_names -> In name names -> private ps ->
  Forall (fun p => Forall (naming names) p /\ Forall (top_ok (length m) (mem (init m))) p /\
    Forall (fun x => forall n, In n names -> reference e n (fst x) (snd x) <> None) (asked (mem (init m)) p)) ps ->
  exists sched' s ts, conc_run e grow (sched ++ sched') (conc_start name (init m)) (threads ps) = Ok (s, ts) /\ Forall finished ts /\
    Forall2 (fun t p => Forall2 (under_some e names) (results t) (asked (mem (init m)) p)) ts ps.
Proof.
  intros He Hm Hn Hi Hp Hps. set (m0 := mem (init m)) in *.
  assert (H1 : Forall (Forall (top_ok (length m) m0)) ps) by (eapply Forall_impl; [|exact Hps]; intros p H; apply H).
  assert (H2 : Forall (Forall (naming names)) ps) by (eapply Forall_impl; [|exact Hps]; intros p H; apply H).
  assert (H3 : Forall (fun p => Forall (takes e names) (asked m0 p)) ps) by (eapply Forall_impl; [|exact Hps]; intros p H; apply H).
  pose proof (fun sc => named_run e grow (length m) m0 names ps sc He Hn Hp H1 H2 H3) as Run.
  destruct (Run sched (conc_start name (init m)) (threads ps)) as (s & ts & E & Hst & Hv).
  { constructor; [exact Hi|]. now apply start_still. }
  { split; [unfold threads; apply map_length|]. intros i p t Ep Et. unfold threads in Et. rewrite nth_error_map, Ep in Et. injection Et as <-.
    exists m0, [], []. constructor; cbn [prog run results]; auto using incl_refl. }
  destruct (finish e grow (fun s ts => stilln (length m) m0 names s /\ all_viewedn e grow names m0 ps s ts)) with (s := s) (ts := ts) as (sched' & s' & ts' & E' & [_ [Hl Hv']] & F).
  - clear - Run. intros s ts i t [Hst Hv] Et. destruct (Run [i] s ts Hst Hv) as (s' & ts' & E & Hst' & Hv'). cbn [conc_run] in E. rewrite Et in E.
    destruct (tstep e grow s t) as [[s1 t1]| | |]; try discriminate. cbn [rbind] in E. injection E as <- <-. do 2 eexists. split; [reflexivity|]. split; assumption.
  - clear - H2. intros s ts [_ [Hl Hv]]. destruct (unfinished ts) as [F|(i & t & Et & F)]; [now left|right]. exists i, t. split; [exact Et|]. split; [exact F|].
    intros (_ & _ & q & Eq). destruct (nth_error ps i) as [p|] eqn:Ep.
    2:{ apply nth_error_None in Ep. assert (i < length ts)%nat by (apply nth_error_Some; congruence). lia. }
    destruct (Hv i p t Ep Et) as (m' & dn & pend & [_ _ _ V4 _ _ _]). rewrite Forall_forall in H2. pose proof (H2 p (nth_error_In _ _ Ep)) as Pl. rewrite Forall_forall in Pl.
    apply (Pl TLock). apply V4. rewrite Eq. now left.
  - split; assumption.
  - exists sched', s', ts'. rewrite conc_run_app, E. split; [exact E'|]. split; [exact F|].
    assert (G : forall i p t, nth_error ps i = Some p -> nth_error ts' i = Some t -> Forall2 (under_some e names) (results t) (asked m0 p)).
    { intros i p t Ep Et. destruct (Hv' i p t Ep Et) as (m' & dn & pend & [_ _ _ _ V5 Vd V6]). rewrite Forall_forall in F.
      destruct (F t (nth_error_In _ _ Et)) as [F1 F2]. rewrite F2 in V6. subst pend. rewrite F1 in V5. cbn [asked app] in V5. rewrite app_nil_r in V5. now rewrite V5. }
    clear - Hl G. revert ps Hl G. induction ts' as [|t ts IH]; intros [|p ps] Hl G; cbn in Hl; try discriminate; constructor.
    + now apply (G 0%nat).
    + apply IH; [lia|]. intros i. exact (G (S i)).
Qed.
Print Assumptions c110_some_name_ends.
(** The first goroutine's two answers are under different names: the other one has set Hf2 in between. *)
Example c110_some_name_ends_nonvacuous : exists s ts h0 h1 h2,
  conc_run toy2 (fun _ n => n) [0; 0; 0; 0; 1; 0; 0; 0; 0; 0; 0; 1; 1; 1; 1]%nat (conc_start "j264" (init mem2)) (threads two_names) = Ok (s, ts) /\
  Forall finished ts /\ map results ts = [[h0; h1]; [h2]] /\ reference toy2 "j264" [1; 2; 3; 4; 5; 6; 7; 8; 9] 5 = Some h0 /\
  reference toy2 "siphash64" [1; 2; 77; 4; 5; 6; 7; 8; 9] 5 = Some h1 /\ reference toy2 "j264" [1; 2; 77; 4; 5; 6; 7; 8; 9] 5 <> Some h1.
Proof.
  do 5 eexists. split; [vm_compute; reflexivity|]. split; [repeat constructor|]. split; [reflexivity|].
  split; [vm_compute; reflexivity|]. split; [vm_compute; reflexivity|]. vm_compute. discriminate.
Qed.
