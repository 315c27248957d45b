(** C100.  The hash objects of hashf.Halloc against Hashf with the same name. *)
From Coq Require Import NArith ZArith List Arith Lia String.
From Verif Require Import Words WordLemmas Mem KeccakModel HallocModel HashfModel HashfSpec.
From Verif Require SmallModel SmallSpec SmallProofs JenkinsModel JenkinsSpec JenkinsProofs2 JenkinsProofs4 JenkinsProofs6 HashfProps KeccakProofs3.
Import ListNotations.
Open Scope N_scope.

(** Halloc has an object for the four names of ht's list of benchmarks, nil for all others. *)
Theorem c100_names : forall name, Halloc name <> None <-> In name benchmarks.
Proof.
  intros name. unfold Halloc, benchmarks. cbn [In].
  destruct (String.eqb_spec name "sbox") as [->|]; [split; [auto|discriminate]|].
  destruct (String.eqb_spec name "CrapWow") as [->|]; [split; [auto|discriminate]|].
  destruct (String.eqb_spec name "j332c") as [->|]; [split; [auto|discriminate]|].
  destruct (String.eqb_spec name "j232") as [->|]; [split; [auto|discriminate]|].
  split; [now intros H|]. intuition congruence.
Qed.
Print Assumptions c100_names.

Lemma calls_seeded e grow w name (o : obj) cs :
  (name = "sbox"%string /\ (exists s, o = OSbox s) \/ name = "CrapWow"%string /\ (exists s, o = OCrapWow s)) -> Forall bytes_ok (mem w) ->
  exists hs, calls o (map (fun c => (read (mem w) (fst c), [snd c mod 2 ^ 32])) cs) = Ok hs /\
    Forall2 (fun c h => Hashf e grow w name (fst c) (snd c) = Ok (w, h)) cs hs.
Proof.
  intros Ho Hm. revert o Ho. induction cs as [|(k & s) cs IH]; intros o Ho; [exists []; split; [reflexivity|constructor]|]. cbn [map fst snd calls].
  pose proof (KeccakProofs3.read_ok _ k Hm) as Hb.
  destruct Ho as [(-> & x & ->)|(-> & x & ->)]; cbn [Hash32].
  - rewrite SmallProofs.sbox_H by exact Hb. cbn [hd rbind]. destruct (IH (OSbox (SmallModel.mkState (SmallSpec.sbox_spec SmallModel.SBoxTable (read (mem w) k) (s mod 2 ^ 32)) (s mod 2 ^ 32)))) as (hs & E & F); [eauto|].
    rewrite E. cbn [rbind]. eexists. split; [reflexivity|]. constructor; [|exact F]. cbn [fst snd]. unfold Hashf, pure. cbn [String.eqb Ascii.eqb Bool.eqb]. rewrite wrap_mod, SmallProofs.Sbox_ok by exact Hb. reflexivity.
  - rewrite SmallProofs.crapwow_H by exact Hb. cbn [hd rbind]. destruct (IH (OCrapWow (SmallModel.mkState (SmallSpec.crapwow_spec (read (mem w) k) (s mod 2 ^ 32)) (s mod 2 ^ 32)))) as (hs & E & F); [eauto|].
    rewrite E. cbn [rbind]. eexists. split; [reflexivity|]. constructor; [|exact F]. cbn [fst snd]. unfold Hashf, pure. cbn [String.eqb Ascii.eqb Bool.eqb]. rewrite wrap_mod, SmallProofs.CrapWow_ok by exact Hb. reflexivity.
Qed.
(** sbox and CrapWow: any sequence of calls on the object, each with the low 32 bits of a
    seed, returns what Hashf returns for the same keys and seeds. *)
Theorem c100_seeded : forall e grow w name o cs, Halloc name = Some o -> name = "sbox"%string \/ name = "CrapWow"%string -> Forall bytes_ok (mem w) ->
  exists hs, calls o (map (fun c => (read (mem w) (fst c), [snd c mod 2 ^ 32])) cs) = Ok hs /\
    Forall2 (fun c h => Hashf e grow w name (fst c) (snd c) = Ok (w, h)) cs hs.
Proof.
  intros e grow w name o cs H Hn Hm. apply calls_seeded; [|exact Hm]. destruct Hn as [->| ->]; [left|right]; (split; [reflexivity|]); injection H as <-; eauto.
Qed.
Print Assumptions c100_seeded.

Lemma calls_unseeded e grow w name (o : obj) cs :
  (name = "j332c"%string /\ (exists d, o = O332c d) \/ name = "j232"%string /\ (exists d, o = O232 d /\ JenkinsProofs6.reach232 d)) -> Forall bytes_ok (mem w) ->
  Forall (fun c => slice_in (mem w) (fst c)) cs ->
  exists hs, calls o (map (fun c => (read (mem w) (fst c), snd c)) cs) = Ok hs /\
    Forall2 (fun c h => Hashf e grow w name (fst c) 0 = Ok (w, h)) cs hs.
Proof.
  intros Ho Hm Hs. revert o Ho. induction Hs as [|(k & ss) cs Hk _ IH]; intros o Ho; [exists []; split; [reflexivity|constructor]|]. cbn [map fst snd calls] in *.
  pose proof (KeccakProofs3.read_ok _ k Hm) as Hb. pose proof (KeccakProofs3.read_length (mem w) k Hk) as HL.
  destruct Ho as [(-> & d & ->)|(-> & d & -> & Hd)]; cbn [Hash32].
  - destruct (JenkinsProofs6.hash32_332_eq d _ ss Hb) as (d' & E). rewrite E. cbn [rbind]. destruct (IH (O332c d')) as (hs & E' & F); [eauto|].
    rewrite E'. cbn [rbind]. eexists. split; [reflexivity|]. constructor; [|exact F]. cbn [fst snd]. unfold Hashf, pure. cbn [String.eqb Ascii.eqb Bool.eqb]. rewrite <- HL, JenkinsProofs2.jenkins364_full by exact Hb. unfold first. cbn [rbind].
    change (wrap 32 0) with 0. now destruct (JenkinsSpec.lookup3 (read (mem w) k) 0 0).
  - destruct (JenkinsProofs6.hash32_232_eq d _ ss Hd Hb) as (d' & E). rewrite E. cbn [rbind]. destruct (IH (O232 d')) as (hs & E' & F); [right; split; [reflexivity|]; exists d'; split; [reflexivity|]; exact (JenkinsProofs6.r232_hash32 _ _ _ _ _ Hd E)|].
    rewrite E'. cbn [rbind]. eexists. split; [reflexivity|]. constructor; [|exact F]. cbn [fst snd]. unfold Hashf, pure. cbn [String.eqb Ascii.eqb Bool.eqb]. unfold JenkinsModel.hash232.
    rewrite JenkinsProofs4.hash232_gen by (auto; apply fits_0). reflexivity.
Qed.
(** j332c and j232: whatever seeds are passed, the objects return what Hashf returns for
    seed 0. *)
Theorem c100_unseeded : forall e grow w name o cs, Halloc name = Some o -> name = "j332c"%string \/ name = "j232"%string -> Forall bytes_ok (mem w) ->
  Forall (fun c => slice_in (mem w) (fst c)) cs ->
  exists hs, calls o (map (fun c => (read (mem w) (fst c), snd c)) cs) = Ok hs /\
    Forall2 (fun c h => Hashf e grow w name (fst c) 0 = Ok (w, h)) cs hs.
Proof.
  intros e grow w name o cs H Hn Hm Hs. apply calls_unseeded; [|exact Hm|exact Hs]. destruct Hn as [->| ->]; [left|right]; (split; [reflexivity|]); injection H as <-; [eauto|]. eexists. split; [reflexivity|apply JenkinsProofs6.r232_new].
Qed.
Print Assumptions c100_unseeded.
(** So for these two the agreement for all seeds fails. *)
Theorem c100_agrees_refuted : forall name, name = "j332c"%string \/ name = "j232"%string ->
  exists e grow w k seed o o' h h', Halloc name = Some o /\ HashfSpec.slice_in (mem w) k /\ Forall bytes_ok (mem w) /\ seed < 2 ^ 32 /\
    Hash32 o (read (mem w) k) [seed] = Ok (o', h) /\ Hashf e grow w name k seed = Ok (w, h') /\ h <> h'.
Proof.
  intros name Hn. exists HashfProps.toy, (fun _ n => n), (init [[104; 105]]), (mkSlice 0 0 2 2), 1.
  assert (Hs : slice_in (mem (init [[104; 105]])) (mkSlice 0 0 2 2)) by (unfold slice_in; cbn; lia).
  assert (Hb : Forall bytes_ok (mem (init [[104; 105]]))) by (repeat constructor).
  destruct Hn as [->| ->].
  - do 4 eexists. split; [reflexivity|]. split; [exact Hs|]. split; [exact Hb|]. split; [reflexivity|]. split; [vm_compute; reflexivity|]. split; [|shelve]. unfold Hashf, pure. cbn [String.eqb Ascii.eqb Bool.eqb].
    match goal with |- (h <~ ?x ;; _) = _ => let y := eval vm_compute in x in change x with y end. cbn [rbind]. reflexivity.
    Unshelve. discriminate.
  - do 4 eexists. split; [reflexivity|]. split; [exact Hs|]. split; [exact Hb|]. split; [reflexivity|]. split; [vm_compute; reflexivity|]. split; [|shelve]. unfold Hashf, pure. cbn [String.eqb Ascii.eqb Bool.eqb].
    match goal with |- (h <~ ?x ;; _) = _ => let y := eval vm_compute in x in change x with y end. cbn [rbind]. reflexivity.
    Unshelve. discriminate.
Qed.
Print Assumptions c100_agrees_refuted.
(** Example: the four objects, called twice with seeds 7 and 8. *)
Example c100_nonvacuous :
  map (fun name => match Halloc name with Some o => match calls o [([104; 105], [7]); ([104; 105], [8])] with Ok hs => hs | _ => [] end | None => [] end) benchmarks =
  [[1421556408; 1421556408]; [1808936683; 1808936683]; [3878542387; 3878540936]; [2672240394; 3496789561]].
Proof. vm_compute. reflexivity. Qed.
Example c100_seeded_nonvacuous : forall e : ext, exists o, Halloc "sbox" = Some o /\ Forall bytes_ok (mem (init [[104; 105]])) /\
  slice_in (mem (init [[104; 105]])) (mkSlice 0 0 2 2) /\
  Hashf e (fun _ n => n) (init [[104; 105]]) "sbox" (mkSlice 0 0 2 2) (7 + 2 ^ 32) = Ok (init [[104; 105]], 3878542387) /\
  Hashf e (fun _ n => n) (init [[104; 105]]) "j232" (mkSlice 0 0 2 2) 0 = Ok (init [[104; 105]], 1808936683).
Proof. intros e. eexists. split; [vm_compute; reflexivity|]. split; [repeat constructor|]. split; [vm_compute; lia|]. split; vm_compute; reflexivity. Qed.
