(** C113.  What the hash objects of the nhash interfaces declare about themselves. *)
From Coq Require Import NArith ZArith List Arith Lia.
From Verif Require HashfProps Mm3Coll.
From Verif Require Import Words WordLemmas ListLemmas Mem Mm3Spec SmallModel SmallSpec SmallProofs JenkinsModel JenkinsSpec JenkinsProofs2 JenkinsProofs4 JenkinsProofs6 DeclModel DeclSpec.
Import ListNotations.
Open Scope N_scope.

Notation Reached k := (reached (new k) (hash k) (seed_width k)).
Notation Matters k := (matters (new k) (hash k) (seed_width k)).
Notation All_bits k := (all_bits (new k) (hash k) (seed_width k)).
Notation Seed_bytes k := (seed_bytes (new k) (hash k) (seed_width k)).
Notation Hash_bits k := (hash_bits (new k) (hash k) (seed_width k)).

(** ** Sizes *)
(** Sum of the four objects that have it appends Size bytes, from every state. *)
Theorem c113_size : forall k f s b, sum k = Some f -> forall s' r, f s b = Ok (s', r) ->
  exists d, r = b ++ d /\ N.of_nat (length d) = Size k.
Proof.
  intros k f s b E s' r H. destruct k; cbn [sum] in E; try discriminate E; injection E as <-; cbn [state] in *.
  - unfold sum_332 in H. destruct (sum32_332 s) as [[d h]| | |]; cbn [rbind] in H; try discriminate H. injection H as <- <-. eauto.
  - unfold sum_364 in H. destruct (jenkins364 _ _ _ _) as [[pc pb]| | |]; cbn [rbind] in H; try discriminate H. injection H as <- <-. eauto.
  - unfold sum_232 in H. destruct (sum32_232 s) as [[d h]| | |]; cbn [rbind] in H; try discriminate H. injection H as <- <-. eauto.
  - unfold null_Sum in H. injection H as <- <-. eauto.
Qed.
Print Assumptions c113_size.
(** It does not panic on objects whose data are bytes. *)
Example c113_size_nonvacuous : exists f s' r, sum K364 = Some f /\ f (fst (write364 (new364 5) [1; 2; 3])) [9] = Ok (s', r) /\ length r = 9%nat.
Proof. eexists _, _, _. split; [reflexivity|]. split; [vm_compute; reflexivity|reflexivity]. Qed.

Lemma null_reached : forall c, c < 2 ^ 64 -> Reached KNull c.
Proof.
  induction c as [|c IH] using N.peano_ind; intros H.
  - apply (reached_new (new KNull) (hash KNull) (seed_width KNull) 0). reflexivity.
  - apply (reached_call (new KNull) (hash KNull) (seed_width KNull) c [] [] (N.succ c) (N.succ c)); [apply IH; lia|constructor|constructor|].
    cbn [hash]. unfold null_Hash64. cbv zeta. replace (add64 c 1) with (N.succ c); [reflexivity|].
    unfold add64, addw. rewrite wrap_small by (unfold fits; lia). lia.
Qed.
Lemma reached_232 s : Reached K232 s -> s232_seed s = 0.
Proof.
  intros R. induction R as [seed _|s key seeds s' h R IH Hk Hs E]; [reflexivity|]. cbn [hash state] in *. unfold hash32_232 in E.
  destruct (hash232 _ _) as [x| | |]; cbn [rbind] in E; try discriminate E. injection E as <- <-. cbn [s232_seed]. now destruct seeds.
Qed.
(** A key of one byte whose hash by a new object with seed 0 has the top bit. *)
Definition top_byte (k : kind) : N := hd 256 (filter (fun x => match hash k (new k 0) [x] [] with Ok (_, h) => 2 ^ (8 * Size k - 1) <=? h | _ => false end) (map N.of_nat (seq 0 256))).
Lemma top_ok k : k <> KNull -> top_byte k < 256 /\ exists s' h, hash k (new k 0) [top_byte k] [] = Ok (s', h) /\ 2 ^ (8 * Size k - 1) <= h.
Proof.
  intros H. assert (B : andb (top_byte k <? 256) (match hash k (new k 0) [top_byte k] [] with Ok (_, h) => 2 ^ (8 * Size k - 1) <=? h | _ => false end) = true) by (destruct k; try contradiction; vm_compute; reflexivity).
  apply andb_prop in B. destruct B as [B C]. split; [now apply N.ltb_lt|]. destruct (hash k (new k 0) [top_byte k] []) as [[s' h]| | |]; try discriminate C.
  exists s', h. split; [reflexivity|]. now apply N.leb_le.
Qed.

(** Every one-shot call on every object returns a word of 8 * Size bits, no fewer bits will
    do, and HashSizeInBits says the same where it exists. *)
Theorem c113_hash_size : forall k, Hash_bits k (8 * Size k) /\ (forall w, HashSizeInBits k = Some w -> w = 8 * Size k).
Proof.
  intros k. split; [|now intros w; destruct k; cbn; intros [= <-]]. split.
  - intros s key seeds R Hk _. destruct k; cbn [hash Size state] in *.
    + rewrite sbox_H by assumption. cbv zeta. eexists _, _. split; [reflexivity|]. apply sbox_final_fits.
    + rewrite crapwow_H by assumption. cbv zeta. eexists _, _. split; [reflexivity|]. now apply HashfProps.crapwow_range.
    + destruct (hash32_332_eq s key seeds Hk) as [d E]. eexists _, _. split; [exact E|]. apply lookup3_ok.
    + unfold hash64_364. match goal with |- context [let '(pc, pb) := ?p in _] => destruct p as [pc pb] end.
      rewrite jenkins364_full by assumption. cbn [rbind]. pose proof (lookup3_ok key pc pb) as [F G]. destruct (lookup3 key pc pb) as [c d]. cbn [fst snd] in *.
      eexists _, _. split; [reflexivity|]. change (8 * 8) with 64. apply lor_fits; [apply wrap_fits|]. now apply (fits_le 32).
    + unfold hash32_232, hash232. rewrite (reached_232 s R). replace (match seeds with [] => 0 | _ :: _ => 0 end) with 0 by now destruct seeds.
      rewrite hash232_gen by auto using fits_0. cbn [rbind]. eexists _, _. split; [reflexivity|]. apply HashfProps.lookup2_range.
    + unfold null_Hash64. cbv zeta. eexists _, _. split; [reflexivity|]. apply wrap_fits.
  - assert (D : k = KNull \/ k <> KNull) by (destruct k; (now left) || (right; discriminate)). destruct D as [-> | D].
    + exists (2 ^ 63 - 1), [], []. eexists _, _. split; [apply null_reached; reflexivity|].
      split; [constructor|]. split; [constructor|]. split; [reflexivity|]. vm_compute. discriminate.
    + destruct (top_ok k D) as (B & s' & h & E & L). exists (new k 0), [top_byte k], [], s', h. split; [apply reached_new; destruct k; reflexivity|].
      split; [constructor; [exact B|constructor]|]. split; [constructor|]. split; assumption.
Qed.
Print Assumptions c113_hash_size.
Example c113_hash_size_nonvacuous : Reached KSbox (New 7) /\ Reached KNull 3 /\ Size KSbox = 4.
Proof. split; [now apply (reached_new (new KSbox))|]. split; [now apply (null_reached 3)|reflexivity]. Qed.

(** ** Seeds *)
Lemma flip_0 x r b : flip (x :: r) 0 b = N.lxor x (2 ^ b) :: r. Proof. reflexivity. Qed.
Lemma flip_hd seeds i b d : i <> 0%nat -> hd d (flip seeds i b) = hd d seeds.
Proof. intros H. destruct i as [|i]; [easy|]. destruct seeds; reflexivity. Qed.
Lemma wrap_flip x b : 32 <= b -> wrap 32 (N.lxor x (2 ^ b)) = wrap 32 x.
Proof.
  intros H. apply N.bits_inj. intros j. rewrite !wrap_testbit, N.lxor_spec.
  destruct (N.ltb_spec j 32); cbn [andb]; [|reflexivity]. rewrite N.pow2_bits_false by lia. apply Bool.xorb_false_r.
Qed.
(** The bits that matter when n seeds are given. *)
Definition bits_of (i : nat) (w : nat) : list (nat * N) := map (fun b => (i, N.of_nat b)) (seq 0 w).
Definition bits (k : kind) (n : nat) : list (nat * N) :=
  match k, n with
  | (KSbox | KCrapWow), S _ => bits_of 0 32
  | K364, 1%nat => bits_of 0 64
  | K364, 2%nat => bits_of 0 32 ++ bits_of 1 32
  | _, _ => []
  end.
Lemma in_bits_of i w j b : In (j, b) (bits_of i w) <-> j = i /\ b < N.of_nat w.
Proof.
  unfold bits_of. rewrite in_map_iff. split.
  - intros (x & E & H). injection E as <- <-. apply in_seq in H. split; [reflexivity|lia].
  - intros [-> H]. exists (N.to_nat b). split; [now rewrite N2Nat.id|]. apply in_seq. lia.
Qed.
Lemma nodup_bits_of i w : NoDup (bits_of i w).
Proof. apply FinFun.Injective_map_NoDup; [|apply seq_NoDup]. intros x y E. injection E as E. lia. Qed.
Lemma nodup_bits k n : NoDup (bits k n).
Proof.
  destruct k, n as [|[|[|n]]]; cbn [bits]; try apply nodup_bits_of; try (apply NoDup_nil).
  apply Mm3Coll.NoDup_app2; auto using nodup_bits_of.
  intros [i b] H1 H2. apply in_bits_of in H1, H2. destruct H1 as [-> _], H2 as [H2 _]. discriminate H2.
Qed.
(** The bits do change the hash of the empty key by a new object, from seeds zero. *)
Definition differs (k : kind) (n i : nat) (b : N) : bool :=
  match value (hash k (new k 0) [] (repeat 0 n)), value (hash k (new k 0) [] (flip (repeat 0 n) i b)) with
  | Some x, Some y => negb (x =? y) | _, _ => false end.
Lemma differs_matters k n i b : (i < n)%nat -> b < seed_width k -> differs k n i b = true -> Matters k n i b.
Proof.
  intros Hi Hb D. split; [exact Hi|]. split; [exact Hb|]. exists (new k 0), [], (repeat 0 n).
  split; [apply reached_new, fits_0|]. split; [constructor|]. split; [apply repeat_length|].
  split; [apply Forall_forall; intros x H; apply repeat_spec in H; subst; apply fits_0|].
  intros E. unfold differs in D. rewrite E in D. destruct (value _); [|discriminate D]. now rewrite N.eqb_refl in D.
Qed.
Lemma below_forallb (f : N -> bool) w : forallb f (map N.of_nat (seq 0 w)) = true -> forall b, b < N.of_nat w -> f b = true.
Proof.
  intros H b L. apply (proj1 (forallb_forall _ _) H), in_map_iff. exists (N.to_nat b). split; [apply N2Nat.id|]. apply in_seq. lia.
Qed.
Lemma hd_differs k n b : k = KSbox \/ k = KCrapWow -> differs k (S n) 0 b = differs k 1 0 b.
Proof. intros [-> | ->]; reflexivity. Qed.

(** Which bits of the seeds matter: for sbox and CrapWow the first seed (32 bits); for the
    64-bit lookup3 object all bits of a single seed, the low halves of two, and nothing of
    three or more; for the other three objects none. *)
Theorem c113_seed_bits : forall k n, All_bits k n (bits k n).
Proof.
  intros k n. split; [apply nodup_bits|]. intros i b. split.
  - intros H. destruct k; try (destruct n as [|[|[|n]]]; contradiction H).
    + destruct n as [|n]; [contradiction H|]. apply in_bits_of in H. destruct H as [-> H]. apply differs_matters; [lia|exact H|]. rewrite hd_differs by auto.
      revert b H. apply below_forallb. vm_compute. reflexivity.
    + destruct n as [|n]; [contradiction H|]. apply in_bits_of in H. destruct H as [-> H]. apply differs_matters; [lia|exact H|]. rewrite hd_differs by auto.
      revert b H. apply below_forallb. vm_compute. reflexivity.
    + destruct n as [|[|[|n]]]; try contradiction H.
      * apply in_bits_of in H. destruct H as [-> H]. apply differs_matters; [lia|exact H|]. revert b H. apply below_forallb. vm_compute. reflexivity.
      * cbn [bits] in H. apply in_app_or in H. destruct H as [H|H]; apply in_bits_of in H; destruct H as [-> H]; (apply differs_matters; [lia|cbn; lia|]); revert b H; apply below_forallb; vm_compute; reflexivity.
  - intros (Hi & Hb & s & key & seeds & R & Hk & L & F & D). destruct k; cbn [hash state seed_width] in *.
    + rewrite !sbox_H in D by assumption. cbv zeta in D. destruct n as [|n]; [lia|]. cbn [bits]. apply in_bits_of. split; [|exact Hb].
      destruct (Nat.eq_dec i 0) as [|Ni]; [assumption|]. rewrite flip_hd in D by assumption. now contradiction D.
    + rewrite !crapwow_H in D by assumption. cbv zeta in D. destruct n as [|n]; [lia|]. cbn [bits]. apply in_bits_of. split; [|exact Hb].
      destruct (Nat.eq_dec i 0) as [|Ni]; [assumption|]. rewrite flip_hd in D by assumption. now contradiction D.
    + now contradiction D.
    + destruct seeds as [|x [|y [|z r]]]; cbn [length] in L; subst n; [lia| | |].
      * cbn [bits]. apply in_bits_of. split; [lia|exact Hb].
      * cbn [bits]. apply in_or_app. destruct (N.lt_ge_cases b 32) as [H|H].
        -- destruct i as [|[|i]]; [left|right|lia]; now apply in_bits_of.
        -- destruct i as [|[|i]]; [| |lia]; unfold flip, hash64_364 in D; cbn [firstn skipn app] in D; rewrite wrap_flip in D by assumption; now contradiction D.
      * exfalso. apply D. destruct i as [|[|[|i]]]; reflexivity.
    + exfalso. apply D. unfold hash32_232. destruct seeds as [|x r]; [cbn [length] in L; lia|]. destruct i; reflexivity.
    + now contradiction D.
Qed.
Print Assumptions c113_seed_bits.
Example c113_seed_bits_nonvacuous : Matters K364 2 1 31 /\ ~ Matters K364 2 1 32 /\ Matters K364 1 0 63 /\ ~ Matters K332c 2 0 0.
Proof.
  split; [apply (proj2 (c113_seed_bits K364 2)); vm_compute; tauto|].
  split; [intros M; apply (proj2 (c113_seed_bits K364 2)) in M; vm_compute in M; intuition discriminate|].
  split; [apply (proj2 (c113_seed_bits K364 1)); vm_compute; tauto|].
  intros M. apply (proj2 (c113_seed_bits K332c 2)) in M. exact M.
Qed.

Lemma all_bits_length k n l : All_bits k n l -> length l = length (bits k n).
Proof.
  intros [N1 H1]. destruct (c113_seed_bits k n) as [N2 H2].
  apply Nat.le_antisymm; apply NoDup_incl_length; try assumption; intros [i b] H; [apply H2, H1|apply H1, H2]; assumption.
Qed.
(** NumSeedBytes is right for sbox, CrapWow and the 64-bit lookup3 object. *)
Theorem c113_seed_bytes : forall k, In k [KSbox; KCrapWow; K364] -> Seed_bytes k (NumSeedBytes k).
Proof.
  intros k H. split.
  - intros n l A. rewrite (all_bits_length k n l A). cbn [In] in H.
    destruct H as [<- | [<- | [<- | []]]]; destruct n as [|[|[|n]]]; vm_compute; discriminate.
  - exists 1%nat, (bits k 1). split; [apply c113_seed_bits|]. cbn [In] in H. destruct H as [<- | [<- | [<- | []]]]; reflexivity.
Qed.
Print Assumptions c113_seed_bytes.
(** The other three declare seed bytes, but take none. *)
Theorem c113_seed_bytes_refuted : forall k, In k [K332c; K232; KNull] -> Seed_bytes k 0 /\ 0 < NumSeedBytes k /\ ~ Seed_bytes k (NumSeedBytes k).
Proof.
  intros k H. assert (E : forall n, bits k n = []) by (cbn [In] in H; destruct H as [<- | [<- | [<- | []]]]; reflexivity).
  assert (P : 0 < NumSeedBytes k) by (cbn [In] in H; destruct H as [<- | [<- | [<- | []]]]; reflexivity).
  split; [|split; [exact P|]].
  - split; [intros n l A; rewrite (all_bits_length k n l A), E; reflexivity|]. exists 0%nat, (bits k 0). split; [apply c113_seed_bits|]. now rewrite E.
  - intros [_ (n & l & A & L)]. rewrite (all_bits_length k n l A), E in L. cbn [length] in L. lia.
Qed.
Print Assumptions c113_seed_bytes_refuted.
Example c113_seed_bytes_nonvacuous : NumSeedBytes K332c = 8 /\ hash32_332 (new332 0) [1] [5; 6] = hash32_332 (new332 0) [1] [7; 8] /\
  value (hash64_364 (new364 0) [1] [5; 6]) <> value (hash64_364 (new364 0) [1] [5; 7]).
Proof. split; [reflexivity|]. split; [reflexivity|]. vm_compute. discriminate. Qed.

(** The seed given to the constructor: all its bits count for calls without seed arguments
    on the objects of sbox, CrapWow and New364 (so there too NumSeedBytes is right), and none
    on the others. *)
Definition new_differs (k : kind) (b : N) : bool :=
  match value (hash k (new k 0) [] []), value (hash k (new k (2 ^ b)) [] []) with Some x, Some y => negb (x =? y) | _, _ => false end.
Lemma new_differs_matters k b : b < seed_width k -> new_differs k b = true -> new_matters (new k) (hash k) (seed_width k) b.
Proof.
  intros Hb D. split; [exact Hb|]. exists 0, []. split; [apply fits_0|]. split; [constructor|]. rewrite N.lxor_0_l. intros E. unfold new_differs in D. rewrite E in D.
  destruct (value _); [|discriminate D]. now rewrite N.eqb_refl in D.
Qed.
Theorem c113_new_seed : forall k b, new_matters (new k) (hash k) (seed_width k) b <-> In k [KSbox; KCrapWow; K364] /\ b < 8 * NumSeedBytes k.
Proof.
  intros k b. split.
  - intros (Hb & seed & key & F & Hk & D). destruct k; cbn [seed_width NumSeedBytes In hash new] in *;
      try (split; [tauto|exact Hb]); try (now contradiction D).
    destruct (hash32_332_eq (new332 seed) key [] Hk) as [d E], (hash32_332_eq (new332 (N.lxor seed (2 ^ b))) key [] Hk) as [d' E'].
    rewrite E, E' in D. now contradiction D.
  - intros [H L]. apply new_differs_matters; [cbn [In] in H; destruct H as [<- | [<- | [<- | []]]]; exact L|].
    cbn [In] in H. destruct H as [<- | [<- | [<- | []]]]; revert b L.
    + apply (below_forallb (new_differs KSbox) 32). vm_compute. reflexivity.
    + apply (below_forallb (new_differs KCrapWow) 32). vm_compute. reflexivity.
    + apply (below_forallb (new_differs K364) 64). vm_compute. reflexivity.
Qed.
Print Assumptions c113_new_seed.
Example c113_new_seed_nonvacuous : value (hash32_332 (new332 5) [1] []) = value (hash32_332 (new332 6) [1] []) /\
  value (sbox_Hash32 (New 5) [1] []) <> value (sbox_Hash32 (New 6) [1] []).
Proof. split; [reflexivity|]. vm_compute. discriminate. Qed.
