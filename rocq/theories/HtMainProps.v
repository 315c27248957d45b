(** C112: a whole run of the command. *)
From Coq Require Import NArith ZArith List Arith Lia String Bool.
From Verif Require Import Words WordLemmas Mem ListLemmas KeccakModel HashfModel HashfSpec HashfProofs HashfProps
  HashTableModel HashTableProofs HashTableProps LiveModel LiveSpec LiveProofs LiveProps HtModel HtSpec HtProofs HtRuns TestMemModel RunSpec
  HtMainModel HtMainSpec HtMainProofs HtMainProofs2 HtMainProofs3 HtMainProofs4.
Import ListNotations.
Open Scope N_scope.
Notation length := List.length.
Local Opaque genWords letters march triples insert_all Hashf.

(** What the theorems below assume of the outside world. *)
Definition fine_run (e : ext) (f : flags) (fs : string -> option (list N)) (m : list (list N)) : Prop :=
  ext_ok e /\ (forall i, f_draw f i < 2 ^ 64) /\ (forall file s, fs file = Some s -> small_file s) /\ Forall bytes_ok m.

Lemma plan_ok e grow np f o fs n m : fine_run e f fs m -> exists a ok, stitched (piece e np f o fs) (plan f o n) a ok /\
  (if ok then exists s, ht_main e grow np f o fs n m = (a, Ok s) else ht_main e grow np f o fs n m = (a, Panics)).
Proof.
  intros (Ee & Hd & Hf & Hm).
  assert (G : forall l g, goes e np f o fs l g -> (forall s, g s = ht_main e grow np f o fs n m) \/ g (mkSess (init m) n 0) = ht_main e grow np f o fs n m ->
    exists a ok, stitched (piece e np f o fs) (number f n 0 l) a ok /\
    (if ok then exists s, ht_main e grow np f o fs n m = (a, Ok s) else ht_main e grow np f o fs n m = (a, Panics))).
  { intros l g Gl Eg. destruct (Gl (mkSess (init m) n 0) (init_ok m Hm)) as (a & ok & S & D). exists a, ok. split; [exact S|].
    assert (E : g (mkSess (init m) n 0) = ht_main e grow np f o fs n m) by (destruct Eg; auto). rewrite E in D.
    destruct ok; cbn [did] in D; [destruct D as (s & D & _); eauto|exact D]. }
  unfold plan, ht_main in *. fold (flags_on o) in *. fold (names_on o) in *. destruct (negb (String.eqb (o_file o) "")).
  - eapply G; [apply goes_file; assumption|now right].
  - destruct (o_args o) as [|x args] eqn:Ea.
    + set (flag := if existsb (flags_on o) TestPointers then _ else _).
      assert (Ef : (if Nat.eqb (length (filter (flags_on o) TestPointers)) 0 then (fun t => match t with TI | TJ => true | _ => all_off (flags_on o) t end) else flags_on o) = flag \/
        (forall t, (if Nat.eqb (length (filter (flags_on o) TestPointers)) 0 then (fun t => match t with TI | TJ => true | _ => all_off (flags_on o) t end) else flags_on o) t = flag t)).
      { right. intros t. unfold flag. assert (Q : forall l, Nat.eqb (length (filter (flags_on o) l)) 0 = negb (existsb (flags_on o) l)).
        { induction l as [|y l IH]; [reflexivity|]. cbn [filter existsb]. destruct (flags_on o y); [reflexivity|exact IH]. }
        rewrite Q. destruct (existsb (flags_on o) TestPointers) eqn:Ex; [reflexivity|]. cbn [negb].
        assert (K : flags_on o TK = false).
        { destruct (flags_on o TK) eqn:K; [|reflexivity]. exfalso. assert (existsb (flags_on o) TestPointers = true); [|congruence]. apply existsb_exists. exists TK. split; [cbn; tauto|exact K]. }
        destruct t; try reflexivity. exact K. }
      set (flag' := if Nat.eqb _ 0 then _ else _) in *.
      assert (Er : forall s, run_file e grow np f o fs flag' (names_on o) "" s = run_file e grow np f o fs flag (names_on o) "" s).
      { intros s. destruct Ef as [->|Ef]; [reflexivity|]. unfold run_file. cbn [String.eqb andthen ret app]. f_equal.
        assert (Q : forall l s, each (fun '(nm, fl, fn, desc) s => if flag' fl then _ <<- say (TestHead nm desc);; each (fun name s => if passes o name then call_and_print e grow np f name None (o_lines o) fn s else ret s) (names_on o) s else ret s) l s =
          each (fun '(nm, fl, fn, desc) s => if flag fl then _ <<- say (TestHead nm desc);; each (fun name s => if passes o name then call_and_print e grow np f name None (o_lines o) fn s else ret s) (names_on o) s else ret s) l s).
        { induction l as [|[[[nm fl] fn] desc] l IH]; intros u; [reflexivity|]. cbn [each]. rewrite Ef. destruct (flag fl).
          - destruct (andthen (say (TestHead nm desc)) _) as [x [u'| | |]]; try reflexivity. cbn [andthen]. now rewrite IH.
          - cbn [andthen ret]. now rewrite IH. }
        now rewrite Q. }
      eapply G; [|right].
      * change (SHere :: ?l) with ([SHere] ++ l). apply goes_app; [apply (goes_one e np f o fs SHere [Here] true); [reflexivity|reflexivity|now split]|]. apply goes_file; assumption.
      * unfold say. rewrite !andthen_ok. now rewrite Er.
    + eapply G; [apply goes_each; intros y; apply goes_file; assumption|now right].
Qed.

(** C112.  A run of the command prints the pieces of its plan one after the other, up to the first
    that fails, and ends or crashes accordingly: each test prints what it would print alone,
    whatever ran before it, with the bucket count and the seeds of its turn. *)
Theorem c112_output e grow np f o fs n m : fine_run e f fs m -> exists a ok, stitched (piece e np f o fs) (plan f o n) a ok /\
  (if ok then exists s, ht_main e grow np f o fs n m = (a, Ok s) else ht_main e grow np f o fs n m = (a, Panics)).
Proof. apply plan_ok. Qed.
Print Assumptions c112_output.

(** ** Without counting names the output is a function *)
Lemma number_In f l : forall n d x, In x (number f n d l) -> match x with SRun file name t _ _ => In (SRun file name t 0 0) l \/ exists n' d', In (SRun file name t n' d') l | x => In x l end.
Proof.
  induction l as [|y l IH]; intros n d x H; [contradiction|].
  destruct y; cbn [number] in H; (destruct H as [<-|H]; [try (now left); right; eexists _, _; now left|]); specialize (IH _ _ _ H); destruct x; cbn [In]; try tauto;
    (destruct IH as [IH|(n' & d' & IH)]; [left; tauto|right; exists n', d'; now right]).
Qed.
Lemma plan_names f o n file name t n' d : In (SRun file name t n' d) (plan f o n) -> In name (names_on o) /\ passes o name = true.
Proof.
  assert (P : forall flag names fl file name t n d, In (SRun file name t n d) (plan_file f o flag names fl) -> In name names /\ passes o name = true).
  { clear. intros flag names fl file name t n d H. unfold plan_file in H. apply in_app_or in H. destruct H as [H|H].
    - destruct (String.eqb fl ""); [contradiction|]. apply in_app_or in H. destruct H as [H|H]; [destruct (o_lines o <=? 0)%Z|destruct (f_zero f)]; cbn in H; intuition discriminate.
    - apply in_flat_map in H. destruct H as ([[[nm q] fn] desc] & _ & H). destruct (flag q); [|contradiction]. destruct H as [H|H]; [discriminate|].
      apply in_map_iff in H. destruct H as (y & E & H). injection E as _ -> _ _ _. apply filter_In in H. exact H. }
  intros H. unfold plan in H. apply number_In in H.
  assert (Q : exists n' d', In (SRun file name t n' d') (if negb (String.eqb (o_file o) "") then plan_file f o (flags_on o) (names_on o) (o_file o) else match o_args o with
    | _ :: _ => flat_map (plan_file f o (flags_on o) (names_on o)) (o_args o)
    | [] => SHere :: plan_file f o (if existsb (flags_on o) TestPointers then flags_on o else fun t => match t with TI | TJ => true | _ => false end) (names_on o) "" end)).
  { destruct H as [H|(a & b & H)]; eauto. }
  clear H. destruct Q as (a & b & H). destruct (negb _); [now apply P in H|]. destruct (o_args o); [|].
  - destruct H as [H|H]; [discriminate|now apply P in H].
  - apply in_flat_map in H. destruct H as (y & _ & H). now apply P in H.
Qed.
Lemma stitched_until {X} (P : X -> list shown -> bool -> Prop) (g : X -> list shown * bool) l a ok : (forall x a ok, In x l -> P x a ok -> (a, ok) = g x) ->
  stitched P l a ok -> (a, ok) = until (map g l).
Proof.
  intros H S. induction S as [|x l a b ok Hp S IH|x l a Hp]; [reflexivity| |]; cbn [map until].
  - rewrite <- (H x a true (or_introl eq_refl) Hp). rewrite <- IH; [reflexivity|]. intros y c k Hy. apply H. now right.
  - now rewrite <- (H x a false (or_introl eq_refl) Hp).
Qed.
Theorem c112_exact e grow np f o fs n m : fine_run e f fs m -> (forall name, In name (names_on o) -> passes o name = true -> counter name = false) ->
  fst (ht_main e grow np f o fs n m) = fst (until (map (exactly e np f o fs) (plan f o n))) /\
  (if snd (until (map (exactly e np f o fs) (plan f o n))) then exists s, snd (ht_main e grow np f o fs n m) = Ok s else snd (ht_main e grow np f o fs n m) = Panics).
Proof.
  intros Fr Nc. destruct (plan_ok e grow np f o fs n m Fr) as (a & ok & S & R).
  pose proof (stitched_until (piece e np f o fs) (exactly e np f o fs) (plan f o n) a ok) as U.
  rewrite <- U; [|intros x b k Hx Hp|exact S].
  - destruct ok; [destruct R as (s & R)|]; rewrite R; cbn [fst snd]; eauto.
  - destruct x; cbn [piece exactly] in *; try (destruct Hp; congruence).
    apply plan_names in Hx. destruct Hx as [Hx Hx']. now rewrite (Nc _ Hx Hx') in Hp.
Qed.
Print Assumptions c112_exact.

(** ** Cutting a run *)
Lemma stitched_cut {X} (P : X -> list shown -> bool -> Prop) l1 x l2 a ok : (forall b, ~ P x b true) -> stitched P (l1 ++ x :: l2) a ok ->
  ok = false /\ stitched P (l1 ++ [x]) a false.
Proof.
  intros H. revert a. induction l1 as [|y l1 IH]; intros a S; cbn [app] in *; inversion S; subst; clear S.
  - exfalso. eapply H. eassumption.
  - split; [reflexivity|now apply st_stop].
  - match goal with T : stitched P (l1 ++ x :: l2) _ _ |- _ => destruct (IH _ T) as [-> S] end. split; [reflexivity|]. now apply st_next.
  - split; [reflexivity|now apply st_stop].
Qed.
Lemma stitched_split {X} (P : X -> list shown -> bool -> Prop) l1 l2 a ok : (forall x b k, In x l1 -> P x b k -> k = true) -> stitched P (l1 ++ l2) a ok ->
  exists b c, a = b ++ c /\ stitched P l1 b true /\ stitched P l2 c ok.
Proof.
  intros H. revert a. induction l1 as [|y l1 IH]; intros a S; cbn [app] in *; [exists [], a; repeat split; auto; constructor|].
  inversion S; subst; clear S.
  - match goal with T : stitched P (l1 ++ l2) _ _ |- _ => destruct (IH (fun x b k Hx => H x b k (or_intror Hx)) _ T) as (b' & c & -> & S1 & S2) end. exists (a0 ++ b'), c. split; [apply app_assoc|]. split; [now apply st_next|exact S2].
  - match goal with T : P y _ false |- _ => apply H in T; [discriminate|now left] end.
Qed.
Lemma stitched_lines {X} (P : X -> list shown -> bool -> Prop) (Q : shown -> Prop) l a ok : (forall x b k, In x l -> P x b k -> Forall Q b) -> stitched P l a ok -> Forall Q a.
Proof.
  intros H S. induction S as [|x l a b ok Hp S IH|x l a Hp]; [constructor| |].
  - apply Forall_app. split; [eapply H; [now left|exact Hp]|]. apply IH. intros y c k Hy. apply H. now right.
  - eapply H; [now left|exact Hp].
Qed.
Lemma stitched_true {X} (P : X -> list shown -> bool -> Prop) l a ok : (forall x b k, In x l -> P x b k -> k = true) -> stitched P l a ok -> ok = true.
Proof.
  intros H S. induction S as [|x l a b ok Hp S IH|x l a Hp]; [reflexivity| |].
  - apply IH. intros y c k Hy. apply H. now right.
  - apply (H x a); [now left|exact Hp].
Qed.

(** Runs without obstacles end. *)
Lemma clear_true e np f o fs x a ok : cf_oa (f_cf f) = false -> clear_way np f o fs x -> piece e np f o fs x a ok -> ok = true.
Proof.
  intros Oa C Hp. destruct x as [|file|file|nm desc|file name t n d]; cbn [piece clear_way] in *; try (destruct Hp; congruence).
  destruct C as (C1 & C2 & C3 & C4 & C5 & C6). destruct (counter name) eqn:Hc.
  - destruct Hp as [_ Hp]. rewrite (Hp Oa C1 C3 C4).
    assert (R : negb (reads t) || whole fs file = true) by (destruct (reads t); [rewrite C2 by reflexivity; reflexivity|reflexivity]). rewrite R.
    destruct t; try reflexivity. cbn [andb]. apply Z.ltb_lt. now apply C6.
  - destruct C5 as [C5|C5]; [congruence|].
    assert (Go : forall ks, exists T, insert_all (named e name (seed64 f)) (empty_table np f (table_for f o fs file t n)) ks = Ret T).
    { intros ks. unfold empty_table in *. rewrite Oa in *. destruct (c01_chained_contents np (table_for f o fs file t n) (cf_extra (f_cf f)) (cf_prime (f_cf f)) (named e name (seed64 f)) ks C3 C4) as (T & E & _). eauto. }
    destruct (Go (test_keys f fs file t)) as (T & E).
    assert (R : negb (reads t) || whole fs file = true) by (destruct (reads t); [rewrite C2 by reflexivity; reflexivity|reflexivity]).
    unfold section in Hp. fold (seed64 f) in Hp. destruct t; try (rewrite E, C5, R in Hp; cbn [andb] in Hp; congruence); [congruence|].
    rewrite C5 in Hp. replace (0 <? changed f n)%Z with true in Hp by (symmetry; apply Z.ltb_lt, C6; reflexivity). cbn [andb] in Hp. congruence.
Qed.
Theorem c112_completes e grow np f o fs n m : fine_run e f fs m -> cf_oa (f_cf f) = false -> Forall (clear_way np f o fs) (plan f o n) ->
  exists s, snd (ht_main e grow np f o fs n m) = Ok s.
Proof.
  intros Fr Oa C. destruct (plan_ok e grow np f o fs n m Fr) as (a & ok & S & R). rewrite Forall_forall in C.
  assert (ok = true) as -> by (eapply stitched_true; [|exact S]; intros x b k Hx Hp; eapply clear_true; eauto).
  destruct R as (s & ->). now exists s.
Qed.
Print Assumptions c112_completes.

(** ** "skein256" is on the list of all hash functions, but there is no such hash function *)
Lemma skein_stops e np f o fs file t n d a : has_key f fs file t -> ~ piece e np f o fs (SRun file "skein256" t n d) a true.
Proof.
  intros K Hp. cbn [piece] in Hp. change (counter "skein256") with false in Hp. cbv iota in Hp.
  assert (T : forall k : key, acceptsb (length k) "skein256" = false).
  { intros k. unfold acceptsb. replace (existsb _ known) with false by reflexivity. reflexivity. }
  assert (T' : forall ks : list key, ks <> [] -> takes "skein256" ks = false) by (intros [|k ks] H; [congruence|]; cbn [takes forallb]; unfold takes; cbn [forallb]; now rewrite T).
  destruct t; cbn [has_key] in K; unfold section in Hp;
    try (rewrite (T' _ K) in Hp; destruct (insert_all _ _ _); cbn [andb] in Hp; congruence).
  - destruct K as [K1 K2]. unfold seeds in Hp. destruct (Z.to_nat (f_ns f mod 2 ^ 64)) as [|k] eqn:E.
    { pose proof (Z.mod_pos_bound (f_ns f) (2 ^ 64) ltac:(lia)). lia. }
    cbn [seq map flat_map] in Hp. unfold one_seed at 1 in Hp. destruct (lines_of fs file) as [|l ls]; [congruence|]. cbn [map app] in Hp.
    rewrite (T' [repeat 0 1000] ltac:(discriminate)) in Hp. cbn [until] in Hp. congruence.
  - rewrite (T' (keysI (cf_ni (f_cf f)))), andb_false_r in Hp; [congruence|]. unfold keysI. destruct (Z.to_nat (cf_ni (f_cf f))) eqn:E; [lia|discriminate].
Qed.
(** Whatever the plan says after a test with "skein256" that has a key is not done. *)
Theorem c112_skein256 e grow np f o fs n m file t n' d l1 l2 : fine_run e f fs m -> has_key f fs file t ->
  plan f o n = l1 ++ SRun file "skein256" t n' d :: l2 ->
  exists a, ht_main e grow np f o fs n m = (a, Panics) /\ stitched (piece e np f o fs) (l1 ++ [SRun file "skein256" t n' d]) a false.
Proof.
  intros Fr K E. destruct (plan_ok e grow np f o fs n m Fr) as (a & ok & S & R). rewrite E in S.
  destruct (stitched_cut _ _ _ _ _ _ (fun b => skein_stops e np f o fs file t n' d b K) S) as [-> S']. exists a. auto.
Qed.
Print Assumptions c112_skein256.

(** ** The headings of a run *)
Definition belongs (name : string) (y : shown) : Prop := match y with FuncHead x => x = name | Here | ZeroHead | TestHead _ _ => False | _ => True end.
Lemma until_lines (Q : shown -> Prop) l : Forall (fun p => Forall Q (fst p)) l -> Forall Q (fst (until l)).
Proof.
  induction 1 as [|[a [|]] l H _ IH]; [constructor| |exact H]. cbn [until]. destruct (until l) as [b ok]. cbn [fst] in *. now apply Forall_app.
Qed.
Lemma ending_lines f T d name : Forall (belongs name) (ending f T d).
Proof.
  unfold ending. apply Forall_app. split; [destruct (f_show f); repeat constructor|]. constructor; [|constructor]. unfold summary. destruct (is_oa T); exact I.
Qed.
Lemma opening_lines f name t n : Forall (belongs name) (opening f name t n).
Proof. unfold opening. constructor; [reflexivity|]. destruct t; repeat constructor. Qed.
Lemma section_lines e np f o fs file name t n d : Forall (belongs name) (fst (section e np f o fs file name t n d)).
Proof.
  assert (G : forall x : outcome table, forall b d2, Forall (belongs name) (fst (match x with Ret T => if b : bool then (opening f name t n ++ ending f T d2, true) else (opening f name t n, false) | _ => (opening f name t n, false) end))).
  { intros x b d2. destruct x; [destruct b| |]; cbn [fst]; rewrite ?Forall_app; auto using opening_lines, ending_lines. }
  unfold section. destruct t; try apply G.
  - pose proof (until_lines (belongs name) (flat_map (one_seed e fs file name) (seeds f d))) as U. destruct (until _) as [a ok]. cbn [fst] in *.
    apply Forall_app. split; [apply opening_lines|]. apply Forall_app. split; [|destruct ok; [apply ending_lines|constructor]]. apply U.
    apply Forall_flat_map. apply Forall_forall. intros s _. unfold one_seed. apply Forall_app. split; [|repeat constructor].
    apply Forall_forall. intros p Hp. apply in_map_iff in Hp. destruct Hp as (l & <- & _). destruct (takes _ _); [|constructor]. destruct (hexToBytes l); repeat constructor.
  - destruct (_ && _); cbn [fst]; [|apply opening_lines]. rewrite !Forall_app. split; [apply opening_lines|]. split; [repeat constructor|apply ending_lines].
Qed.
Lemma run_lines e np f o fs file name t n d a ok : piece e np f o fs (SRun file name t n d) a ok -> Forall (belongs name) a.
Proof.
  cbn [piece]. destruct (counter name).
  - intros [(rest & -> & Fi & _) _]. apply Forall_app. split; [apply opening_lines|]. revert Fi. apply Forall_impl. intros y; destruct y; cbn; tauto.
  - intros E. pose proof (section_lines e np f o fs file name t n d) as L. rewrite <- E in L. exact L.
Qed.

(** ** The command without arguments *)
Lemma takes_four name ni : acceptsb 4 name = true -> takes name (keysI ni) = true.
Proof.
  intros H. apply forallb_forall. intros k Hk. unfold keysI in Hk. apply in_map_iff in Hk. destruct Hk as (i & <- & _). exact H.
Qed.
Definition plain_opts : opts := mkOpts "" [] 0 "all" false false false false false false false (fun _ => false).
Definition plain_flags : flags := mkFlags (mkConfig 1 false false 4096 false) 1 0 false false (fun _ => 0).
(** Without arguments the command is to run tests I and J with all hash functions: it crashes in
    test I, at "skein256"; test J and two of the hash functions have no turn. *)
Theorem c112_default_refuted : exists f o n, forall e grow np fs m, fine_run e f fs m ->
  exists b, ht_main e grow np f o fs n m = (b ++ [FuncHead "skein256"; IntLine 4096 4096], Panics) /\
    (forall name, In (FuncHead name) b <-> In name (firstn 42 TestHashFunctions)) /\
    (exists desc, In (TestHead "TestI" desc) b) /\ (forall desc, ~ In (TestHead "TestJ" desc) b) /\
    TestHashFunctions = firstn 42 TestHashFunctions ++ ["skein256"; "whirlpool"; "blake2b"]%string.
Proof.
  exists plain_flags, plain_opts, 4096%Z. intros e grow np fs m Fr.
  set (desc := "integers from 0 to ni-1 (does not read file)"%string).
  set (l1 := SHere :: SHead "TestI" desc :: map (fun nm => SRun "" nm TI 4096 0) (firstn 42 TestHashFunctions)).
  set (l2 := map (fun nm => SRun "" nm TI 4096 0) (skipn 43 TestHashFunctions) ++
    SHead "TestJ" "one bit keys (does not read file)" :: map (fun nm => SRun "" nm TJ 4096 0) TestHashFunctions).
  assert (E : plan plain_flags plain_opts 4096 = l1 ++ SRun "" "skein256" TI 4096 0 :: l2) by (unfold l1, l2, desc; vm_compute; reflexivity).
  destruct (c112_skein256 e grow np plain_flags plain_opts fs 4096 m "" TI 4096 0 l1 l2 Fr ltac:(discriminate) E) as (a & R & S).
  assert (Cl : forall x b k, In x l1 -> piece e np plain_flags plain_opts fs x b k -> k = true).
  { intros x b k Hx. apply clear_true; [reflexivity|]. destruct Hx as [<-|[<-|Hx]]; [exact I|exact I|]. apply in_map_iff in Hx. destruct Hx as (nm & <- & Hx).
    cbn [clear_way]. split; [discriminate|]. split; [discriminate|].
    assert (Sz : size (empty_table np plain_flags (table_for plain_flags plain_opts fs "" TI 4096)) = 8192) by reflexivity. rewrite Sz.
    split; [lia|]. split; [reflexivity|]. split; [|discriminate]. right. apply takes_four.
    assert (F : forallb (acceptsb 4) (firstn 42 TestHashFunctions) = true) by reflexivity. rewrite forallb_forall in F. now apply F. }
  destruct (stitched_split _ l1 _ a false Cl S) as (b & c & -> & S1 & S2). exists b.
  assert (Ec : c = [FuncHead "skein256"; IntLine 4096 4096]).
  { inversion S2 as [|x l a' b' ok P T|x l a' P]; subst; [inversion T|]. cbn [piece] in P. change (counter "skein256") with false in P. cbv iota in P.
    unfold section in P. replace (takes "skein256" (test_keys plain_flags fs "" TI)) with false in P by reflexivity.
    assert (Q : (c, false) = (opening plain_flags "skein256" TI 4096, false)) by (destruct (insert_all _ _ _); exact P). now injection Q. }
  split; [rewrite R, Ec; reflexivity|].
  assert (L : Forall (fun y => match y with FuncHead nm => In nm (firstn 42 TestHashFunctions) | TestHead nm _ => nm = "TestI"%string | _ => True end) b).
  { eapply stitched_lines; [|exact S1]. intros x b' k Hx Hp. destruct Hx as [<-|[<-|Hx]]; [destruct Hp as [-> _]; repeat constructor|destruct Hp as [-> _]; repeat constructor|].
    apply in_map_iff in Hx. destruct Hx as (nm & <- & Hx). apply run_lines in Hp. revert Hp. apply Forall_impl. intros y; destruct y; cbn [belongs]; try tauto. now intros ->. }
  assert (Hin : forall x, In x l1 -> forall y, (forall b' k, piece e np plain_flags plain_opts fs x b' k -> In y b') -> In y b).
  { clear -S1. intros x Hx y Hy. revert Hx. remember true as ok eqn:Eok. induction S1 as [|z l a' b' ok P T IH|z l a' P]; intros Hx; [contradiction| |discriminate].
    apply in_or_app. destruct Hx as [->|Hx]; [left; eapply Hy, P|right; apply IH; auto]. }
  rewrite Forall_forall in L. split; [|split; [|split; [|reflexivity]]].
  - intros name. split; [intros H; apply L in H; exact H|]. intros H. apply (Hin (SRun "" name TI 4096 0)).
    + right. right. apply in_map_iff. exists name. auto.
    + intros b' k Hp. cbn [piece] in Hp. destruct (counter name); [destruct Hp as [(rest & -> & _) _]; now left|].
      unfold section in Hp. destruct (insert_all _ _ _); [destruct (_ && _)| |]; injection Hp as -> _; now left.
  - exists desc. apply (Hin (SHead "TestI" desc)); [right; now left|]. intros b' k [-> _]. now left.
  - intros d H. apply L in H. discriminate.
Qed.
Print Assumptions c112_default_refuted.

(** ** What a test prints does not depend on the rest of the command *)
Lemma stitched_in {X} (P : X -> list shown -> bool -> Prop) l a ok x : stitched P l a ok -> ok = true -> In x l -> exists b c d, a = b ++ c ++ d /\ P x c true.
Proof.
  intros S. induction S as [|y l a b ok Hp S IH|y l a Hp]; intros E Hx; [contradiction| |discriminate]. destruct Hx as [->|Hx].
  - exists [], a, b. auto.
  - destruct (IH E Hx) as (b' & c & d & -> & Pc). exists (a ++ b'), c, d. split; [now rewrite <- app_assoc|exact Pc].
Qed.
Lemma number_same f l : cf_dru (f_cf f) = false -> forall n d x, In x (number f n d l) -> match x with SRun _ _ _ n' _ => n' = n | _ => True end.
Proof.
  intros Dr. induction l as [|y l IH]; intros n d x H; [contradiction|].
  destruct y as [|file|file|nm desc|file name t n1 d1]; cbn [number] in H; (destruct H as [<-|H]; [try exact I; reflexivity|]); try now apply IH in H.
  apply IH in H. destruct x; try exact I. rewrite H. unfold changed. rewrite Dr. destruct t; reflexivity.
Qed.
Lemma section_same e np f o o' fs fs' file name t n d d' : t <> TK -> o_lines o = o_lines o' -> text fs file = text fs' file ->
  section e np f o fs file name t n d = section e np f o' fs' file name t n d'.
Proof.
  intros Ht El Et. unfold section, table_for, test_keys, whole, lines_for, lines_of. rewrite El, Et. destruct t; try reflexivity. congruence.
Qed.
(** Two commands with the same flags for the tables and the same -n, -l and file contents: a test that
    both run prints the same in both, whatever else they run and whatever memory they begin with. *)
Theorem c112_unaffected e grow grow' np f o o' fs fs' n m m' file name t n1 d1 n2 d2 s s' : fine_run e f fs m -> fine_run e f fs' m' ->
  cf_dru (f_cf f) = false -> counter name = false -> t <> TK -> o_lines o = o_lines o' -> text fs file = text fs' file ->
  In (SRun file name t n1 d1) (plan f o n) -> In (SRun file name t n2 d2) (plan f o' n) ->
  snd (ht_main e grow np f o fs n m) = Ok s -> snd (ht_main e grow' np f o' fs' n m') = Ok s' ->
  exists sec a b a' b', section e np f o fs file name t n 0 = (sec, true) /\ hd Here sec = FuncHead name /\
    fst (ht_main e grow np f o fs n m) = a ++ sec ++ b /\ fst (ht_main e grow' np f o' fs' n m') = a' ++ sec ++ b'.
Proof.
  intros Fr Fr' Dr Nc Ht El Et I1 I2 R1 R2.
  assert (G : forall grow o fs m n1 d1 s, fine_run e f fs m -> In (SRun file name t n1 d1) (plan f o n) -> snd (ht_main e grow np f o fs n m) = Ok s ->
    exists sec a b, section e np f o fs file name t n 0 = (sec, true) /\ fst (ht_main e grow np f o fs n m) = a ++ sec ++ b).
  { clear - Dr Nc Ht. intros grow o fs m n1 d1 s Fr I1 R1. destruct (plan_ok e grow np f o fs n m Fr) as (x & ok & S & R).
    destruct ok; [destruct R as (s0 & R)|rewrite R in R1; discriminate]. destruct (stitched_in _ _ _ _ _ S eq_refl I1) as (a & c & b & -> & P).
    assert (n1 = n) as -> by (unfold plan in I1; now apply (number_same f _ Dr) in I1).
    cbn [piece] in P. rewrite Nc in P. rewrite (section_same e np f o o fs fs file name t n d1 0 Ht eq_refl eq_refl) in P.
    exists c, a, b. split; [now symmetry|]. now rewrite R. }
  destruct (G grow o fs m n1 d1 s Fr I1 R1) as (sec & a & b & Es & Ea). destruct (G grow' o' fs' m' n2 d2 s' Fr' I2 R2) as (sec' & a' & b' & Es' & Ea').
  rewrite (section_same e np f o' o fs' fs file name t n 0 0) in Es' by auto. rewrite Es in Es'. injection Es' as <-.
  exists sec, a, b, a', b'. repeat split; auto.
  unfold section in Es. destruct t; try congruence; try (destruct (insert_all _ _ _) in Es; [|discriminate|discriminate]);
    match type of Es with (if ?c then _ else _) = _ => destruct c; [|discriminate] end; injection Es as <-; reflexivity.
Qed.
Print Assumptions c112_unaffected.

(** ** Files, but no test flag: nothing is printed *)
Theorem c112_no_tests e grow np f o fs n m : fine_run e f fs m -> f_zero f = false -> (forall t, flags_on o t = false) -> o_file o = ""%string -> o_args o <> [] ->
  fst (ht_main e grow np f o fs n m) = [] /\
  ((exists s, snd (ht_main e grow np f o fs n m) = Ok s) <-> ((0 < o_lines o)%Z \/ forall file, In file (o_args o) -> file <> ""%string -> whole fs file = true)).
Proof.
  intros Fr Z0 Nf Of Oa. destruct (plan_ok e grow np f o fs n m Fr) as (a & ok & S & R).
  assert (Pf : forall file, plan_file f o (flags_on o) (names_on o) file = if String.eqb file "" then [] else if (o_lines o <=? 0)%Z then [SCount file] else []).
  { intros file. unfold plan_file. rewrite Z0, app_nil_r.
    assert (Q : forall l : list (string * test * test * string), flat_map (fun '(nm, fl, fn, desc) => if flags_on o fl then SHead nm desc :: map (fun name => SRun file name fn 0 0) (filter (passes o) (names_on o)) else []) l = []).
    { induction l as [|[[[nm fl] fn] desc] l IH]; [reflexivity|]. cbn [flat_map]. now rewrite Nf, IH. }
    now rewrite Q, app_nil_r. }
  assert (Nm : forall l n d, (forall x, In x l -> match x with SRun _ _ _ _ _ => False | _ => True end) -> number f n d l = l).
  { induction l as [|y l IH]; intros n0 d0 H; [reflexivity|]. specialize (H y (or_introl eq_refl)) as Hy. destruct y; try contradiction; cbn [number]; rewrite IH; auto; intros z Hz; apply H; now right. }
  assert (Ep : plan f o n = flat_map (fun file => if String.eqb file "" then [] else if (o_lines o <=? 0)%Z then [SCount file] else []) (o_args o)).
  { unfold plan. rewrite Of. cbn [String.eqb negb]. destruct (o_args o) as [|x l]; [congruence|]. rewrite (flat_map_ext _ _ Pf). apply Nm.
    intros y Hy. apply in_flat_map in Hy. destruct Hy as (z & _ & Hy). destruct (String.eqb z ""); [contradiction|]. destruct (o_lines o <=? 0)%Z; [|contradiction]. destruct Hy as [<-|[]]. exact I. }
  rewrite Ep in S. clear Ep Nm Pf.
  assert (G : a = [] /\ (ok = true <-> (0 < o_lines o)%Z \/ forall file, In file (o_args o) -> file <> ""%string -> whole fs file = true)).
  { clear R Oa. destruct (Z.leb_spec (o_lines o) 0) as [L|L].
    - revert a S. induction (o_args o) as [|x l IH]; intros a S.
      { inversion S. split; [reflexivity|]. split; [right; contradiction|reflexivity]. }
      cbn [flat_map] in S. destruct (String.eqb_spec x "") as [->|Hx]; cbn [app] in S.
      + destruct (IH _ S) as [-> IH']. split; [reflexivity|]. rewrite IH'. split; (intros [H|H]; [lia|right]); intros y Hy Ny; apply H; auto; [destruct Hy; congruence|now right].
      + inversion S as [|? ? c b ok' P T|? ? c P]; subst; destruct P as [-> Pw].
        * destruct (IH _ T) as [-> IH']. split; [reflexivity|]. rewrite IH'. split; (intros [H|H]; [lia|right]); intros y Hy Ny; [destruct Hy as [<-|Hy]; auto|apply H; auto; now right].
        * split; [reflexivity|]. split; [discriminate|]. intros [H|H]; [lia|]. rewrite Pw. apply H; auto. now left.
    - assert (E : flat_map (fun file : string => if String.eqb file "" then [] else []) (o_args o) = @nil step).
      { clear. induction (o_args o) as [|x l IH]; [reflexivity|]. cbn [flat_map]. rewrite IH. now destruct (String.eqb x ""). }
      rewrite E in S. inversion S. split; [reflexivity|]. split; [now left|reflexivity]. }
  destruct G as [-> G]. destruct ok; [destruct R as (s & R)|]; rewrite R; cbn [fst snd]; (split; [reflexivity|]); rewrite <- G.
  - split; eauto.
  - split; [intros (s & H); discriminate|discriminate].
Qed.
Print Assumptions c112_no_tests.

(** ** Cases *)
(** "ht -A -B -hf j264 words", the file having two lines. *)
Definition words_file (file : string) : option (list N) := if String.eqb file "words" then Some [97; 98; 10; 99; 10] else None.
Definition demo_opts (ts : test -> bool) : opts := mkOpts "" ["words"%string] 0 "j264" false false false false false false false ts.
Definition testsAB (t : test) : bool := match t with TA | TB => true | _ => false end.
Definition testsBI (t : test) : bool := match t with TB | TI => true | _ => false end.
Definition small_flags : flags := mkFlags (mkConfig 1 false false 3 false) 1 0 false false (fun _ => 0).
Lemma demo_fine f m : (forall i, f_draw f i < 2 ^ 64) -> Forall bytes_ok m -> fine_run toy f words_file m.
Proof.
  intros Hd Hm. split; [exact toy_ok|]. split; [exact Hd|]. split; [|exact Hm]. intros file s E. unfold words_file in E. destruct (String.eqb file "words"); [|discriminate].
  injection E as <-. split; [|reflexivity]. repeat constructor.
Qed.
Example c112_nonvacuous_output : fine_run toy small_flags words_file [[1; 2]] /\
  (forall name, In name (names_on (demo_opts testsAB)) -> passes (demo_opts testsAB) name = true -> counter name = false) /\
  plan small_flags (demo_opts testsAB) 4 = [SCount "words"; SHead "TestA" "insert keys"; SRun "words" "j264" TA 4 0; SHead "TestB" "add newline to key"; SRun "words" "j264" TB 4 0] /\
  fst (ht_main toy (fun _ b => b) (fun x => x) small_flags (demo_opts testsAB) words_file 4 [[1; 2]]) =
    [TestHead "TestA" "insert keys"; FuncHead "j264"; Chained 4 2 2 0 0 0 0 [0; 1; 0; 1]%nat;
     TestHead "TestB" "add newline to key"; FuncHead "j264"; Chained 4 2 2 0 0 0 0 [0; 1; 1; 0]%nat].
Proof.
  split; [apply demo_fine; [reflexivity|repeat constructor]|]. split; [intros name [<-|[]] _; reflexivity|]. split; vm_compute; reflexivity.
Qed.
(** Test B prints the same with test I behind it, from another memory. *)
Example c112_nonvacuous_unaffected : fine_run toy small_flags words_file [] /\ In (SRun "words" "j264" TB 4 0) (plan small_flags (demo_opts testsBI) 4) /\
  (exists s, snd (ht_main toy (fun _ b => b) (fun x => x) small_flags (demo_opts testsBI) words_file 4 []) = Ok s) /\
  fst (ht_main toy (fun _ b => b) (fun x => x) small_flags (demo_opts testsBI) words_file 4 []) =
    [TestHead "TestB" "add newline to key"; FuncHead "j264"; Chained 4 2 2 0 0 0 0 [0; 1; 1; 0]%nat;
     TestHead "TestI" "integers from 0 to ni-1 (does not read file)"; FuncHead "j264"; IntLine 4 3; Chained 8 3 3 0 0 0 0 [0; 1; 0; 0; 0; 1; 1; 0]%nat].
Proof.
  split; [apply demo_fine; [reflexivity|constructor]|]. split; [vm_compute; tauto|]. split; [eexists|]; vm_compute; reflexivity.
Qed.
Example c112_nonvacuous_completes : cf_oa (f_cf small_flags) = false /\ Forall (clear_way (fun x => x) small_flags (demo_opts testsAB) words_file) (plan small_flags (demo_opts testsAB) 4).
Proof.
  split; [reflexivity|]. destruct c112_nonvacuous_output as (_ & _ & -> & _).
  repeat apply Forall_cons; try apply Forall_nil; cbn [clear_way]; try exact I; try (vm_compute; reflexivity);
    (split; [discriminate|]); (split; [reflexivity|]); (split; [vm_compute; discriminate|]); (split; [vm_compute; reflexivity|]); (split; [right; vm_compute; reflexivity|discriminate]).
Qed.
(** "ht -A -hf skein256 words": the heading of the function, then the crash. *)
Definition skein_opts : opts := mkOpts "" ["words"%string] 0 "skein256" false false false false false false false (fun t => match t with TA => true | _ => false end).
Example c112_nonvacuous_skein256 : has_key small_flags words_file "words" TA /\
  plan small_flags skein_opts 4 = [SCount "words"; SHead "TestA" "insert keys"] ++ SRun "words" "skein256" TA 4 0 :: [] /\
  ht_main toy (fun _ b => b) (fun x => x) small_flags skein_opts words_file 4 [] = ([TestHead "TestA" "insert keys"; FuncHead "skein256"], Panics).
Proof. split; [vm_compute; discriminate|]. split; vm_compute; reflexivity. Qed.
(** "ht words" and "ht other": nothing, or a crash. *)
Example c112_nonvacuous_no_tests :
  let o := fun file => mkOpts "" [file] 0 "all" false false false false false false false (fun _ => false) in
  fst (ht_main toy (fun _ b => b) (fun x => x) small_flags (o "words"%string) words_file 4 []) = [] /\
  (exists s, snd (ht_main toy (fun _ b => b) (fun x => x) small_flags (o "words"%string) words_file 4 []) = Ok s) /\
  ht_main toy (fun _ b => b) (fun x => x) small_flags (o "other"%string) words_file 4 [] = ([], Panics).
Proof. cbv zeta. split; [vm_compute; reflexivity|]. split; [eexists|]; vm_compute; reflexivity. Qed.
