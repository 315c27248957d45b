(** Theorems about "-sm" (C89) and "-b" (C90) of /repo/ht.go with the hash
    functions of package hashf. *)
From Coq Require Import NArith ZArith List Arith String Bool Lia.
From Verif Require Import Words WordLemmas ListLemmas Mem KeccakModel HashfModel HashfSpec HashfProofs HashfProps SpookySpec SpookyProps HtModel SmhModel SmhSpec SmhProofs
  SmhProps SmhProps2 RunModel RunSpec RunProofs RunProofs2 RunProofs3 RunProofs4 RunProofs5.
Import ListNotations.
Open Scope N_scope.
Open Scope list_scope.

(** Random bytes for the examples. *)
Definition dull : run_randoms := mkRun (mkRandoms (fun _ _ _ => repeat 1 176) (fun _ _ _ => repeat 2 176) (fun n _ => repeat 3 (n - 4))) [].
Lemma repeat_bytes x n : x < 256 -> bytes_ok (repeat x n).
Proof. intros H. apply Forall_forall. intros y Hy. apply repeat_spec in Hy. now subst. Qed.
Lemma dull_ok : randoms_ok dull.
Proof.
  split; [|split; [|constructor]]; cbn [dull rr_of r_b r_c r_cyclic]; intros.
  - split; [now apply repeat_bytes|]. split; [apply repeat_length|]. split; [now apply repeat_bytes|]. apply repeat_length.
  - split; [now apply repeat_bytes|apply repeat_length].
Qed.
Definition sm_all (c h32 h64 : bool) : opts := mkOpts "" [] 0 "all" false c h32 h64 false false true (fun _ => false).
Definition sm_one (name : string) : opts := mkOpts "" [] 0 name false false false false false false true (fun _ => false).
Definition b_all (c h32 h64 hcb : bool) : opts := mkOpts "" [] 0 "all" false c h32 h64 true hcb false (fun _ => false).
Definition b_one (name : string) (hcb : bool) : opts := mkOpts "" [] 0 name false false false false true hcb false (fun _ => false).

(** ** C89: "-sm" *)
(** Whatever a client does with Hashf, for a name other than the two counters the
    calls behave as one function of bytes and seed: no call changes the answer to
    a later one. *)
Theorem c89_client : forall A e grow name (p : prog A) w, ext_ok e -> world_ok w -> counter name = false ->
  In name known -> valid (needs_bytes name) p ->
  exists w', through e grow name p w = Ok (with_fun (answer e name) p, w') /\ world_ok w'.
Proof.
  intros A e grow name p w He O Hc K V. apply (known_table e) in K. destruct K as [K|K]; [congruence|].
  apply through_ok; auto. now rewrite shortest_needs.
Qed.
Print Assumptions c89_client.
Definition two_calls : prog (N * N) := Ask [1; 2; 3] 1 2 0 (fun h => Ask [2; 3] 0 2 0 (fun g => Done (h, g))).
Example c89_client_nonvacuous : ext_ok toy /\ world_ok (init []) /\ counter "sbox" = false /\ In "sbox"%string known /\ valid (needs_bytes "sbox") two_calls.
Proof.
  split; [exact toy_ok|]. split; [apply init_ok; constructor|]. split; [reflexivity|]. split; [cbn; tauto|].
  cbn. repeat split; try reflexivity; try lia; repeat constructor.
Qed.

(** The reports, one for each name tested. *)
Theorem c89_reports : forall e grow rr v n o m name l, ext_ok e -> randoms_ok rr -> Forall bytes_ok m -> o_sm o = true ->
  In (Tested name l) (fst (run_reports e grow rr v n (main_jobs o) (init m))) ->
  if existsb (String.eqb name) ["nullhash"; "nullhashF64ns"]%string
  then map fst l = map (fun x => if v then Some (snd x) else None) STests /\ map (fun x => N.of_nat (snd x)) l = 20480 :: repeat 0 10
  else l = RunSMhasher (answer e name) (rr_of rr) name v.
Proof.
  intros e grow rr v n o m name l He R Hm Hs I.
  assert (J : exists names, main_jobs o = map SMHasher names).
  { unfold main_jobs. rewrite Hs. destruct (o_hf o =? "all")%string; [eexists; reflexivity|]. exists [o_hf o]. reflexivity. }
  destruct J as (names & J). rewrite J, (sm_run e grow rr v n names He R (init m) (init_ok m Hm)) in I. cbn [fst] in I.
  apply in_map_iff in I. destruct I as (x & E & _).
  assert (X : x = name /\ sm_lines e rr v x = l) by (inversion E; auto). destruct X as [-> <-].
  cbn [existsb]. rewrite orb_false_r. unfold sm_lines. change ((name =? "nullhash")%string || (name =? "nullhashF64ns")%string) with (counter name).
  destruct (counter name); [|reflexivity]. rewrite !map_map.
  split; [apply map_ext; now intros (t & d)|]. unfold STests. cbn [map snd]. rewrite rounds_length. reflexivity.
Qed.
Print Assumptions c89_reports.

(** They are in the order of the jobs; a run that does not get through stops at the
    first name that does not accept every key. *)
Lemma before_rest {A} (f : A -> bool) l : exists r, l = before f l ++ r /\ (forall x, In x (before f l) -> f x = true) /\
  match r with [] => forallb f l = true | x :: _ => f x = false /\ forallb f l = false end.
Proof.
  induction l as [|a l (r & E & H & R)]; [exists []; now split|]. cbn [before forallb]. destruct (f a) eqn:Fa; cbn [andb].
  - exists r. split; [cbn [app]; now rewrite <- E|]. split; [intros x [<-|I]; auto|exact R].
  - exists (a :: l). split; [reflexivity|]. split; [intros x []|auto].
Qed.
Theorem c89_order : forall e grow rr v n o m, ext_ok e -> randoms_ok rr -> Forall bytes_ok m -> o_sm o = true ->
  exists done rest, main_jobs o = map SMHasher (done ++ rest) /\ Forall (accepts 0) done /\
    (exists lines, fst (run_reports e grow rr v n (main_jobs o) (init m)) = map (fun x => Tested (fst x) (snd x)) (combine done lines) /\ length lines = length done) /\
    match rest with
    | [] => snd (run_reports e grow rr v n (main_jobs o) (init m)) = true
    | x :: _ => ~ accepts 0 x /\ snd (run_reports e grow rr v n (main_jobs o) (init m)) = false
    end.
Proof.
  intros e grow rr v n o m He R Hm Hs.
  assert (J : exists names, main_jobs o = map SMHasher names).
  { unfold main_jobs. rewrite Hs. destruct (o_hf o =? "all")%string; [eexists; reflexivity|]. exists [o_hf o]. reflexivity. }
  destruct J as (names & J). rewrite J, (sm_run e grow rr v n names He R (init m) (init_ok m Hm)). cbn [fst snd].
  destruct (before_rest (acceptsb 0) names) as (r & E & B & X). exists (before (acceptsb 0) names), r. split; [now rewrite <- E|].
  split; [apply Forall_forall; intros x I; now apply acceptsb_iff, B|]. split.
  - exists (map (sm_lines e rr v) (before (acceptsb 0) names)). split; [|apply map_length].
    generalize (before (acceptsb 0) names) as l. induction l as [|x l IH]; [reflexivity|]. cbn [map combine fst snd]. now rewrite IH.
  - destruct r as [|x r]; [exact X|]. destruct X as (X & Y). split; [now apply acceptsb_false|exact Y].
Qed.
Print Assumptions c89_order.
Example c89_order_nonvacuous : o_sm (sm_all false true false) = true /\ exists done rest,
  main_jobs (sm_all false true false) = map SMHasher (done ++ "gomap32"%string :: rest) /\ Forall (accepts 0) done /\ length done = 9%nat /\ length rest = 1%nat.
Proof.
  split; [reflexivity|]. exists (before (acceptsb 0) (filter (passes (sm_all false true false)) TestHashFunctions)). exists ["FarmHash32"%string].
  split; [vm_compute; reflexivity|]. split; [|vm_compute; auto]. apply Forall_forall. intros x I. apply acceptsb_iff.
  destruct (before_rest (acceptsb 0) (filter (passes (sm_all false true false)) TestHashFunctions)) as (r & _ & B & _). now apply B.
Qed.

(** Which command lines get through. *)
Lemma all_sm o : o_hf o = "all"%string -> forallb (acceptsb 0) (filter (passes o) TestHashFunctions) = (o_c o || (o_h32 o && o_h64 o))%bool.
Proof.
  intros _. destruct o as [f a li h al c h32 h64 b hcb sm fl]. cbn [o_c o_h32 o_h64].
  assert (E : forall o', o_c o' = c -> o_h32 o' = h32 -> o_h64 o' = h64 -> filter (passes o') TestHashFunctions = filter (passes (sm_all c h32 h64)) TestHashFunctions).
  { intros o' E1 E2 E3. apply filter_ext. intros x. unfold passes. now rewrite E1, E2, E3. }
  rewrite E by reflexivity. destruct c, h32, h64; vm_compute; reflexivity.
Qed.
Theorem c89_command : forall e grow rr v n o m, ext_ok e -> randoms_ok rr -> Forall bytes_ok m -> o_sm o = true ->
  snd (run_reports e grow rr v n (main_jobs o) (init m)) = true <->
  if String.eqb (o_hf o) "all" then o_c o = true \/ (o_h32 o = true /\ o_h64 o = true) else accepts 0 (o_hf o).
Proof.
  intros e grow rr v n o m He R Hm Hs. unfold main_jobs. rewrite Hs. destruct (o_hf o =? "all")%string eqn:Ha.
  - apply String.eqb_eq in Ha. rewrite (sm_run e grow rr v n _ He R (init m) (init_ok m Hm)). cbn [snd]. rewrite (all_sm o Ha), orb_true_iff, andb_true_iff. reflexivity.
  - change [SMHasher (o_hf o)] with (map SMHasher [o_hf o]). rewrite (sm_run e grow rr v n _ He R (init m) (init_ok m Hm)). cbn [snd forallb].
    rewrite andb_true_r. apply acceptsb_iff.
Qed.
Print Assumptions c89_command.
Example c89_command_nonvacuous : o_sm (sm_one "gomap64") = true /\ ~ accepts 0 "gomap64" /\ accepts 0 "sbox" /\ o_c (sm_all true false false) = true /\
  length (filter (passes (sm_all true false false)) TestHashFunctions) = 9%nat.
Proof.
  split; [reflexivity|]. split; [intros (_ & L); cbn in L; lia|]. split; [split; [cbn; tauto|cbn; lia]|]. split; reflexivity.
Qed.
(** "-sm" with no filter should test every hash function in the list; it tests
    two and then crashes. *)
Theorem c89_all_refuted : exists o, o_sm o = true /\ o_hf o = "all"%string /\
  forall e grow rr v n m, ext_ok e -> randoms_ok rr -> Forall bytes_ok m ->
  exists l1 l2, run_reports e grow rr v n (main_jobs o) (init m) = ([Tested "nullhash" l1; Tested "aeshash64" l2], false) /\
    (length (main_jobs o) > 2)%nat.
Proof.
  exists (sm_all false false false). split; [reflexivity|]. split; [reflexivity|]. intros e grow rr v n m He R Hm.
  unfold main_jobs. cbn [sm_all o_sm o_hf String.eqb Ascii.eqb Bool.eqb].
  rewrite (sm_run e grow rr v n _ He R (init m) (init_ok m Hm)).
  assert (B : before (acceptsb 0) (filter (passes (sm_all false false false)) TestHashFunctions) = ["nullhash"; "aeshash64"]%string) by (vm_compute; reflexivity).
  assert (F : forallb (acceptsb 0) (filter (passes (sm_all false false false)) TestHashFunctions) = false) by (vm_compute; reflexivity).
  unfold sm_all in B, F. unfold sm_all. rewrite B, F. cbn [map]. eexists. eexists. split; [reflexivity|]. rewrite map_length. vm_compute. lia.
Qed.
Print Assumptions c89_all_refuted.

(** A name whose hash ignores the seed is told so. *)
Lemma answer_seed e name k s t : In name seedless -> answer e name k s = answer e name k t.
Proof.
  intros H. assert (E : reference e name k s = reference e name k t).
  { unfold reference. cbn [seedless In] in H. repeat (destruct H as [<-|H]; [reflexivity|]); contradiction. }
  unfold answer. now rewrite E.
Qed.
Theorem c89_seed : forall e rr name c, In name seedless ->
  In (Some "TestSmhasherSeed"%string, c) (RunSMhasher (answer e name) (rr_of rr) name true) -> c = 1%nat.
Proof.
  intros e rr name c H I. unfold RunSMhasher in I. apply (line_of (fun t => snd (run_stest (answer e name) (rr_of rr) t))) in I.
  destruct I as (t & It & ->). assert (E : t = SSeed).
  { unfold STests in It. cbn [In] in It. repeat (destruct It as [It|It]; [inversion It; auto|]). destruct It. }
  subst t. cbn [run_stest once snd]. replace (TestSmhasherSeed (answer e name)) with true; [reflexivity|]. symmetry. apply c79_seed.
  exists 0, 1. split; [reflexivity|]. split; [reflexivity|]. split; [discriminate|]. now apply answer_seed.
Qed.
Print Assumptions c89_seed.
Example c89_seed_nonvacuous : In "siphash64"%string seedless /\
  exists c, In (Some "TestSmhasherSeed"%string, c) (RunSMhasher (answer toy "siphash64") (rr_of dull) "siphash64" true).
Proof. split; [cbn; tauto|]. exists (snd (once (TestSmhasherSeed (answer toy "siphash64")))). right. left. reflexivity. Qed.

(** Hashes of 32 bits that fail the test of keys with two nonzero bytes (printed
    as TestSmhasherSmallKeys), with two keys that collide. *)
Definition narrow_pairs : list (string * list N * list N) :=
  [("murmur332", [0; 27; 105], [2; 246; 0; 0]); ("j332c", [255; 148], [23; 76; 0]); ("j332b", [7; 171; 0], [101; 153; 0]);
   ("j232", [46; 16], [134; 210]); ("j264l", [99; 254], [29; 0; 8]); ("j264h", [40; 243], [248; 142; 0]);
   ("j264xor", [140; 55], [10; 116; 0]); ("spooky32", [62; 6; 0], [60; 0; 147]); ("sbox", [14; 173], [72; 212]);
   ("FarmHash32", [222; 11], [184; 33; 0])]%string.
Lemma narrow_collide e name k1 k2 : In (name, k1, k2) narrow_pairs -> answer e name k1 0 = answer e name k2 0.
Proof. intros I. unfold narrow_pairs in I. cbn [In] in I. repeat (destruct I as [I|I]; [injection I as <- <- <-; vm_compute; reflexivity|]). destruct I. Qed.
Theorem c89_narrow : forall e rr name c, In name (map (fun x => fst (fst x)) narrow_pairs) ->
  In (Some "TestSmhasherSmallKeys"%string, c) (RunSMhasher (answer e name) (rr_of rr) name true) -> (0 < c)%nat.
Proof.
  intros e rr name c H I. unfold RunSMhasher in I. apply (line_of (fun t => snd (run_stest (answer e name) (rr_of rr) t))) in I.
  destruct I as (t & It & ->). assert (E : t = STwoNonzero).
  { unfold STests in It. cbn [In] in It. repeat (destruct It as [It|It]; [inversion It; auto|]). destruct It. }
  subst t. cbn [run_stest once snd]. replace (TestSmhasherTwoNonzero (answer e name)) with true; [cbn; lia|]. symmetry. apply c79_two_nonzero.
  apply in_map_iff in H. destruct H as (((x & k1) & k2) & <- & H). cbn [fst]. exists k1, k2.
  assert (P : forallb (fun p => let ok k := Nat.leb 2 (length k) && Nat.leb (length k) 16 && forallb (fun b => b <? 256) k && Nat.leb (length (nonzero k)) 2 in
    ok (snd (fst p)) && ok (snd p) && negb (if list_eq_dec N.eq_dec (snd (fst p)) (snd p) then true else false)) narrow_pairs = true) by (vm_compute; reflexivity).
  rewrite forallb_forall in P. specialize (P _ H). cbv zeta in P. cbn [fst snd] in P.
  rewrite !andb_true_iff, !Nat.leb_le, !forallb_forall in P. destruct P as (((((A1 & A2) & A3) & A4) & (((B1 & B2) & B3) & B4)) & D).
  split; [|split; [|split]].
  - split; [lia|]. split; [|exact A4]. apply Forall_forall. intros b Hb. apply N.ltb_lt, A3, Hb.
  - split; [lia|]. split; [|exact B4]. apply Forall_forall. intros b Hb. apply N.ltb_lt, B3, Hb.
  - destruct (list_eq_dec N.eq_dec k1 k2); [discriminate|assumption].
  - now apply narrow_collide.
Qed.
Print Assumptions c89_narrow.
Example c89_narrow_nonvacuous : In "sbox"%string (map (fun x => fst (fst x)) narrow_pairs) /\
  exists c, In (Some "TestSmhasherSmallKeys"%string, c) (RunSMhasher (answer toy "sbox") (rr_of dull) "sbox" true).
Proof. split; [vm_compute; tauto|]. exists (snd (once (TestSmhasherTwoNonzero (answer toy "sbox")))). do 8 right. left. reflexivity. Qed.
Example c89_reports_nonvacuous : exists l, In (Tested "sbox" l) (fst (run_reports toy (fun _ n => n) dull true 5 (main_jobs (sm_one "sbox")) (init []))).
Proof.
  exists (sm_lines toy dull true "sbox"). change (main_jobs (sm_one "sbox")) with (map SMHasher ["sbox"%string]).
  rewrite (sm_run toy (fun _ n => n) dull true 5 ["sbox"%string] toy_ok dull_ok (init []) (init_ok [] (Forall_nil _))). cbn [fst].
  assert (B : before (acceptsb 0) ["sbox"%string] = ["sbox"%string]) by (vm_compute; reflexivity). rewrite B. cbn [map]. apply in_eq.
Qed.

(** ** C90: "-b" and "-hcb" *)
(** The benchmark of a name gets through exactly if the hash takes keys of 4 bytes. *)
Theorem c90_completes : forall e grow name n w, ext_ok e -> world_ok w ->
  (exists l w', through e grow name (askBenchmark n) w = Ok (l, w')) <-> ((n <= 0)%Z \/ accepts 4 name).
Proof.
  intros e grow name n w He O. split.
  - intros (l & w' & E). destruct (Z.le_gt_cases n 0) as [L|G]; [now left|]. right. destruct (accepts_dec 4 name) as [A|A]; [exact A|].
    rewrite (bench_panics e grow name n w He O G A) in E. discriminate.
  - intros [L|A]; [rewrite (bench_idle e grow name n w L); eauto|]. destruct (bench_through e grow name n w He O A) as (w' & E & _). eauto.
Qed.
Print Assumptions c90_completes.
Example c90_completes_nonvacuous : accepts 4 "gomap64" /\ ~ accepts 4 "aeshash64I" /\ ~ accepts 4 "skein256".
Proof. split; [split; cbn; [tauto|lia]|]. split; intros (K & L); [cbn in L; lia|]. cbn in K. intuition discriminate. Qed.
(** The lines: key size and number of keys, and the size (unless the product wraps). *)
Theorem c90_lines : forall e grow name n w l w', ext_ok e -> world_ok w -> through e grow name (askBenchmark n) w = Ok (l, w') ->
  map fst l = [(4, n); (8, n); (16, n); (32, n); (64, n); (512, Z.quot n 10); (1024, Z.quot n 10); (4096, Z.quot n 10)] /\
  ((0 <= n < 2 ^ 50)%Z -> Forall (fun x => snd x = (snd (fst x) * Z.of_N (fst (fst x)))%Z) l).
Proof.
  intros e grow name n w l w' He O E. assert (X : l = bench_lines n keySizes) by (unfold askBenchmark in E; cbv zeta in E; exact (bench_value _ _ _ _ _ _ _ _ E)).
  subst l. unfold keySizes. cbn [bench_lines N.eqb Pos.eqb map fst]. split; [reflexivity|]. intros Hn.
  assert (Q : (0 <= Z.quot n 10 <= n)%Z) by (split; [apply Z.quot_pos; lia|apply Z.quot_le_upper_bound; lia]).
  assert (W : forall z, (0 <= z < 2 ^ 63)%Z -> swrap z = z) by (intros z Hz; unfold swrap; rewrite Z.mod_small; lia).
  repeat (apply Forall_cons; [cbn [fst snd]; apply W; cbn [Z.of_N]; lia|]). apply Forall_nil.
Qed.
Print Assumptions c90_lines.
Example c90_lines_nonvacuous : exists l w', through toy (fun _ n => n) "sbox" (askBenchmark 25) (init []) = Ok (l, w') /\ map (fun x => snd (fst x)) l = [25; 25; 25; 25; 25; 2; 2; 2]%Z.
Proof.
  destruct (bench_through toy (fun _ n => n) "sbox" 25 (init []) toy_ok (init_ok _ (Forall_nil _))) as (w' & E & _); [split; cbn; [tauto|lia]|].
  eexists. exists w'. split; [exact E|]. reflexivity.
Qed.
(** What is timed is one key of zeros, hashed again and again. *)
Theorem c90_keys : forall hf n, calls hf (askBenchmark n) =
  flat_map (fun '(size, count) => repeat (repeat 0 (N.to_nat size), 0) (Z.to_nat count))
    [(4, n); (8, n); (16, n); (32, n); (64, n); (512, Z.quot n 10); (1024, Z.quot n 10); (4096, Z.quot n 10)].
Proof.
  intros hf n. rewrite calls_bench. change [(4, n); (8, n); (16, n); (32, n); (64, n); (512, Z.quot n 10); (1024, Z.quot n 10); (4096, Z.quot n 10)] with (map fst (bench_lines n keySizes)).
  generalize (bench_lines n keySizes) as ls. induction ls as [|((k & c) & t) ls IH]; [reflexivity|]. cbn [flat_map map fst snd]. now rewrite IH.
Qed.
Print Assumptions c90_keys.
Example c90_keys_nonvacuous : length (calls (fun _ _ => 0) (askBenchmark 10)) = 53%nat.
Proof. rewrite c90_keys. cbn [flat_map]. rewrite !app_length, !repeat_length. reflexivity. Qed.
(** Changing keys should be timed: the claim that two calls differ is false. *)
Theorem c90_varying_refuted : exists n : Z, (n > 1)%Z /\ forall hf i j k1 k2, (i < 5)%nat -> (j < 5)%nat ->
  nth_error (calls hf (askBenchmark n)) i = Some k1 -> nth_error (calls hf (askBenchmark n)) j = Some k2 -> k1 = k2.
Proof.
  exists 5%Z. split; [lia|]. intros hf i j k1 k2 Hi Hj. rewrite c90_keys. cbn [flat_map]. rewrite !nth_error_app1 by (rewrite repeat_length; lia).
  intros E1 E2. apply nth_error_In, repeat_spec in E1. apply nth_error_In, repeat_spec in E2. congruence.
Qed.
Print Assumptions c90_varying_refuted.
(** Command lines. *)
Lemma all_b o : forallb (acceptsb 4) (filter (passes o) TestHashFunctions) = (o_c o || o_h32 o || o_h64 o)%bool.
Proof.
  destruct o as [f a li h al c h32 h64 b hcb sm fl]. cbn [o_c o_h32 o_h64].
  assert (E : forall o', o_c o' = c -> o_h32 o' = h32 -> o_h64 o' = h64 -> filter (passes o') TestHashFunctions = filter (passes (sm_all c h32 h64)) TestHashFunctions).
  { intros o' E1 E2 E3. apply filter_ext. intros x. unfold passes. now rewrite E1, E2, E3. }
  rewrite E by reflexivity. destruct c, h32, h64; vm_compute; reflexivity.
Qed.
Lemma forallb_true {A} (l : list A) : forallb (fun _ => true) l = true.
Proof. induction l; auto. Qed.
(** The rows of the tables the benchmarks print, and what the hard-coded one computes. *)
Definition table_rows (n : Z) : list (N * Z) := [(4, n); (8, n); (16, n); (32, n); (64, n); (512, Z.quot n 10); (1024, Z.quot n 10); (4096, Z.quot n 10)].
Lemma spooky_calls_ok b n : bytes_ok b -> spooky_calls b n = Ok (repeat (fst (SpookySpec.spookyhash_v2 b 0 0)) n).
Proof.
  intros Hb. induction n as [|n IH]; [reflexivity|]. cbn [spooky_calls repeat].
  destruct (SpookyProps.c32_widths_agree b 0 Hb ltac:(reflexivity)) as (x & y & _ & _ & _ & E & H & _). rewrite H, IH, <- E. reflexivity.
Qed.
Lemma spooky_lines_ok l : (forall x, In x l -> (fst (fst x) <= 16384)%N) -> spooky_lines (repeat 0 (N.to_nat 16384)) l =
  Ok (flat_map (fun x => repeat (fst (SpookySpec.spookyhash_v2 (repeat 0 (N.to_nat (fst (fst x)))) 0 0)) (Z.to_nat (snd (fst x)))) l).
Proof.
  induction l as [|((k, n), z) l IH]; intros H; [reflexivity|]. cbn [spooky_lines flat_map fst snd].
  pose proof (H _ (or_introl eq_refl)) as Hk. cbn [fst] in Hk. replace (firstn (N.to_nat k) (repeat 0 (N.to_nat 16384))) with (repeat 0 (N.to_nat k)).
  2:{ replace (N.to_nat 16384) with (N.to_nat k + N.to_nat (16384 - k))%nat by lia. rewrite repeat_app, firstn_app, repeat_length, Nat.sub_diag, app_nil_r.
      symmetry. apply firstn_all2. now rewrite repeat_length. }
  rewrite spooky_calls_ok by (apply Forall_forall; intros x Hx; apply repeat_spec in Hx; subst; reflexivity). cbn [rbind]. rewrite IH by (intros; apply H; now right). reflexivity.
Qed.
Lemma benchmark32s_ok n : benchmark32s n =
  Ok (bench_lines n keySizes, flat_map (fun '(size, count) => repeat (fst (SpookySpec.spookyhash_v2 (repeat 0 (N.to_nat size)) 0 0)) (Z.to_nat count)) (table_rows n)).
Proof.
  unfold benchmark32s. rewrite spooky_lines_ok; [reflexivity|]. intros x Hx. unfold keySizes in Hx. cbn [bench_lines N.eqb Pos.eqb In] in Hx.
  repeat (destruct Hx as [<-|Hx]; [cbn [fst]; lia|]). contradiction.
Qed.
Theorem c90_command : forall e grow rr v n o m, ext_ok e -> Forall bytes_ok m -> o_sm o = false -> o_b o = true \/ o_hcb o = true ->
  snd (run_reports e grow rr v n (main_jobs o) (init m)) = true <->
  (n <= 0)%Z \/ if String.eqb (o_hf o) "all" then o_c o = true \/ o_h32 o = true \/ o_h64 o = true else o_hcb o = true \/ accepts 4 (o_hf o).
Proof.
  intros e grow rr v n o m He Hm Hs Hb. unfold main_jobs. rewrite Hs.
  replace (if o_hcb o then true else o_b o) with true by (destruct (o_hcb o), (o_b o); intuition congruence).
  destruct (o_hf o =? "all")%string eqn:Ha.
  - rewrite (bench_run e grow rr v n _ He (init m) (init_ok m Hm)). cbv zeta. cbn [snd]. destruct (n <=? 0)%Z eqn:Hn; cbn [orb].
    + rewrite forallb_true. apply Z.leb_le in Hn. tauto.
    + rewrite all_b, !orb_true_iff. apply Z.leb_gt in Hn. split; [tauto|]. intros [L|X]; [lia|tauto].
  - destruct (o_hcb o) eqn:Hh; [cbn [run_reports]; rewrite benchmark32s_ok; cbn; tauto|]. change [Benchmark (o_hf o)] with (map Benchmark [o_hf o]).
    rewrite (bench_run e grow rr v n _ He (init m) (init_ok m Hm)). cbv zeta. cbn [snd forallb]. rewrite andb_true_r, orb_true_iff, Z.leb_le, acceptsb_iff.
    intuition congruence.
Qed.
Print Assumptions c90_command.
Example c90_command_nonvacuous : o_sm (b_all false false false true) = false /\ o_b (b_all false false false true) = true /\
  In "skein256"%string (filter (passes (b_all false false false true)) TestHashFunctions) /\ ~ In "skein256"%string (filter (passes (b_all true false false true)) TestHashFunctions).
Proof. split; [reflexivity|]. split; [reflexivity|]. split; [vm_compute; tauto|]. vm_compute. intuition discriminate. Qed.
(** "-b" with no filter and a positive count crashes at skein256, before the last
    two names. *)
Theorem c90_all_refuted : exists o, o_sm o = false /\ o_b o = true /\ o_hf o = "all"%string /\
  forall e grow rr v n m, ext_ok e -> Forall bytes_ok m -> (0 < n)%Z ->
  exists rs, run_reports e grow rr v n (main_jobs o) (init m) = (rs, false) /\
    map (fun r => match r with Timed x _ => Benchmark x | _ => HardCoded end) rs ++ [Benchmark "skein256"; Benchmark "whirlpool"; Benchmark "blake2b"] = main_jobs o.
Proof.
  exists (b_all false false false false). split; [reflexivity|]. split; [reflexivity|]. split; [reflexivity|]. intros e grow rr v n m He Hm Hn.
  assert (J : main_jobs (b_all false false false false) = map Benchmark (filter (passes (b_all false false false false)) TestHashFunctions)) by reflexivity.
  rewrite J, (bench_run e grow rr v n _ He (init m) (init_ok m Hm)). cbv zeta.
  assert (L : (n <=? 0)%Z = false) by (apply Z.leb_gt; lia). rewrite L. cbn [orb]. eexists. split.
  - f_equal; vm_compute; reflexivity.
  - rewrite map_map. vm_compute. reflexivity.
Qed.
Print Assumptions c90_all_refuted.
(** The hard-coded benchmark runs only with a single name, whatever that name is. *)
Theorem c90_hardcoded : forall o, In HardCoded (main_jobs o) -> o_hcb o = true /\ o_sm o = false /\ o_hf o <> "all"%string /\ main_jobs o = [HardCoded].
Proof.
  intros o. unfold main_jobs.
  assert (NJ : forall (f : test -> bool) file names, ~ In HardCoded (jobs_for o f file names)).
  { intros f file names I. unfold jobs_for in I. apply in_flat_map in I. destruct I as ((((? & fl) & fn) & ?) & _ & I).
    destruct (f fl); [|destruct I]. apply in_flat_map in I. destruct I as (x & _ & I). destruct (passes o x); [|destruct I].
    destruct I as [I|[]]. discriminate. }
  destruct (o_sm o).
  - destruct (o_hf o =? "all")%string; intros I.
    + apply in_map_iff in I. destruct I as (x & E & _). discriminate.
    + destruct I as [E|[]]. discriminate.
  - destruct (o_hcb o).
    + destruct (o_hf o =? "all")%string eqn:Ha; intros I.
      * apply in_map_iff in I. destruct I as (x & E & _). discriminate.
      * split; [reflexivity|]. split; [reflexivity|]. split; [now apply String.eqb_neq|reflexivity].
    + destruct (o_b o).
      * destruct (o_hf o =? "all")%string eqn:Ha; intros I.
        -- apply in_map_iff in I. destruct I as (x & E & _). discriminate.
        -- destruct I as [E|[]]. discriminate.
      * destruct (negb (o_file o =? "")%string); [intros I; now apply NJ in I|].
        destruct (o_args o); [intros I; now apply NJ in I|]. intros I. apply in_flat_map in I. destruct I as (x & _ & I). now apply NJ in I.
Qed.
Print Assumptions c90_hardcoded.
Example c90_hardcoded_nonvacuous : In HardCoded (main_jobs (b_one "sbox" true)) /\ ~ In HardCoded (main_jobs (b_all false false false true)).
Proof. split; [now left|]. intros I. apply c90_hardcoded in I. now destruct I as (_ & _ & E & _). Qed.
(** "-hcb" with one function name prints one table, for Spooky whatever the name,
    with the same rows as the other benchmarks; all calls return, with the published
    SpookyHash of zero bytes. *)
Theorem c90_hardcoded_report : forall e grow rr v n w o, In HardCoded (main_jobs o) -> exists l,
  run_reports e grow rr v n (main_jobs o) w = ([TimedSpooky l], true) /\ map fst l = table_rows n /\
  ((0 <= n < 2 ^ 50)%Z -> Forall (fun x => snd x = (snd (fst x) * Z.of_N (fst (fst x)))%Z) l) /\
  benchmark32s n = Ok (l, flat_map (fun '(size, count) => repeat (fst (SpookySpec.spookyhash_v2 (repeat 0 (N.to_nat size)) 0 0)) (Z.to_nat count)) (table_rows n)).
Proof.
  intros e grow rr v n w o I. destruct (c90_hardcoded o I) as (_ & _ & _ & ->). exists (bench_lines n keySizes).
  pose proof (benchmark32s_ok n) as B.
  split; [cbn [run_reports]; rewrite B; reflexivity|]. unfold keySizes at 1 2. cbn [bench_lines N.eqb Pos.eqb map fst]. split; [reflexivity|]. split; [|exact B]. intros Hn.
  assert (Q : (0 <= Z.quot n 10 <= n)%Z) by (split; [apply Z.quot_pos; lia|apply Z.quot_le_upper_bound; lia]).
  assert (W : forall z, (0 <= z < 2 ^ 63)%Z -> swrap z = z) by (intros z Hz; unfold swrap; rewrite Z.mod_small; lia).
  repeat (apply Forall_cons; [cbn [fst snd]; apply W; cbn [Z.of_N]; lia|]). apply Forall_nil.
Qed.
Print Assumptions c90_hardcoded_report.
Example c90_hardcoded_report_nonvacuous : In HardCoded (main_jobs (b_one "sbox" true)) /\
  map fst (bench_lines 25 keySizes) = [(4, 25%Z); (8, 25%Z); (16, 25%Z); (32, 25%Z); (64, 25%Z); (512, 2%Z); (1024, 2%Z); (4096, 2%Z)].
Proof. split; [now left|reflexivity]. Qed.
