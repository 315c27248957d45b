(** Property theorems C74-C77 (test selection and whole runs of ht.go). *)
From Coq Require Import NArith ZArith List Arith String Bool Lia Permutation.
From Verif Require Import Words WordLemmas Mem ListLemmas HashTableModel HashTableSpec HashTableProps HashfModel HtModel HtSpec HtProofs HtMore HtKeys HtRuns.
Import ListNotations.
Open Scope N_scope.
Open Scope list_scope.

(** C74.  Which tests run.  The function behind each flag: G runs F. *)
Definition called (fl : test) : test := match fl with TG => TF | t => t end.
Definition switched_on (o : opts) (fl : test) : Prop := o_flag o fl = true \/ o_all o = true /\ fl <> TK.
(** What the filters ask of a name, in terms of the published table. *)
Definition wanted (o : opts) (name : string) : Prop :=
  (o_c o = true -> In name crypto_names) /\
  (o_h32 o = true -> In (name, 32) HashFunctions) /\
  (o_h64 o = true -> In (name, 64) HashFunctions).
Definition chosen_names (o : opts) : list string :=
  if String.eqb (o_hf o) "all" then TestHashFunctions else [o_hf o].

Fixpoint nodupb (l : list string) : bool :=
  match l with [] => true | x :: r => negb (existsb (String.eqb x) r) && nodupb r end.
Lemma nodupb_ok l : nodupb l = true <-> NoDup l.
Proof.
  assert (X : forall x r, existsb (String.eqb x) r = true <-> In x r).
  { intros x r. rewrite existsb_exists. split; [intros (y & Hy & E); apply String.eqb_eq in E; now subst y|].
    intros H. exists x. split; [exact H|apply String.eqb_refl]. }
  induction l as [|x r IH]; cbn [nodupb]; [split; [constructor|reflexivity]|].
  rewrite andb_true_iff, negb_true_iff, NoDup_cons_iff, IH, <- X.
  destruct (existsb (String.eqb x) r); intuition congruence.
Qed.
Lemma map_size_in name sz : 0 < sz -> map_size name = sz <-> In (name, sz) HashFunctions.
Proof.
  intros Hs. unfold map_size.
  assert (ND : NoDup (map fst HashFunctions)).
  { apply nodupb_ok. vm_compute. reflexivity. }
  revert ND. generalize HashFunctions. induction l as [|[a s] l IH]; intros ND; cbn [find fst].
  - split; [intros E; lia|intros []].
  - cbn [map fst] in ND. apply NoDup_cons_iff in ND. destruct ND as [Ha ND].
    destruct (String.eqb_spec a name) as [E|E].
    + subst a. cbn [snd]. split; [intros <-; left; reflexivity|]. intros [Q|Q]; [congruence|].
      exfalso. apply Ha. change name with (fst (name, sz)). apply in_map. exact Q.
    + rewrite (IH ND). split; [intros Q; right; exact Q|]. intros [Q|Q]; [congruence|exact Q].
Qed.
Lemma is_crypto_in name : is_crypto name = true <-> In name crypto_names.
Proof.
  unfold is_crypto. rewrite existsb_exists. split.
  - intros (x & Hx & E). apply String.eqb_eq in E. now subst x.
  - intros H. exists name. split; [exact H|apply String.eqb_refl].
Qed.
Lemma passes_wanted o name : passes o name = true <-> wanted o name.
Proof.
  unfold passes, wanted. rewrite <- is_crypto_in, <- !(map_size_in name) by lia.
  destruct (o_c o), (is_crypto name), (o_h32 o), (o_h64 o); cbn [andb negb];
    repeat match goal with |- context [map_size name =? ?k] => destruct (N.eqb_spec (map_size name) k) end; cbn [andb negb];
    intuition (try discriminate; try congruence; auto).
Qed.
Lemma jobs_for_in o flag file names f name fn : In (Run f name fn) (jobs_for o flag file names) <->
  f = file /\ In name names /\ passes o name = true /\ exists fl, flag fl = true /\ fn = called fl.
Proof.
  unfold jobs_for. rewrite in_flat_map. split.
  - intros ([[[a fl] g] d] & Ht & H). cbv beta iota in H.
    destruct (flag fl) eqn:F; [|destruct H]. apply in_flat_map in H. destruct H as (n & Hn & H).
    destruct (passes o n) eqn:P; [|destruct H]. destruct H as [E|[]]. injection E as -> -> ->.
    repeat split; try assumption. exists fl. split; [exact F|].
    unfold Tests in Ht. cbn [In] in Ht.
    repeat (destruct Ht as [Ht|Ht]; [injection Ht; intros; subst; reflexivity|]). destruct Ht.
  - intros (-> & Hn & P & fl & F & ->).
    assert (T : exists a d, In (a, fl, called fl, d) Tests).
    { destruct fl; do 2 eexists; unfold Tests; cbn [In called];
      repeat (first [left; reflexivity | right]). }
    destruct T as (a & d & T). eexists. split; [exact T|]. cbv beta iota. rewrite F.
    apply in_flat_map. exists name. split; [exact Hn|]. rewrite P. left. reflexivity.
Qed.
Lemma flag_on o fl : (if o_all o then all_on (o_flag o) else o_flag o) fl = true <-> switched_on o fl.
Proof.
  unfold switched_on. destruct (o_all o).
  - destruct fl; cbn [all_on]; intuition (try discriminate; try congruence; auto; right; split; [reflexivity|discriminate]).
  - intuition discriminate.
Qed.

(** With a file: exactly the tests whose flag is on (or all but K with [-a]),
    for each named hash function that passes the filters; G runs test F. *)
Theorem c74_selected : forall o, o_sm o = false -> o_b o = false -> o_hcb o = false -> o_file o <> ""%string ->
  forall f name fn, In (Run f name fn) (main_jobs o) <->
    f = o_file o /\ In name (chosen_names o) /\ wanted o name /\ exists fl, switched_on o fl /\ fn = called fl.
Proof.
  intros o H1 H2 H3 H4 f name fn. unfold main_jobs. rewrite H1, H2, H3.
  destruct (String.eqb_spec (o_file o) "") as [E|_]; [contradiction|]. cbn [negb].
  rewrite jobs_for_in, passes_wanted. unfold chosen_names.
  split; intros (A & B & C & fl & D & F).
  - split; [exact A|]. split; [exact B|]. split; [exact C|]. exists fl. split; [apply flag_on; exact D|exact F].
  - split; [exact A|]. split; [exact B|]. split; [exact C|]. exists fl. split; [apply flag_on; exact D|exact F].
Qed.
Print Assumptions c74_selected.
(** With file arguments: the same for each of them. *)
Theorem c74_selected_args : forall o, o_sm o = false -> o_b o = false -> o_hcb o = false -> o_file o = ""%string -> o_args o <> [] ->
  forall f name fn, In (Run f name fn) (main_jobs o) <->
    In f (o_args o) /\ In name (chosen_names o) /\ wanted o name /\ exists fl, switched_on o fl /\ fn = called fl.
Proof.
  intros o H1 H2 H3 H4 H5 f name fn. unfold main_jobs. rewrite H1, H2, H3, H4. cbn [String.eqb negb].
  destruct (o_args o) as [|x l] eqn:E; [congruence|]. rewrite in_flat_map. split.
  - intros (v & Hv & J). apply jobs_for_in in J. destruct J as (-> & B & C & fl & D & F).
    apply passes_wanted in C. apply flag_on in D. repeat split; try assumption; try apply C. exists fl. auto.
  - intros (A & B & C & fl & D & F). exists f. split; [exact A|]. apply jobs_for_in.
    apply passes_wanted in C. apply flag_on in D. repeat split; try assumption. exists fl. auto.
Qed.
Print Assumptions c74_selected_args.
(** No command line runs the reversing test; [-a] does not switch K on. *)
Theorem c74_reversal_never_runs_refuted : forall o f name, ~ In (Run f name TG) (main_jobs o).
Proof.
  intros o f name.
  assert (J : forall flag file names, ~ In (Run f name TG) (jobs_for o flag file names)).
  { intros flag file names H. apply jobs_for_in in H. destruct H as (_ & _ & _ & fl & _ & E). destruct fl; discriminate E. }
  assert (M : forall (g : string -> job) l, (forall x, g x <> Run f name TG) -> ~ In (Run f name TG) (map g l)).
  { intros g l Hg H. apply in_map_iff in H. destruct H as (x & E & _). exact (Hg x E). }
  unfold main_jobs. cbv zeta.
  repeat match goal with |- ~ In _ (if ?b then _ else _) => match type of b with bool => destruct b end end;
    try apply J; try (apply M; discriminate); try (intros [E|[]]; discriminate E).
  destruct (o_args o) as [|x l]; [apply J|]. rewrite in_flat_map. intros (v & _ & H). exact (J _ _ _ H).
Qed.
Print Assumptions c74_reversal_never_runs_refuted.
Theorem c74_all_omits_K : forall o f name, o_flag o TK = false -> ~ In (Run f name TK) (main_jobs o).
Proof.
  intros o f name HK.
  assert (J : forall flag file names, flag TK = false -> ~ In (Run f name TK) (jobs_for o flag file names)).
  { intros flag file names F H. apply jobs_for_in in H. destruct H as (_ & _ & _ & fl & Q & E). destruct fl; try discriminate E. congruence. }
  assert (M : forall (g : string -> job) l, (forall x, g x <> Run f name TK) -> ~ In (Run f name TK) (map g l)).
  { intros g l Hg H. apply in_map_iff in H. destruct H as (x & E & _). exact (Hg x E). }
  assert (F : (if o_all o then all_on (o_flag o) else o_flag o) TK = false) by (destruct (o_all o); exact HK).
  unfold main_jobs. cbv zeta. revert F. generalize (if o_all o then all_on (o_flag o) else o_flag o). intros flag F.
  repeat match goal with |- ~ In _ (if ?b then _ else _) => match type of b with bool => destruct b end end;
    try (apply J; exact F); try (apply M; discriminate); try (intros [E|[]]; discriminate E).
  destruct (o_args o) as [|x l].
  - apply J. destruct (Nat.eqb _ 0); exact F.
  - rewrite in_flat_map. intros (v & _ & H). exact (J _ _ _ F H).
Qed.
Print Assumptions c74_all_omits_K.
(** No file and no flag: tests I and J, for every name that passes. *)
Theorem c74_default : forall o, o_sm o = false -> o_b o = false -> o_hcb o = false -> o_all o = false ->
  o_file o = ""%string -> o_args o = [] -> (forall t, o_flag o t = false) ->
  main_jobs o = map (fun name => Run "" name TI) (filter (passes o) (chosen_names o)) ++
                map (fun name => Run "" name TJ) (filter (passes o) (chosen_names o)).
Proof.
  intros o H1 H2 H3 H4 H5 H6 H7. unfold main_jobs. rewrite H1, H2, H3, H4, H5, H6. cbn [String.eqb negb].
  assert (E : Nat.eqb (List.length (filter (o_flag o) TestPointers)) 0 = true).
  { unfold TestPointers. cbn [filter]. rewrite !H7. reflexivity. }
  cbv zeta. rewrite E. fold (chosen_names o). unfold jobs_for, Tests. cbn [flat_map all_off]. rewrite H7.
  cbn [app]. rewrite app_nil_r.
  assert (G : forall t l, flat_map (fun name => if passes o name then [Run "" name t] else []) l = map (fun name => Run "" name t) (filter (passes o) l)).
  { intros t. induction l as [|x l IH]; [reflexivity|]. cbn [flat_map filter]. rewrite IH. now destruct (passes o x). }
  rewrite !G. reflexivity.
Qed.
Print Assumptions c74_default.
(** With any filter on, a name missing from the published table never runs a
    test - which concerns names of the default list. *)
Theorem c74_filtered_out : forall o f name fn, o_c o = true \/ o_h32 o = true \/ o_h64 o = true ->
  ~ In name (map fst HashFunctions) -> ~ In (Run f name fn) (main_jobs o).
Proof.
  intros o f name fn HF HN.
  assert (P : passes o name = false).
  { destruct (passes o name) eqn:P; [|reflexivity]. exfalso. apply passes_wanted in P. destruct P as (A & B & C).
    assert (K : forall s, In (name, s) HashFunctions -> False).
    { intros s Hs. apply HN. change name with (fst (name, s)). apply in_map. exact Hs. }
    destruct HF as [H|[H|H]]; [|exact (K _ (B H))|exact (K _ (C H))].
    specialize (A H). apply HN.
    assert (S : forallb (fun x => existsb (String.eqb x) (map fst HashFunctions)) crypto_names = true) by (vm_compute; reflexivity).
    rewrite forallb_forall in S. specialize (S name A). apply existsb_exists in S. destruct S as (x & Hx & E).
    apply String.eqb_eq in E. now subst x. }
  assert (J : forall flag file names, ~ In (Run f name fn) (jobs_for o flag file names)).
  { intros flag file names H. apply jobs_for_in in H. destruct H as (_ & _ & Q & _). congruence. }
  assert (M : forall (g : string -> job) l, (forall x, g x <> Run f name fn) -> ~ In (Run f name fn) (map g l)).
  { intros g l Hg H. apply in_map_iff in H. destruct H as (x & E & _). exact (Hg x E). }
  unfold main_jobs. cbv zeta.
  repeat match goal with |- ~ In _ (if ?b then _ else _) => match type of b with bool => destruct b end end;
    try apply J; try (apply M; discriminate); try (intros [E|[]]; discriminate E).
  destruct (o_args o) as [|x l]; [apply J|]. rewrite in_flat_map. intros (v & _ & H). exact (J _ _ _ H).
Qed.
Print Assumptions c74_filtered_out.
Theorem c74_filters_refuted : exists name, In name TestHashFunctions /\ ~ In name (map fst HashFunctions).
Proof.
  exists "FarmHash128-low"%string. split.
  - assert (E : existsb (String.eqb "FarmHash128-low") TestHashFunctions = true) by (vm_compute; reflexivity).
    apply existsb_exists in E. destruct E as (x & H & E). apply String.eqb_eq in E. now rewrite E.
  - intros H. assert (E : existsb (String.eqb "FarmHash128-low") (map fst HashFunctions) = true).
    { apply existsb_exists. eexists. split; [exact H|apply String.eqb_refl]. }
    vm_compute in E. discriminate E.
Qed.
Print Assumptions c74_filters_refuted.
(** The default list names some functions twice, so their tests run twice. *)
Theorem c74_once_refuted : ~ NoDup TestHashFunctions.
Proof.
  intros H. apply nodupb_ok in H. vm_compute in H. discriminate H.
Qed.
Print Assumptions c74_once_refuted.
Definition ex_opts (fl : list test) : opts :=
  mkOpts "words" [] 0 "j332c" false false true false false false false
         (fun t => existsb (fun u => match t, u with TA, TA | TG, TG | TI, TI => true | _, _ => false end) fl).
Example c74_nonvacuous :
  main_jobs (ex_opts [TA; TG]) = [Run "words" "j332c" TA; Run "words" "j332c" TF] /\
  main_jobs (mkOpts "" [] 0 "sbox" false false true false false false false (fun _ => false))
  = [Run "" "sbox" TI; Run "" "sbox" TJ].
Proof. vm_compute. auto. Qed.
Example c74_args_nonvacuous :
  main_jobs (mkOpts "" ["w1"; "w2"]%string 0 "sbox" false false false false false false false (fun t => match t with TB => true | _ => false end))
  = [Run "w1" "sbox" TB; Run "w2" "sbox" TB].
Proof. vm_compute. reflexivity. Qed.

(** C75.  Whole runs.  The key each file test makes of a delivered line. *)
Definition spec_key (t : test) (line : list N) : key :=
  match t with
  | TB => line ++ [10]
  | TC => line ++ line ++ [10; 10; 10; 10]
  | TD => [65; 66; 67; 68; 69] ++ line
  | TE => line ++ line
  | TF => line ++ line ++ line ++ line
  | TG => flat_map encoded (rev line)
  | _ => line
  end.
Definition file_tests : list test := [TA; TB; TC; TD; TE; TF; TG].

Lemma Forall2_len {A B} (R : A -> B -> Prop) l m : Forall2 R l m -> List.length l = List.length m.
Proof. induction 1; cbn [List.length]; congruence. Qed.
Lemma trimmed_bytes l t : trimmed l t -> Forall byte l -> Forall byte t.
Proof. intros (sp & cr & -> & _) H. apply Forall_app in H. tauto. Qed.
Lemma run_file_test np cf hf n c lines t : In t file_tests -> 
  (forall l, In l (fst (ReadFile c)) -> Forall byte l) ->
  run_test np cf hf n c lines t = (n, file_test np cf hf (spec_key t) c lines).
Proof.
  intros Ht Hb. unfold file_tests in Ht. cbn [In] in Ht.
  destruct Ht as [<-|[<-|[<-|[<-|[<-|[<-|[<-|[]]]]]]]]; try reflexivity.
  cbn [run_test]. f_equal. unfold file_test. destruct (ReadFile c) as [ls r]. cbn [fst] in Hb.
  assert (E : @map (list N) key keyG ls = @map (list N) key (spec_key TG) ls)
    by (apply map_ext_in; intros l Hl; apply reverse_encoded, Hb; exact Hl).
  rewrite E. reflexivity.
Qed.

(** A file without blank lines; [lines] at least the number of lines (0 on the
    command line means exactly that number).  Then every file test, chained or
    open-addressed, prime-sized or not, with any hash function, returns a table
    holding exactly one key per line, as many insertions being counted. *)
Theorem c75_file_tests : forall np cf hf n ls rest lines t,
  In t file_tests -> next_ok np -> (0 <= cf_extra cf <= 30)%Z ->
  Forall one_line ls -> Forall (fun l => ~ blank l) ls -> one_line rest -> Forall (Forall byte) ls ->
  (Z.of_nat (List.length ls) <= lines < 2 ^ 32)%Z ->
  exists ts tab, Forall2 trimmed ls ts /\
    run_test np cf hf n (Some (joined ls rest)) lines t = (n, Ret tab) /\
    inserts (st tab) = N.of_nat (List.length ls) /\
    Permutation (concat (buckets tab)) (map (spec_key t) ts).
Proof.
  intros np cf hf n ls rest lines t Ht Hnp He H1 H2 H3 Hb Hl.
  destruct (readfile_good ls rest H1 H2 H3) as (ts & F & R).
  assert (Fb : forall l, In l ts -> Forall byte l).
  { clear - F Hb. induction F as [|a b la lb Hab F IH]; intros l Hl; [destruct Hl|].
    apply Forall_cons_iff in Hb. destruct Hl as [<-|Hl]; [eapply trimmed_bytes; [exact Hab|tauto]|apply IH; tauto]. }
  rewrite run_file_test by (try assumption; rewrite R; exact Fb).
  unfold file_test. rewrite R.
  destruct (new_size' np lines (cf_extra cf) (cf_oa cf) (cf_prime cf) Hnp ltac:(lia) He) as (A & B & C).
  assert (L : List.length ts = List.length ls) by (symmetry; eapply Forall2_len; exact F).
  destruct (filled np lines (cf_extra cf) (cf_oa cf) (cf_prime cf) hf (map (spec_key t) ts) A C) as (tab & E & S & P & I).
  { intros _. rewrite map_length, L. eapply N.le_trans; [|exact B]. lia. }
  exists ts, tab. rewrite E. cbn [of_res]. repeat split; try assumption. now rewrite I, map_length, L.
Qed.
Print Assumptions c75_file_tests.
Theorem c75_default_lines : forall ls rest file lines, file <> ""%string -> (lines <= 0)%Z ->
  Forall one_line ls -> Forall (fun l => ~ blank l) ls -> one_line rest ->
  run_lines (Some (joined ls rest)) file lines = Ret (Z.of_nat (List.length ls)).
Proof.
  intros ls rest file lines Hf Hl H1 H2 H3. unfold run_lines.
  destruct (String.eqb_spec file ""); [contradiction|]. apply Z.leb_le in Hl. rewrite Hl. cbn [negb andb].
  destruct (readfile_good ls rest H1 H2 H3) as (ts & _ & R). rewrite R. reflexivity.
Qed.
Print Assumptions c75_default_lines.
(** A blank line anywhere makes every file test panic, and so does a file that
    cannot be opened - in particular the empty name used without a file. *)
Theorem c75_blank_panics : forall np cf hf n lines t c, In t file_tests -> 1 <= size (new_table np lines (cf_extra cf) (cf_oa cf) (cf_prime cf)) ->
  fits 64 (size (new_table np lines (cf_extra cf) (cf_oa cf) (cf_prime cf))) ->
  (c = None \/ exists ls l ls' rest, c = Some (joined (ls ++ l :: ls') rest) /\ Forall one_line (ls ++ [l]) /\ blank l) ->
  snd (run_test np cf hf n c lines t) = Panic.
Proof.
  intros np cf hf n lines t c Ht A C Hc.
  assert (R : snd (ReadFile c) = Panics).
  { destruct Hc as [->|(ls & l & ls' & rest & -> & F & B)]; [reflexivity|].
    apply Forall_app in F. destruct F as [F Fl]. apply Forall_cons_iff in Fl. destruct Fl as [Fl _].
    assert (D : forall ls, Forall one_line ls -> exists pre x post, ls ++ l :: ls' = pre ++ x :: post /\
       Forall one_line pre /\ Forall (fun l => ~ blank l) pre /\ one_line x /\ blank x).
    { clear - B Fl. induction ls as [|a ls IH]; intros F.
      - exists [], l, ls'. repeat split; auto.
      - apply Forall_cons_iff in F. destruct F as [Fa F].
        assert (Q : blank a \/ ~ blank a).
        { unfold blank. destruct a as [|x [|y a]]; [left; auto| |right; intros [E|E]; discriminate E].
          destruct (N.eq_dec x 13); [left; right; congruence|right; intros [E|E]; congruence]. }
        destruct Q as [Q|Q].
        + exists [], a, (ls ++ l :: ls'). repeat split; auto.
        + destruct (IH F) as (pre & x & post & E & F1 & F2 & F3 & F4).
          exists (a :: pre), x, post. cbn [app]. rewrite E. repeat split; auto. }
    destruct (D ls F) as (pre & x & post & E & F1 & F2 & F3 & F4). rewrite E.
    destruct (readfile_bad pre x post rest F1 F2 F3 F4) as (ts & _ & RR). rewrite RR. reflexivity. }
  assert (G : forall f, file_test np cf hf f c lines = Panic).
  { intros f. unfold file_test. destruct (ReadFile c) as [ts r]. cbn [snd] in R. subst r.
    destruct (insert_all hf (new_table np lines (cf_extra cf) (cf_oa cf) (cf_prime cf)) (map f ts)) eqn:E; try reflexivity.
    exfalso. destruct (cf_oa cf) eqn:O.
    - destruct (c03_oa_history np lines (cf_extra cf) (cf_prime cf) hf (map f ts) A C) as [P Q].
      destruct (N.le_gt_cases (N.of_nat (List.length (map f ts))) (size (new_table np lines (cf_extra cf) true (cf_prime cf)))) as [L|L].
      + apply P in L. destruct L as [t' L]. congruence.
      + apply Q in L. congruence.
    - destruct (c01_chained_contents np lines (cf_extra cf) (cf_prime cf) hf (map f ts) A C) as (t' & L & _). congruence. }
  unfold file_tests in Ht. cbn [In] in Ht.
  destruct Ht as [<-|[<-|[<-|[<-|[<-|[<-|[<-|[]]]]]]]]; cbn [run_test snd]; apply G.
Qed.
Print Assumptions c75_blank_panics.
(** Open addressing with a [-lines] too small: the run panics. *)
Theorem c75_too_small_panics : forall np cf hf n ls rest lines t,
  In t file_tests -> cf_oa cf = true ->
  let t0 := new_table np lines (cf_extra cf) true (cf_prime cf) in
  1 <= size t0 -> fits 64 (size t0) -> size t0 < N.of_nat (List.length ls) ->
  Forall one_line ls -> Forall (fun l => ~ blank l) ls -> one_line rest -> Forall (Forall byte) ls ->
  snd (run_test np cf hf n (Some (joined ls rest)) lines t) = Panic.
Proof.
  intros np cf hf n ls rest lines t Ht Ho t0 A C L H1 H2 H3 Hb.
  destruct (readfile_good ls rest H1 H2 H3) as (ts & F & R).
  assert (Fb : forall l, In l ts -> Forall byte l).
  { clear - F Hb. induction F as [|a b la lb Hab F IH]; intros l Hl; [destruct Hl|].
    apply Forall_cons_iff in Hb. destruct Hl as [<-|Hl]; [eapply trimmed_bytes; [exact Hab|tauto]|apply IH; tauto]. }
  rewrite run_file_test by (try assumption; rewrite R; exact Fb). cbn [snd].
  unfold file_test. rewrite R, Ho.
  assert (Len : List.length ts = List.length ls) by (symmetry; eapply Forall2_len; exact F).
  rewrite (proj2 (proj2 (c03_oa_history np lines (cf_extra cf) (cf_prime cf) hf (map (spec_key t) ts) A C))); [reflexivity|].
  rewrite map_length, Len. exact L.
Qed.
Print Assumptions c75_too_small_panics.
(** The tests that need no file, at any mode, store exactly their keys. *)
Definition stores np cf hf n c lines (t : test) (keys : list key) : Prop :=
  NoDup keys /\ exists tab, run_test np cf hf n c lines t = (n, Ret tab) /\
    inserts (st tab) = N.of_nat (List.length keys) /\ Permutation (concat (buckets tab)) keys.
Lemma stores_keys np cf hf n c lines t sz ks : next_ok np -> (0 <= cf_extra cf <= 30)%Z ->
  (0 <= sz < 2 ^ 32)%Z -> Z.of_nat (List.length ks) = sz -> NoDup ks ->
  run_test np cf hf n c lines t = (n, insert_all hf (new_table np sz (cf_extra cf) (cf_oa cf) (cf_prime cf)) ks) ->
  stores np cf hf n c lines t ks.
Proof.
  intros Hnp He Hs L ND R. split; [exact ND|]. rewrite R.
  destruct (new_size' np sz (cf_extra cf) (cf_oa cf) (cf_prime cf) Hnp Hs He) as (A & B & C).
  destruct (filled np sz (cf_extra cf) (cf_oa cf) (cf_prime cf) hf ks A C) as (tab & E & S & P & I); [intros _; lia|].
  exists tab. rewrite E. auto.
Qed.
Lemma letters_ok : letters <> [] /\ Forall (fun p => p <> []) letters /\ Forall (Forall byte) letters /\ Forall (@NoDup N) letters.
Proof.
  assert (E1 : map (nodup N.eq_dec) letters = letters) by (vm_compute; reflexivity).
  assert (E2 : forallb (forallb (fun c => c <? 256)) letters = true) by (vm_compute; reflexivity).
  assert (E3 : forallb (fun p => match p with [] => false | _ => true end) letters = true) by (vm_compute; reflexivity).
  rewrite forallb_forall in E2, E3. repeat split.
  - discriminate.
  - apply Forall_forall. intros p Hp ->. discriminate (E3 _ Hp).
  - apply Forall_forall. intros p Hp. specialize (E2 p Hp). rewrite forallb_forall in E2.
    apply Forall_forall. intros x Hx. apply N.ltb_lt. exact (E2 x Hx).
  - rewrite <- E1. apply Forall_forall. intros p Hp. apply in_map_iff in Hp. destruct Hp as (q & <- & _). apply NoDup_nodup.
Qed.
Lemma run_TH np cf hf n c lines : forall ws, genWords letters = (ws, Ok tt) ->
  run_test np cf hf n c lines TH = (n, insert_all hf (new_table np (Z.of_nat (List.length ws)) (cf_extra cf) (cf_oa cf) (cf_prime cf)) ws).
Proof. intros ws E. unfold run_test. rewrite E. reflexivity. Qed.
Lemma words_count : Z.of_nat (product (map (@List.length N) letters)) = 262144%Z.
Proof. vm_compute. reflexivity. Qed.
Lemma stores_H np cf hf n c lines : next_ok np -> (0 <= cf_extra cf <= 30)%Z -> stores np cf hf n c lines TH (fst (genWords letters)).
Proof.
  intros Hnp He. destruct letters_ok as (W1 & W2 & W3 & W4).
  pose proof (genWords_lemma letters W1 W2) as E. pose proof (genWords_nodup letters W1 W2 W3 W4) as ND.
  remember (map (fun i => flat_map utf8 (combination letters i)) (seq 0 (product (map (@List.length N) letters)))) as ws eqn:Ew.
  assert (L : Z.of_nat (List.length ws) = 262144%Z) by (rewrite Ew, map_length, seq_length; exact words_count).
  clear Ew. rewrite E in *. cbn [fst] in *.
  apply (stores_keys np cf hf n c lines TH 262144%Z ws); try assumption; [lia|].
  rewrite (run_TH np cf hf n c lines ws E), L. reflexivity.
Qed.
Lemma stores_J np cf hf n c lines : next_ok np -> (0 <= cf_extra cf <= 30)%Z -> stores np cf hf n c lines TJ (march 900).
Proof.
  intros Hnp He. apply (stores_keys np cf hf n c lines TJ (900 * 8)%Z); try assumption; [lia| |apply march_nodup|].
  - rewrite march_length. reflexivity.
  - unfold run_test. reflexivity.
Qed.
Lemma stores_L np cf hf n c lines : next_ok np -> (0 <= cf_extra cf <= 30)%Z -> stores np cf hf n c lines TL (triples 256).
Proof.
  intros Hnp He. apply (stores_keys np cf hf n c lines TL (256 * 256 * 256)%Z); try assumption; [lia| |apply triples_nodup|].
  - rewrite triples_length, !Nat2Z.inj_mul. reflexivity.
  - unfold run_test. reflexivity.
Qed.
Theorem c75_generated : forall np cf hf n c lines, next_ok np -> (0 <= cf_extra cf <= 30)%Z ->
  stores np cf hf n c lines TH (fst (genWords letters)) /\
  stores np cf hf n c lines TJ (march 900) /\
  stores np cf hf n c lines TL (triples 256).
Proof.
  intros np cf hf n c lines Hnp He.
  split; [apply stores_H; assumption|]. split; [apply stores_J; assumption|apply stores_L; assumption].
Qed.
Print Assumptions c75_generated.
Example c75_nonvacuous :
  next_ok (fun x => x) /\
  option_map (fun t => (size t, concat (buckets t), inserts (st t)))
    (match snd (run_test (fun x => x) (mkConfig 1 false true 0 false) ex_hash 7
                (Some (joined [[97; 13]; [98; 99]] [100])) 2 TB) with Ret t => Some t | _ => None end)
  = Some (4, [[97; 10]; [98; 99; 10]], 2).
Proof.
  split; [|vm_compute; reflexivity]. intros x H. split; [lia|]. eapply N.lt_trans; [exact H|]. apply N.pow_lt_mono_r; lia.
Qed.
Example c75_more_nonvacuous :
  run_lines (Some (joined [[97]; [98]] [99])) "words" 0 = Ret 2%Z /\
  snd (run_test (fun x => x) (mkConfig 1 false true 0 false) ex_hash 7 (Some (joined [[97]; []; [98]] [])) 4 TB) = Panic /\
  snd (run_test (fun x => x) (mkConfig 0 false true 0 false) ex_hash 7 (Some (joined [[97]; [98]; [99]; [100]; [101]] [])) 4 TB) = Panic /\
  (exists t, snd (run_test (fun x => x) (mkConfig 0 false true 0 false) ex_hash 7 (Some (joined [[97]; [98]; [99]; [100]] [])) 4 TB) = Ret t).
Proof. split; [vm_compute; reflexivity|]. split; [vm_compute; reflexivity|]. split; [vm_compute; reflexivity|]. eexists. vm_compute. reflexivity. Qed.

(** C76.  [-dru]: the bucket count is negated by every run of test I, so only
    every other table has exactly the requested size. *)
Theorem c76_alternates : forall np cf hfs fs lines n names ts, cf_dru cf = true ->
  run_jobs np cf hfs fs lines n (map (fun nm => Run "" nm TI) names) = (ts, true) ->
  map size ts = map (fun i => size (new_table np (if Nat.even i then - n else n)%Z (cf_extra cf) (cf_oa cf) (cf_prime cf)))
                    (seq 0 (List.length names)).
Proof.
  intros np cf hfs fs lines n names ts Hd. revert n ts.
  assert (SZ : forall hf ks t t', insert_all hf t ks = Ret t' -> size t' = size t).
  { intros hf. induction ks as [|k ks IH]; intros t t' E; cbn [insert_all] in E; [congruence|].
    destruct (insert hf t k) as [t1| |] eqn:E1; try discriminate E. rewrite (IH _ _ E).
    unfold insert in E1. destruct (is_prime t && (size t =? 0)); [discriminate E1|].
    assert (LP : forall fuel h t0 idx cnt pass t2, insert_loop fuel hf k h t0 idx cnt pass = Ret t2 -> size t2 = size t0).
    { clear. induction fuel as [|fuel IH]; intros h t0 idx cnt pass t2 E; cbn [insert_loop] in E; [discriminate E|].
      destruct (nth_error (buckets t0) idx) as [[|b0 rest]|]; [injection E as <-; reflexivity| |discriminate E].
      destruct (is_oa t0).
      - cbv zeta in E. destruct (sub64 (size t0) 1 <? N.of_nat (S idx)).
        + destruct (1 <? pass + 1); [discriminate E|]. apply IH in E. exact E.
        + apply IH in E. exact E.
      - injection E as <-. reflexivity. }
    apply LP in E1. exact E1. }
  induction names as [|nm names IH]; intros n ts E.
  - cbn in E. injection E as <-. reflexivity.
  - cbn [map run_jobs run_lines] in E. unfold run_lines in E. cbn [String.eqb negb andb] in E.
    cbn [run_test] in E. rewrite Hd in E.
    destruct (insert_all (hfs nm) (new_table np (- n) (cf_extra cf) (cf_oa cf) (cf_prime cf)) (keysI (cf_ni cf))) as [t| |] eqn:E1;
      [|discriminate E|discriminate E].
    destruct (run_jobs np cf hfs fs lines (- n) (map (fun nm0 => Run "" nm0 TI) names)) as [ts' ok] eqn:E2.
    injection E as <- ->. apply IH in E2. cbn [map List.length seq]. rewrite (SZ _ _ _ _ E1). f_equal.
    rewrite E2, <- seq_shift, map_map. apply map_ext. intros i. f_equal. f_equal.
    rewrite Nat.even_succ, <- Nat.negb_even. destruct (Nat.even i); cbn [negb]; lia.
Qed.
Print Assumptions c76_alternates.
Theorem c76_dru_refuted : exists cf hfs fs n ts, cf_dru cf = true /\ (0 < n)%Z /\
  run_jobs (fun x => x) cf hfs fs 0 n [Run "" "sbox" TI; Run "" "j332c" TI] = (ts, true) /\
  map size ts = [Z.to_N n; 8] /\ Z.to_N n <> 8.
Proof.
  exists (mkConfig 1 false false 2 true), (fun _ _ => 5), (fun _ => None), 3%Z.
  eexists. split; [reflexivity|]. split; [lia|]. split; [vm_compute; reflexivity|].
  split; [vm_compute; reflexivity|discriminate].
Qed.
Print Assumptions c76_dru_refuted.
(** Test M as the first such test with [-dru] always panics. *)
Theorem c76_testM_dru_panics : forall np cf hf n c lines, cf_dru cf = true -> (0 < n)%Z ->
  run_test np cf hf n c lines TM = ((- n)%Z, Panic).
Proof.
  intros np cf hf n c lines Hd Hn. cbn [run_test]. rewrite Hd.
  replace (- n <=? 0)%Z with true by (symmetry; apply Z.leb_le; lia). reflexivity.
Qed.
Print Assumptions c76_testM_dru_panics.
Example c76_nonvacuous : fst (run_jobs (fun x => x) (mkConfig 1 false false 2 true) (fun _ _ => 5) (fun _ => None) 0 3
    (map (fun nm => Run "" nm TI) ["a"; "b"; "c"]%string)) <> [] /\
  map size (fst (run_jobs (fun x => x) (mkConfig 1 false false 2 true) (fun _ _ => 5) (fun _ => None) 0 3
    (map (fun nm => Run "" nm TI) ["a"; "b"; "c"]%string))) = [3; 8; 3].
Proof. split; [discriminate|vm_compute; reflexivity]. Qed.

(** C77.  Test M's histogram counts the hash values by residue; its entries add
    up to the number of keys. *)
Theorem c77_histogram : forall hf n ks, (0 < n)%nat ->
  List.length (histogram hf n ks) = n /\
  (forall j, (j < n)%nat -> nth j (histogram hf n ks) 0%nat =
     List.length (filter (fun k => hf k mod N.of_nat n =? N.of_nat j) ks)) /\
  fold_right Nat.add 0%nat (histogram hf n ks) = List.length ks.
Proof.
  intros hf n ks Hn. destruct (histogram_lemma hf n ks Hn) as [A B]. split; [exact A|]. split; [exact B|].
  assert (E : histogram hf n ks = map (fun j => List.length (filter (fun k => Nat.eqb (N.to_nat (hf k mod N.of_nat n)) j) ks)) (seq 0 n)).
  { apply nth_ext with (d := 0%nat) (d' := 0%nat); [now rewrite map_length, seq_length|].
    intros j Hj. rewrite A in Hj. rewrite B by exact Hj.
    rewrite nth_indep with (d' := (fun j => List.length (filter (fun k => Nat.eqb (N.to_nat (hf k mod N.of_nat n)) j) ks)) 0%nat)
      by (rewrite map_length, seq_length; exact Hj).
    rewrite (map_nth (fun j => List.length (filter (fun k => Nat.eqb (N.to_nat (hf k mod N.of_nat n)) j) ks))).
    rewrite seq_nth by exact Hj. cbn [Nat.add]. f_equal. apply filter_ext. intros k.
    destruct (N.eqb_spec (hf k mod N.of_nat n) (N.of_nat j)) as [Q|Q].
    - rewrite Q, Nat2N.id. symmetry. apply Nat.eqb_refl.
    - symmetry. apply Nat.eqb_neq. intros Q2. apply Q. rewrite <- Q2. now rewrite N2Nat.id. }
  rewrite E.
  rewrite <- (Permutation_length (concat_filters (fun k => N.to_nat (hf k mod N.of_nat n)) n ks
    ltac:(intros k; cbv beta; pose proof (N.mod_upper_bound (hf k) (N.of_nat n)); lia))).
  generalize (seq 0 n). intros l. induction l as [|j l IH]; [reflexivity|].
  cbn [map fold_right concat]. rewrite app_length, IH. reflexivity.
Qed.
Print Assumptions c77_histogram.
(** Test K, announced as printing the hashes of the keys in the file, prints for
    every key the hash of 1000 zero bytes. *)
Theorem c77_testK : forall hashf ls rest rseed bss, Forall one_line ls -> Forall (fun l => ~ blank l) ls -> one_line rest ->
  (exists ts, Forall2 trimmed ls ts /\ Forall2 hex_of ts bss) -> Forall (fun bs => List.length bs <= 1000)%nat bss ->
  testK hashf (Some (joined ls rest)) rseed = (map (fun bs => (bs, hashf (repeat 0 1000) rseed)) bss, Ok tt).
Proof.
  intros hashf ls rest rseed bss H1 H2 H3 (ts & T & X) L. unfold testK.
  destruct (readfile_good ls rest H1 H2 H3) as (ts' & T' & R).
  assert (ts' = ts).
  { clear - T T'. revert ts T. induction T' as [|a b la lb Hab F IH]; intros ts T; inversion T; subst; [reflexivity|].
    f_equal; [eapply trimmed_fun; eassumption|apply IH; assumption]. }
  subst ts'. rewrite R. clear - X L. induction X as [|s bs ss bss Hs X IH]; [reflexivity|].
  apply Forall_cons_iff in L. destruct L as [L1 L]. rewrite (hexToBytes_ok s bs Hs L1).
  rewrite (IH L). reflexivity.
Qed.
Print Assumptions c77_testK.
Theorem c77_testK_refuted : exists hashf s rseed key h, In (key, h) (fst (testK hashf (Some s) rseed)) /\ h <> hashf key rseed.
Proof.
  exists (fun k _ => N.of_nat (List.length k)), [48; 49; 10], 0, [1], 1000. split; [|discriminate].
  vm_compute. left. reflexivity.
Qed.
Print Assumptions c77_testK_refuted.
Example c77_nonvacuous :
  histogram (fun k => nth 0 k 0) 3 [[1]; [2]; [4]; [5]; [7]] = [0; 3; 2]%nat /\
  testK (fun k s => N.of_nat (List.length k) + s) (Some (joined [[48; 49]; [102; 102]] [])) 5 = ([([1], 1005); ([255], 1005)], Ok tt).
Proof. vm_compute. auto. Qed.
