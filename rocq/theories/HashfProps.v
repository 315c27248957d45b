(** Properties of package hashf. *)
From Coq Require Import NArith ZArith List Arith Lia String.
From Verif Require Import Words WordLemmas Mem KeccakModel Mm3Spec HashfModel HashfSpec HashfProofs.
From Verif Require GomapSpec SmallSpec SmallModel SmallProofs JenkinsModel JenkinsSpec JenkinsProofs JenkinsProofs2 JenkinsProofs6 SpookySpec
  FarmModel FarmSpec FarmMore FarmProps MetroSpec SipSpec KeccakProofs3.
Import ListNotations.
Open Scope N_scope.

(** C44.  A program that allocates and changes its own arrays and calls Hashf with any names, in
    any order: every call returns the hash of that name of the bytes the key has at that moment
    (or panics), whatever was hashed before; the two counting names count.  Hashf never changes
    the program's memory: the answers are computed on a memory that Hashf does not touch. *)
Theorem c44_programs e grow m ops : ext_ok e -> Forall bytes_ok m -> hops_ok (length m) (mem (init m)) ops ->
  execute e grow (init m) ops = answers e 0 0 (mem (init m)) ops.
Proof. intros He Hm Ho. apply (execute_ok e grow (length m)); [exact He|now apply init_inv|exact Ho]. Qed.
Print Assumptions c44_programs.

(** Other packages, for the examples. *)
Definition toy : ext := mkExt (fun k s => s) (fun x s => x) (fun k => 1) (fun _ => repeat 7 20) (fun _ => repeat 9 64) (fun _ => repeat 8 32) (fun _ => repeat 6 28).
Lemma toy_ok : ext_ok toy.
Proof. constructor; intros; (split; [reflexivity|]); apply Forall_forall; intros x Hx; apply repeat_spec in Hx; subst; reflexivity. Qed.
Definition demo : list hop := [
  Call "sbox" (mkSlice 0 0 3 4) 5; Call "nullhash" (mkSlice 0 0 3 4) 0; Call "keccakpg643" (mkSlice 0 1 2 3) 0; Assign 0 1 [200];
  Call "keccakpg643" (mkSlice 0 1 2 3) 0; Alloc [1; 2; 3; 4; 5; 6; 7; 8; 9]; Call "keccakpg160" (mkSlice 6 0 9 9) 0; Call "nullhash" nil_slice 0;
  Call "sha1" (mkSlice 6 0 9 9) 0; Call "murmur364" (mkSlice 6 0 9 9) 0; Call "sbox" (mkSlice 0 0 3 4) 5; Call "FarmHash128" (mkSlice 6 0 9 9) 0; Call "sbox" nil_slice 5]%string.
Example c44_programs_nonvacuous : ext_ok toy /\ hops_ok 1 (mem (init [[1; 2; 3; 4]])) demo /\
  execute toy (fun _ n => n) (init [[1; 2; 3; 4]]) demo =
    [Some 1427246646; Some 1; Some 15567794806179674618; Some 16691902406158419606; Some 1190159205944538046;
     Some 2; Some 506381209866536711; Some 13807401213100465550; Some 2026516649; None].
Proof.
  split; [exact toy_ok|]. split; [|vm_compute; reflexivity]. unfold demo.
  repeat (split; [cbn [hop_ok]; repeat match goal with |- _ /\ _ => split end; try (cbn; lia); try reflexivity; try (repeat constructor; fail); unfold foreign; cbn; try lia; try (left; reflexivity)|]); exact I.
Qed.

(** Shortest keys: the four names that read the key without looking at its length. *)
Definition shortest (name : string) : nat :=
  if ((name =? "gomap64") || (name =? "gomap32"))%string%bool then 1
  else if ((name =? "perfecthash") || (name =? "aeshash32I"))%string%bool then 4
  else if (name =? "aeshash64I")%string then 8 else 0.
Lemma needs_none n k x : needs n k x = None <-> (length k < n)%nat.
Proof. unfold needs. destruct (Nat.ltb_spec (length k) n); split; intros; try reflexivity; try lia; discriminate. Qed.
Lemma table_panics e : Forall (fun nf => forall k s, snd nf k s = None <-> (length k < shortest (fst nf))%nat) (table e).
Proof.
  unfold table. repeat (constructor; [cbn [fst snd]; intros k s|]);
    lazymatch goal with
    | |- needs _ _ _ = None <-> _ => apply needs_none
    | |- Some _ = None <-> (_ < ?n)%nat => change n with 0%nat; split; [discriminate|lia]
    | |- (let '(_, _) := ?p in _) = _ <-> (_ < ?n)%nat => destruct p; change n with 0%nat; split; [discriminate|lia]
    | |- _ => constructor
    end.
Qed.
Lemma assoc_in {A} n (l : list (string * A)) x : assoc n l = Some x -> In (n, x) l.
Proof.
  induction l as [|[m y] l IH]; [discriminate|]. cbn [assoc]. destruct (n =? m)%string eqn:E; [|right; auto].
  intros H. injection H as <-. apply String.eqb_eq in E. subst. now left.
Qed.
Lemma assoc_none {A} n (l : list (string * A)) : assoc n l = None <-> ~ In n (map fst l).
Proof.
  induction l as [|[m y] l IH]; [split; auto|]. cbn [assoc map fst In]. destruct (n =? m)%string eqn:E.
  - apply String.eqb_eq in E. subst. split; [discriminate|]. intros H. destruct H. now left.
  - apply String.eqb_neq in E. rewrite IH. split; [intros H [F|F]; [now subst|auto]|auto].
Qed.
Lemma reference_none e name k seed : reference e name k seed = None <-> ~ In name (map fst (table e)) \/ (length k < shortest name)%nat.
Proof.
  unfold reference. destruct (assoc name (table e)) as [f|] eqn:E.
  - pose proof (table_panics e) as T. rewrite Forall_forall in T. specialize (T _ (assoc_in _ _ _ E) k seed). cbn [fst snd] in T.
    rewrite T. split; [auto|]. intros [F|F]; [|exact F]. apply assoc_none in F. congruence.
  - split; [|reflexivity]. intros _. left. now apply assoc_none.
Qed.
(** Which calls panic: unknown names and too short keys, nothing else. *)
Theorem c44_panics e grow w name k seed : ext_ok e -> world_ok w -> slice_in (mem w) k -> N.of_nat (len k) < 2 ^ 64 -> seed < 2 ^ 64 ->
  counter name = false ->
  (Hashf e grow w name k seed = Panics <-> ~ In name (map fst (table e)) \/ (len k < shortest name)%nat).
Proof.
  intros He Hw Hk Hl Hs Hc. pose proof (Hashf_right e grow w name k seed He Hw Hk Hl Hs Hc) as R. unfold right in R.
  assert (Lr : length (read (mem w) k) = len k) by now apply KeccakProofs3.read_length.
  rewrite <- Lr, <- (reference_none e name _ seed). destruct (reference e name (read (mem w) k) seed) as [h|]; [|split; auto].
  destruct R as (w' & -> & _). split; discriminate.
Qed.
Print Assumptions c44_panics.
Example c44_panics_nonvacuous : exists w k, world_ok w /\ slice_in (mem w) k /\
  Hashf toy (fun _ n => n) w "perfecthash" k 0 = Panics /\ Hashf toy (fun _ n => n) w "aeshash64" k 3 = Ok (w, 3).
Proof.
  exists (init [[1; 2; 3]]), (mkSlice 0 0 3 3). split; [apply init_ok; repeat constructor|].
  split; [repeat split; cbn; lia|]. split; vm_compute; reflexivity.
Qed.

(** The lists of names the package publishes contain names that Hashf does not know: these
    panic for every key, in every state. *)
Definition dead (name : string) : Prop := forall e grow w k seed, Hashf e grow w name k seed = Panics.
Theorem c44_published_names_refuted : exists name, In name TestHashFunctions /\ dead name.
Proof. exists "skein256"%string. split; [cbn; tauto|]. intros e grow w k seed. reflexivity. Qed.
Definition alive (name : string) : bool :=
  match Hashf toy (fun _ n => n) (init [[1; 2; 3; 4; 5; 6; 7; 8]]) name (mkSlice 0 0 8 8) 0 with Panics => false | _ => true end.
Lemma alive_not_dead name : alive name = true -> ~ dead name.
Proof. intros A D. unfold alive in A. now rewrite D in A. Qed.
Theorem c44_published_names name :
  (In name TestHashFunctions -> (dead name <-> name = "skein256"%string)) /\
  (In name (map fst HashFunctions) -> (dead name <-> In name ["FarmHash128"; "MetroHash128-1"; "MetroHash128-2"; "keccak160"]%string)).
Proof.
  split; intros H.
  - assert (A : forallb (fun n => (n =? "skein256")%string || alive n) TestHashFunctions = true) by (vm_compute; reflexivity).
    rewrite forallb_forall in A. specialize (A name H). apply Bool.orb_true_iff in A. destruct A as [A|A].
    + apply String.eqb_eq in A. subst. split; [reflexivity|]. intros _ e grow w k seed. reflexivity.
    + apply alive_not_dead in A. split; [intros D; contradiction|]. intros ->. destruct A. intros e grow w k seed. reflexivity.
  - assert (A : forallb (fun n => existsb (String.eqb n) ["FarmHash128"; "MetroHash128-1"; "MetroHash128-2"; "keccak160"]%string || alive n) (map fst HashFunctions) = true) by (vm_compute; reflexivity).
    rewrite forallb_forall in A. specialize (A name H). apply Bool.orb_true_iff in A.
    assert (D : In name ["FarmHash128"; "MetroHash128-1"; "MetroHash128-2"; "keccak160"]%string -> dead name).
    { cbn [In]. intros [<-|[<-|[<-|[<-|[]]]]] e grow w k seed; reflexivity. }
    split; [|exact D]. intros D'. destruct A as [A|A]; [|now apply alive_not_dead in A].
    apply existsb_exists in A. destruct A as (x & Hx & Ex). apply String.eqb_eq in Ex. now subst.
Qed.
Print Assumptions c44_published_names.
Example c44_published_names_nonvacuous : In "skein256"%string TestHashFunctions /\ In "sha1"%string TestHashFunctions /\ In "keccak160"%string (map fst HashFunctions).
Proof. repeat split; cbn; tauto. Qed.

(** Names announced with 32 bits give values below 2^32. *)
Lemma xsr32 k y : xsr k (y mod 2 ^ 32) < 2 ^ 32.
Proof.
  unfold xsr. apply (xor_fits 32); [apply N.mod_lt; discriminate|]. unfold fits.
  apply N.le_lt_trans with (y mod 2 ^ 32); [apply N.div_le_upper_bound; [apply N.pow_nonzero; discriminate|]|apply N.mod_lt; discriminate].
  pose proof (N.pow_nonzero 2 k ltac:(discriminate)) as P. revert P. generalize (2 ^ k) as p, (y mod 2 ^ 32) as z. intros. nia.
Qed.
Lemma crapwow_range k s : bytes_ok k -> SmallSpec.crapwow_spec k s < 2 ^ 32.
Proof.
  intros Hk. unfold SmallSpec.crapwow_spec. set (n := SmallSpec.lo _).
  assert (F : fits 32 (fst (SmallSpec.xor2 (n, (n + s + SmallSpec.MB) mod 2 ^ 32) (SmallSpec.shares (SmallSpec.parts k)))) /\
              fits 32 (snd (SmallSpec.xor2 (n, (n + s + SmallSpec.MB) mod 2 ^ 32) (SmallSpec.shares (SmallSpec.parts k))))).
  { apply SmallProofs.xor2_fits; [split; apply N.mod_lt; discriminate|]. now apply SmallProofs.shares_fits, SmallProofs.parts_fits. }
  destruct (SmallSpec.xor2 _ _) as [h x]. cbn [fst snd] in F. destruct F as [Fh Fx].
  apply (xor_fits 32); (apply (xor_fits 32); [assumption|]); [|apply N.mod_lt; discriminate].
  unfold SmallSpec.hi, fits. apply N.div_lt_upper_bound; [discriminate|].
  apply N.mul_lt_mono; [|reflexivity]. apply (xor_fits 32); [assumption|apply N.mod_lt; discriminate].
Qed.
Lemma lookup2_range k s : JenkinsSpec.lookup2_gen false false k s < 2 ^ 32.
Proof.
  unfold JenkinsSpec.lookup2_gen. destruct (blocks 12 k) as [bs r]. cbv zeta. rewrite JenkinsProofs2.l2_mix_eq.
  set (t := fold_left _ _ _). destruct t as [[a b] c].
  assert (T : JenkinsProofs.tri_ok 32 (JenkinsModel.mix32 (JenkinsSpec.l2_last false (a, b, c) (N.of_nat (length r)) r))).
  { apply JenkinsProofs.mix32_bij. unfold JenkinsSpec.l2_last. repeat split; apply N.mod_lt; discriminate. }
  destruct (JenkinsModel.mix32 _) as [[x y] z]. apply T.
Qed.
Definition narrow : list string :=
  ["adler32"; "sbox"; "CrapWow"; "j332c"; "j332b"; "j232"; "j264l"; "j264h"; "j264xor"; "spooky32"; "gomap32"; "murmur332"; "FarmHash32"]%string.
Lemma narrow_range e name k seed h : (forall k, adler32 e k < 2 ^ 32) -> bytes_ok k -> In name narrow ->
  reference e name k seed = Some h -> h < 2 ^ 32.
Proof.
  intros Ha Hk Hn. unfold narrow in Hn. cbn [In] in Hn.
  repeat (destruct Hn as [<-|Hn]); try contradiction;
    cbv [reference assoc table String.eqb Ascii.eqb Bool.eqb]; unfold needs; try (destruct (Nat.ltb _ _); [discriminate|]);
    intros H; injection H as <-.
  - apply Ha.
  - apply N.mod_lt. discriminate.
  - now apply crapwow_range.
  - apply JenkinsProofs6.lookup3_ok.
  - apply JenkinsProofs6.lookup3_ok.
  - apply lookup2_range.
  - apply low32_fits.
  - apply high32_fits, lookup8v_fits.
  - apply (xor_fits 32); [apply low32_fits|apply high32_fits, lookup8v_fits].
  - apply low32_fits.
  - apply xsr32.
  - unfold murmur3_x86_32. destruct (blocks 4 k). apply xsr32.
  - apply FarmMore.spec_hash32_fits.
Qed.
Theorem c44_announced_widths e grow w name k seed w' h : ext_ok e -> (forall k, adler32 e k < 2 ^ 32) ->
  world_ok w -> slice_in (mem w) k -> N.of_nat (len k) < 2 ^ 64 -> seed < 2 ^ 64 ->
  In (name, 32) HashFunctions -> Hashf e grow w name k seed = Ok (w', h) -> h < 2 ^ 32.
Proof.
  intros He Ha Hw Hk Hl Hs Hn E.
  assert (A : forallb (fun p => negb (N.eqb (snd p) 32) || (existsb (String.eqb (fst p)) narrow && negb (counter (fst p)))) HashFunctions = true) by (vm_compute; reflexivity).
  rewrite forallb_forall in A. specialize (A _ Hn). cbn [fst snd N.eqb Pos.eqb negb orb] in A.
  apply Bool.andb_true_iff in A. destruct A as [A C]. apply Bool.negb_true_iff in C.
  apply existsb_exists in A. destruct A as (x & Hx & Ex). apply String.eqb_eq in Ex. subst x.
  pose proof (Hashf_right e grow w name k seed He Hw Hk Hl Hs C) as R. unfold right in R.
  destruct (reference e name (read (mem w) k) seed) as [h'|] eqn:Er; [|congruence].
  destruct R as (w1 & E1 & _). assert (h' = h) by congruence. subst h'.
  apply (narrow_range e name (read (mem w) k) seed); try assumption. apply KeccakProofs3.read_ok, Hw.
Qed.
Print Assumptions c44_announced_widths.
Example c44_announced_widths_nonvacuous : In ("murmur332"%string, 32) HashFunctions /\
  exists w' h, Hashf toy (fun _ n => n) (init [[1; 2; 3]]) "murmur332" (mkSlice 0 0 3 3) 0 = Ok (w', h) /\ 2 ^ 30 < h.
Proof. split; [cbn; tauto|]. eexists. eexists. split; [vm_compute; reflexivity|reflexivity]. Qed.

(** What the seed does.  Names whose result does not depend on it, and names that use only its
    low half. *)
Definition seedless : list string :=
  ["perfecthash"; "adler32"; "MaHash8v64"; "murmur332"; "murmur364"; "siphash64"; "FarmHash32"; "FarmHash64"; "FarmHash128-high"; "FarmHash128-low";
   "FarmHash128-xor"; "keccak224"; "keccakpg643"; "keccakpg644"; "keccakpg648"; "keccakpg160"; "whirlpool"; "blake2b"; "sha1"]%string.
Definition half_seed : list string :=
  ["gomap32"; "sbox"; "CrapWow"; "j364"; "j332c"; "j332b"; "j232"; "spooky32"; "MetroHash64-1"; "MetroHash64-2"; "MetroHash128-1h"; "MetroHash128-1l";
   "MetroHash128-1xor"; "MetroHash128-2h"; "MetroHash128-2l"; "MetroHash128-2xor"]%string.
Definition value (r : res (world * N)) : option N := match r with Ok (_, h) => Some h | _ => None end.
Lemma value_right e grow w name k seed : ext_ok e -> world_ok w -> slice_in (mem w) k -> N.of_nat (len k) < 2 ^ 64 -> seed < 2 ^ 64 ->
  counter name = false -> value (Hashf e grow w name k seed) = reference e name (read (mem w) k) seed.
Proof.
  intros He Hw Hk Hl Hs Hc. pose proof (Hashf_right e grow w name k seed He Hw Hk Hl Hs Hc) as R. unfold right in R.
  destruct (reference _ _ _ _); [destruct R as (w' & -> & _); reflexivity|now rewrite R].
Qed.
Theorem c44_seeds e grow w name k s t : ext_ok e -> world_ok w -> slice_in (mem w) k -> N.of_nat (len k) < 2 ^ 64 -> s < 2 ^ 64 -> t < 2 ^ 64 ->
  In name seedless \/ In name half_seed /\ s mod 2 ^ 32 = t mod 2 ^ 32 ->
  value (Hashf e grow w name k s) = value (Hashf e grow w name k t).
Proof.
  intros He Hw Hk Hl Hs Ht H.
  assert (C : counter name = false).
  { assert (A : forallb (fun n => negb (counter n)) (seedless ++ half_seed) = true) by (vm_compute; reflexivity).
    rewrite forallb_forall in A. apply Bool.negb_true_iff, A. apply in_or_app. tauto. }
  rewrite !value_right by assumption. unfold reference. destruct H as [H|[H E]]; cbn [seedless half_seed In] in H.
  - repeat (destruct H as [<-|H]; [reflexivity|]); contradiction.
  - fold (low32 s) in E. fold (low32 t) in E.
    repeat (destruct H as [<-|H]; [cbv [assoc table String.eqb Ascii.eqb Bool.eqb]; rewrite E; reflexivity|]); contradiction.
Qed.
Print Assumptions c44_seeds.
(** For the others of this repository every half of the seed matters: both seeds below change
    the hash of the one-byte key 1. *)
Definition full_seed : list string :=
  ["gomap64"; "j264"; "j264l"; "j264h"; "j264xor"; "spooky64"; "spooky128h"; "spooky128l"; "spooky128xor"; "siphash64pg"]%string.
Theorem c44_seeds_used name : In name full_seed ->
  exists e w k, ext_ok e /\ world_ok w /\ slice_in (mem w) k /\
    value (Hashf e (fun _ n => n) w name k 0) <> value (Hashf e (fun _ n => n) w name k 1) /\
    value (Hashf e (fun _ n => n) w name k 0) <> value (Hashf e (fun _ n => n) w name k (2 ^ 32)).
Proof.
  intros H. exists toy, (init [[1]]), (mkSlice 0 0 1 1). split; [exact toy_ok|]. split; [apply init_ok; repeat constructor|].
  split; [repeat split; cbn; lia|].
  cbn [full_seed In] in H. repeat (destruct H as [<-|H]; [split; vm_compute; discriminate|]); contradiction.
Qed.
Print Assumptions c44_seeds_used.
(** And the low half matters for every name that uses only that: the 19 + 16 + 10 names are, with
    the three AES names handed to code outside the repository, all the names that hash the key,
    each in one list only. *)
Theorem c44_half_seeds_used name : In name half_seed ->
  exists e w k, ext_ok e /\ world_ok w /\ slice_in (mem w) k /\
    value (Hashf e (fun _ n => n) w name k 0) <> value (Hashf e (fun _ n => n) w name k 1).
Proof.
  intros H. exists toy, (init [[1]]), (mkSlice 0 0 1 1). split; [exact toy_ok|]. split; [apply init_ok; repeat constructor|].
  split; [repeat split; cbn; lia|].
  cbn [half_seed In] in H. repeat (destruct H as [<-|H]; [vm_compute; discriminate|]); contradiction.
Qed.
Print Assumptions c44_half_seeds_used.
Theorem c44_seed_classes : length seedless = 19%nat /\ length half_seed = 16%nat /\ length full_seed = 10%nat /\
  NoDup (seedless ++ half_seed ++ full_seed) /\
  forall e grow w name k seed w' h, ext_ok e -> world_ok w -> slice_in (mem w) k -> N.of_nat (len k) < 2 ^ 64 -> seed < 2 ^ 64 ->
    Hashf e grow w name k seed = Ok (w', h) ->
    counter name = true \/ In name ["aeshash64"; "aeshash32I"; "aeshash64I"]%string \/ In name (seedless ++ half_seed ++ full_seed).
Proof.
  split; [reflexivity|]. split; [reflexivity|]. split; [reflexivity|]. split.
  { repeat constructor; cbn [app In]; intros H; repeat (destruct H as [H|H]; [discriminate H|]); exact H. }
  intros e grow w name k seed w' h He Hw Hk Hl Hs E. destruct (counter name) eqn:C; [now left|right].
  pose proof (value_right e grow w name k seed He Hw Hk Hl Hs C) as V. rewrite E in V. cbn [value] in V. unfold reference in V.
  assert (A : forall l : list (string * (list N -> N -> option N)), assoc name l <> None -> In name (map fst l)).
  { induction l as [|[m x] l IH]; cbn; [congruence|]. destruct (String.eqb_spec name m); [now left|right; auto]. }
  specialize (A (table e)). destruct (assoc name (table e)); [|discriminate V]. specialize (A ltac:(discriminate)).
  clear - A. cbn [table map fst In] in A. cbn [seedless half_seed full_seed app In]. tauto.
Qed.
Print Assumptions c44_seed_classes.
Example c44_seeds_nonvacuous : In "j364"%string half_seed /\ 5 mod 2 ^ 32 = (5 + 7 * 2 ^ 32) mod 2 ^ 32 /\
  value (Hashf toy (fun _ n => n) (init [[1]]) "j364" (mkSlice 0 0 1 1) 5) <> value (Hashf toy (fun _ n => n) (init [[1]]) "j364" (mkSlice 0 0 1 1) 6).
Proof. split; [cbn; tauto|]. split; [reflexivity|vm_compute; discriminate]. Qed.

(** "FarmHash128-high" is the low word of FarmHash's Hash128 and "FarmHash128-low" the high
    one: the claim that the names say what they give is false. *)
Theorem c44_farm_halves e grow w k seed : ext_ok e -> world_ok w -> slice_in (mem w) k -> N.of_nat (len k) < 2 ^ 64 -> seed < 2 ^ 64 ->
  exists lo hi, FarmModel.farm_hash128 (read (mem w) k) = Ok (lo, hi) /\
    value (Hashf e grow w "FarmHash128-high" k seed) = Some lo /\ value (Hashf e grow w "FarmHash128-low" k seed) = Some hi.
Proof.
  intros He Hw Hk Hl Hs. destruct (FarmProps.c31_farm_in_bounds (read (mem w) k)) as (_ & _ & E & _); [apply KeccakProofs3.read_ok, Hw|].
  exists (fst (FarmSpec.spec_hash128 (read (mem w) k))), (snd (FarmSpec.spec_hash128 (read (mem w) k))).
  split; [rewrite E; now destruct (FarmSpec.spec_hash128 _)|]. rewrite !value_right by (assumption || reflexivity). split; reflexivity.
Qed.
Example c44_farm_halves_nonvacuous : FarmModel.farm_hash128 [104; 105] = Ok (9332788983154500990, 9043052888777126847) /\
  value (Hashf toy (fun _ n => n) (init [[104; 105]]) "FarmHash128-high" (mkSlice 0 0 2 2) 9) = Some 9332788983154500990 /\
  value (Hashf toy (fun _ n => n) (init [[104; 105]]) "FarmHash128-low" (mkSlice 0 0 2 2) 9) = Some 9043052888777126847.
Proof. split; [|split]; vm_compute; reflexivity. Qed.
Theorem c44_farm_halves_refuted : exists w k lo hi, world_ok w /\ slice_in (mem w) k /\ FarmModel.farm_hash128 (read (mem w) k) = Ok (lo, hi) /\
  value (Hashf toy (fun _ n => n) w "FarmHash128-high" k 0) <> Some hi.
Proof.
  exists (init [[1]]), (mkSlice 0 0 1 1). eexists. eexists. split; [apply init_ok; repeat constructor|]. split; [repeat split; cbn; lia|].
  split; [vm_compute; reflexivity|vm_compute; discriminate].
Qed.
Print Assumptions c44_farm_halves.
Print Assumptions c44_published_names_refuted.
Print Assumptions c44_farm_halves_refuted.
