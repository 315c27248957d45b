(** The tests one after another. *)
From Coq Require Import NArith ZArith List Arith Lia String Bool.
From Verif Require Import Words WordLemmas Mem ListLemmas KeccakModel HashfModel HashfSpec HashfProofs HashfProps
  HashTableModel LiveModel LiveSpec LiveProofs LiveProps HtModel HtSpec HtProofs HtRuns TestMemModel RunSpec HtMainModel HtMainSpec HtMainProofs HtMainProofs2 HtMainProofs3.
Import ListNotations.
Open Scope N_scope.
Notation length := List.length.

Section Stitch.
  Context {X : Type} (piece : X -> list shown -> bool -> Prop).
  Lemma stitched_app l1 a : stitched piece l1 a true -> forall l2 b ok, stitched piece l2 b ok -> stitched piece (l1 ++ l2) (a ++ b) ok.
  Proof.
    intros S. remember true as k eqn:Ek. induction S as [|x l1 a b ok P S IH|x l1 a P]; intros l2 c ok2 S2; [exact S2| |discriminate].
    cbn [app]. rewrite <- app_assoc. apply st_next; auto.
  Qed.
  Lemma stitched_stop l1 a : stitched piece l1 a false -> forall l2, stitched piece (l1 ++ l2) a false.
  Proof.
    intros S. remember false as k eqn:Ek. induction S as [|x l1 a b ok P S IH|x l1 a P]; intros l2; [discriminate| |].
    - cbn [app]. apply st_next; auto.
    - cbn [app]. now apply st_stop.
  Qed.
End Stitch.

Section Run.
  Variable e : ext.
  Variable grow : nat -> nat -> nat.
  Variable np : N -> N.
  Variable f : flags.
  Variable o : opts.
  Variable fs : string -> option (list N).
  Hypothesis Ee : ext_ok e.
  Hypothesis Hd : forall i, f_draw f i < 2 ^ 64.
  Hypothesis Hf : forall file s, fs file = Some s -> small_file s.
  Local Notation piece' := (piece e np f o fs).

  Fixpoint after (n : Z) (d : nat) (l : list step) : Z * nat :=
    match l with
    | [] => (n, d)
    | SRun _ _ t _ _ :: l => after (next_n f t n) (next_d f t d) l
    | _ :: l => after n d l
    end.
  Lemma number_app l1 : forall n d l2, number f n d (l1 ++ l2) = number f n d l1 ++ number f (fst (after n d l1)) (snd (after n d l1)) l2.
  Proof. induction l1 as [|x l1 IH]; intros n d l2; [reflexivity|]. destruct x; cbn [app number after]; rewrite IH; reflexivity. Qed.
  Lemma after_app l1 : forall n d l2, after n d (l1 ++ l2) = after (fst (after n d l1)) (snd (after n d l1)) l2.
  Proof. induction l1 as [|x l1 IH]; intros n d l2; [reflexivity|]. destruct x; cbn [app after]; apply IH. Qed.

  Definition goes (l : list step) (m : sess -> out sess) : Prop :=
    forall s, world_ok (s_world s) -> exists a ok, stitched piece' (number f (s_n s) (s_draws s) l) a ok /\
      did (m s) a ok (fst (after (s_n s) (s_draws s) l)) (snd (after (s_n s) (s_draws s) l)).
  Lemma goes_ext l m m' : (forall s, m s = m' s) -> goes l m -> goes l m'.
  Proof. intros H G s O. rewrite <- H. now apply G. Qed.
  Lemma goes_nil : goes [] ret.
  Proof. intros s O. exists [], true. split; [constructor|]. exists s. auto. Qed.
  Lemma goes_app l1 m1 l2 m2 : goes l1 m1 -> goes l2 m2 -> goes (l1 ++ l2) (fun s => s <<- m1 s ;; m2 s).
  Proof.
    intros G1 G2 s O. destruct (G1 s O) as (a & [|] & S1 & D1); rewrite number_app, after_app.
    - destruct D1 as (s1 & E1 & O1 & N1 & N2). destruct (G2 s1 O1) as (b & ok & S2 & D2). rewrite N1, N2 in *.
      exists (a ++ b), ok. split; [now apply stitched_app|]. rewrite E1, andthen_ok. destruct ok; cbn [did] in *.
      + destruct D2 as (s2 & E2 & H2). exists s2. now rewrite E2.
      + now rewrite D2.
    - exists a, false. split; [now apply stitched_stop|]. cbn [did] in *. now rewrite D1.
  Qed.
  Lemma goes_each {A} (g : A -> list step) (h : A -> sess -> out sess) l : (forall x, goes (g x) (h x)) -> goes (flat_map g l) (each h l).
  Proof.
    intros H. induction l as [|x l IH]; [apply goes_nil|]. cbn [flat_map]. apply (goes_ext _ (fun s => s <<- h x s ;; each h l s)); [reflexivity|].
    now apply goes_app.
  Qed.
  (** A step that does not change the state. *)
  Lemma goes_one x a ok : (forall n d, number f n d [x] = [x]) -> (forall n d, after n d [x] = (n, d)) -> piece' x a ok ->
    goes [x] (fun s => (a, if ok then Ok s else Panics)).
  Proof.
    intros N1 A1 P s O. rewrite N1, A1. destruct ok.
    - exists (a ++ []), true. split; [apply st_next; [exact P|constructor]|]. exists s. rewrite app_nil_r. auto.
    - exists a, false. split; [now apply st_stop|reflexivity].
  Qed.
  Lemma goes_run file name t : goes [SRun file name t 0 0] (call_and_print e grow np f name (text fs file) (lines_for o fs file) t).
  Proof.
    intros s O. cbn [number after fst snd]. destruct (counter name) eqn:C.
    - destruct (call_counter_ok e grow np f o fs Hf name C file t s O) as (a & [|] & Hp & D).
      + exists (a ++ []), true. split; [apply st_next; [cbn [piece]; rewrite C; exact Hp|constructor]|]. now rewrite app_nil_r.
      + exists a, false. split; [|exact D]. apply st_stop. cbn [piece]. now rewrite C.
    - pose proof (call_ok e grow np f o fs Ee Hd Hf name C file t s O) as D. destruct (section e np f o fs file name t (s_n s) (s_draws s)) as [a ok] eqn:Es. cbn [fst snd] in D. destruct ok.
      + exists (a ++ []), true. split; [apply st_next; [cbn [piece]; rewrite C; congruence|constructor]|]. now rewrite app_nil_r.
      + exists a, false. split; [|exact D]. apply st_stop. cbn [piece]. rewrite C. congruence.
  Qed.
  Lemma goes_if (b : bool) l m : goes l m -> goes (if b then l else []) (fun s => if b then m s else ret s).
  Proof. destruct b; [auto|intros _; apply goes_nil]. Qed.
  Lemma flat_if {A B} (p : A -> bool) (g : A -> B) l : flat_map (fun x => if p x then [g x] else []) l = map g (filter p l).
  Proof. induction l as [|x l IH]; [reflexivity|]. cbn [flat_map filter]. destruct (p x); cbn [map app]; now rewrite IH. Qed.

  Definition test_steps (flag : test -> bool) (names : list string) (file : string) : list step :=
    flat_map (fun '(nm, fl, fn, desc) => if flag fl then SHead nm desc :: map (fun name => SRun file name fn 0 0) (filter (passes o) names) else []) Tests.
  Definition tests (flag : test -> bool) (names : list string) (contents : option (list N)) (lines : Z) : sess -> out sess :=
    each (fun '(nm, fl, fn, desc) s =>
      if flag fl then
        _ <<- say (TestHead nm desc) ;;
        each (fun name s => if passes o name then call_and_print e grow np f name contents lines fn s else ret s) names s
      else ret s) Tests.
  Lemma goes_tests flag names file : goes (test_steps flag names file) (tests flag names (text fs file) (lines_for o fs file)).
  Proof.
    apply goes_each. intros [[[nm fl] fn] desc].
    apply (goes_if (flag fl) (SHead nm desc :: map (fun name => SRun file name fn 0 0) (filter (passes o) names))
      (fun s => _ <<- say (TestHead nm desc) ;;
        each (fun name s => if passes o name then call_and_print e grow np f name (text fs file) (lines_for o fs file) fn s else ret s) names s)).
    change (SHead nm desc :: ?l) with ([SHead nm desc] ++ l). rewrite <- flat_if.
    eapply goes_ext; [|apply goes_app; [apply (goes_one _ [TestHead nm desc] true); [reflexivity|reflexivity|now split]|]].
    2: { apply (goes_each (fun x => if passes o x then [SRun file x fn 0 0] else [])
          (fun x s => if passes o x then call_and_print e grow np f x (text fs file) (lines_for o fs file) fn s else ret s)).
         intros x. apply goes_if. apply goes_run. }
    intros s. unfold say. rewrite !andthen_ok. reflexivity.
  Qed.
  Lemma goes_file flag names file : goes (plan_file f o flag names file) (run_file e grow np f o fs flag names file).
  Proof.
    unfold plan_file. change listed with Tests. fold (test_steps flag names file). destruct (String.eqb file "") eqn:E0.
    - cbn [app]. apply (goes_ext _ (tests flag names (text fs file) (lines_for o fs file))); [|apply goes_tests].
      intros s. unfold run_file, text, lines_for. rewrite E0. cbn [negb andb]. unfold ret. rewrite andthen_ok. cbn [app]. apply surjective_pairing.
    - set (count := fun s : sess => if (o_lines o <=? 0)%Z then ([] : list shown, if whole fs file then Ok s else Panics) else ret s).
      set (zero := fun s : sess => if f_zero f then (ZeroHead :: (if whole fs file then [summary (empty_table np f (lines_for o fs file)) 0] else []), if whole fs file then Ok s else Panics) else ret s).
      rewrite <- app_assoc.
      apply (goes_ext _ (fun s => s <<- count s ;; (s <<- zero s ;; tests flag names (text fs file) (lines_for o fs file) s))).
      + intros s. unfold run_file. rewrite E0. unfold count, zero.
        assert (Et : text fs file = fs file) by (unfold text; now rewrite E0).
        pose proof (whole_true fs file) as Wt. pose proof (whole_false fs file) as Wf. rewrite Et in *.
        assert (Z0 : forall lines, print_table (mem (s_world s)) (live_new np lines (seed64 f) (cf_extra (f_cf f)) (cf_oa (f_cf f)) (cf_prime (f_cf f))) 0 = summary (empty_table np f lines) 0).
        { intros lines. rewrite print_view, new_in. reflexivity. }
        assert (Lf : forall c, (o_lines o <=? 0)%Z = c -> lines_for o fs file = if c then Z.of_nat (length (lines_of fs file)) else o_lines o).
        { intros c Hc. unfold lines_for. now rewrite E0, Hc. }
        destruct (o_lines o <=? 0)%Z; rewrite (Lf _ eq_refl); destruct (whole fs file); try rewrite (Wt eq_refl); try rewrite (Wf eq_refl); destruct (f_zero f);
          unfold say, ret, silent; cbn [rbind]; repeat (rewrite andthen_ok || rewrite andthen_panics); cbn [fst snd app]; rewrite ?Z0; try reflexivity;
          fold (tests flag names (fs file)); try apply surjective_pairing.
        all: repeat (rewrite andthen_ok; cbn [fst snd app]); reflexivity.
      + apply goes_app; [|apply goes_app; [|apply goes_tests]].
        * apply (goes_if (o_lines o <=? 0)%Z [SCount file] (fun s => ([], if whole fs file then Ok s else Panics))). apply goes_one; [reflexivity|reflexivity|now split].
        * apply (goes_if (f_zero f) [SZero file] (fun s => (ZeroHead :: (if whole fs file then [summary (empty_table np f (lines_for o fs file)) 0] else []), if whole fs file then Ok s else Panics))).
          apply goes_one; [reflexivity|reflexivity|now split].
  Qed.
End Run.
