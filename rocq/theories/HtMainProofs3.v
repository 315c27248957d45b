(** A test with a counting name: where it begins, how it ends and that the next test finds package hashf in order. *)
From Coq Require Import NArith ZArith List Arith Lia String Bool.
From Verif Require HashTableSpec.
From Verif Require Import Words WordLemmas Mem ListLemmas KeccakModel KeccakProofs3 KeccakProofs4 KeccakProofs5 HashfModel HashfSpec HashfProofs HashfProps
  HashTableModel HashTableProofs LiveModel LiveSpec LiveProofs LiveProofs2 LiveProofs3 LiveProofs5 LiveProps HtModel HtSpec HtProofs HtKeys HtRuns
  TestMemModel TestMemProofs RunSpec RunProofs4 RunProofs5 HtMainModel HtMainSpec HtMainProofs HtMainProofs2.
Import ListNotations.
Open Scope N_scope.
Notation length := List.length.

(** Chains and at least one bucket: an insertion cannot fail. *)
Definition roomy (t : live) : Prop := loa t = false /\ 1 <= lsize t /\ fits 64 (lsize t) /\ lmask t = sub64 (lsize t) 1.
Definition formed (t : live) : Prop := length (lbuckets t) = N.to_nat (lsize t).
Definition reshaped (t t' : live) : Prop :=
  length (lbuckets t') = length (lbuckets t) /\ lsize t' = lsize t /\ lmask t' = lmask t /\ loa t' = loa t /\ lprime t' = lprime t.
Lemma reshaped_trans a b c : reshaped a b -> reshaped b c -> reshaped a c.
Proof. intros (A1 & A2 & A3 & A4 & A5) (B1 & B2 & B3 & B4 & B5). repeat split; congruence. Qed.

Section Counter.
  Variable e : ext.
  Variable grow : nat -> nat -> nat.
  Variable name : string.
  Hypothesis Ee : ext_ok e.
  Hypothesis Hc : counter name = true.

  Lemma set_nth_len {A} i (x : A) l : length (set_nth i x l) = length l.
  Proof. revert i. induction l as [|y l IH]; intros [|i]; cbn [set_nth length]; auto. Qed.
  Lemma loop_counter k h : forall fuel w t idx cnt pass, world_ok w -> (pass = 0 \/ pass = 1) ->
    ((if (pass =? 0)%N then 2 else 1) * length (lbuckets t) + 2 <= fuel + idx)%nat -> (idx <= length (lbuckets t))%nat ->
    (exists w' t', live_loop fuel e grow name k h w t idx cnt pass = Ok (w', t') /\ world_ok w' /\ same w w' /\ reshaped t t') \/
    (live_loop fuel e grow name k h w t idx cnt pass = Panics /\ (loa t = true \/ (length (lbuckets t) <= idx)%nat)).
  Proof.
    induction fuel as [|fuel IH]; intros w t idx cnt pass O Hp Hf Hi; [destruct (pass =? 0); lia|]. cbn [live_loop].
    destruct (nth_error (lbuckets t) idx) as [[|b0 rest]|] eqn:En.
    - left. eexists w, _. split; [reflexivity|]. split; [exact O|]. split; [split; [apply keeps_mem_refl|reflexivity]|]. repeat split. apply set_nth_len.
    - assert (idx < length (lbuckets t))%nat by (apply nth_error_Some; congruence). destruct (loa t) eqn:Eo.
      + destruct (Hashf_counter e grow w name b0 (lseed t) Hc O) as (w' & E & O' & M & F & _). rewrite E. cbn [rbind].
        set (t1 := live_stats t _).
        assert (S1 : same w w') by (split; [rewrite M; apply keeps_mem_refl|now rewrite F]).
        assert (G : forall r, ((exists w'' t'', r = Ok (w'', t'') /\ world_ok w'' /\ same w' w'' /\ reshaped t1 t'') \/ (r = Panics /\ (loa t1 = true \/ True))) ->
          (exists w'' t'', r = Ok (w'', t'') /\ world_ok w'' /\ same w w'' /\ reshaped t t'') \/ (r = Panics /\ (true = true \/ (length (lbuckets t) <= idx)%nat))).
        { intros r [(w'' & t'' & -> & O2 & S2 & R2)|[-> _]]; [left|right; auto]. exists w'', t''. split; [reflexivity|]. split; [exact O2|]. split; [|exact R2].
          destruct S1 as [K1 F1], S2 as [K2 F2]. split; [|congruence]. revert K2. unfold keeps_mem in *. rewrite F1, M. auto. }
        assert (W : forall idx' pass', (pass' = 0 \/ pass' = 1) -> ((if (pass' =? 0)%N then 2 else 1) * length (lbuckets t) + 2 <= fuel + idx')%nat -> (idx' <= length (lbuckets t))%nat ->
          (exists w'' t'', live_loop fuel e grow name k h w' t1 idx' (cnt + 1) pass' = Ok (w'', t'') /\ world_ok w'' /\ same w w'' /\ reshaped t t'') \/
          (live_loop fuel e grow name k h w' t1 idx' (cnt + 1) pass' = Panics /\ (true = true \/ (length (lbuckets t) <= idx)%nat))).
        { intros idx' pass' P1 P2 P3. apply G. destruct (IH w' t1 idx' (cnt + 1) pass' O' P1 P2 P3) as [A|[A B]]; [now left|right; tauto]. }
        destruct (sub64 (lsize t1) 1 <? N.of_nat (S idx)).
        * destruct Hp as [-> | ->]; [|right; auto]. change (1 <? 0 + 1) with false. cbn iota. apply W; [now right|cbn in *; lia|lia].
        * apply W; [exact Hp|lia|lia].
      + destruct (scan_counter e grow name Hc (lseed t) h (b0 :: rest) w (dups (lst t))) as (w' & E & M & F & _ & O'). rewrite E. cbn [rbind].
        left. eexists w', _. split; [reflexivity|]. split; [auto|]. split; [split; [rewrite M; apply keeps_mem_refl|now rewrite F]|]. repeat split. apply set_nth_len.
    - right. split; [reflexivity|]. right. now apply nth_error_None.
  Qed.
  Lemma insert_counter w t ka : world_ok w -> formed t ->
    (exists w' t', live_insert e grow name w t ka = Ok (w', t') /\ world_ok w' /\ grows w w' /\ reshaped t t') \/
    (live_insert e grow name w t ka = Panics /\ ~ roomy t).
  Proof.
    intros O Fo. unfold live_insert. cbn [lseed live_stats lprime lsize lmask lbuckets].
    set (k := mkSlice _ _ _ _). set (v := withMem w _).
    assert (Ov : world_ok v). { apply app_ok; [exact O|]. apply read_ok. apply O. }
    destruct (Hashf_counter e grow v name k (lseed t) Hc Ov) as (w1 & E & O1 & M1 & F1 & _). rewrite E. cbn [rbind].
    destruct (lprime t && (lsize t =? 0)) eqn:Ep.
    { right. split; [reflexivity|]. intros (_ & R & _). apply andb_true_iff in Ep. destruct Ep as [_ Ep]. apply N.eqb_eq in Ep. lia. }
    set (h := (_ + 1) mod 2 ^ 64). set (idx := if lprime t then _ else _). set (t1 := live_stats t _).
    destruct (le_gt_dec (length (lbuckets t)) (N.to_nat idx)) as [Hi|Hi].
    - right. split.
      + destruct (2 * length (lbuckets t) + 2)%nat eqn:Ef; [lia|]. cbn [live_loop]. replace (nth_error (lbuckets t1) (N.to_nat idx)) with (@None (list slice)); [reflexivity|].
        symmetry. now apply nth_error_None.
      + intros (_ & R1 & R2 & R3). unfold formed in Fo. rewrite Fo in Hi. assert (idx < lsize t); [|lia]. subst idx. pose proof (home_below (lprime t) (lsize t) h R1) as B. unfold HashTableSpec.home in B. destruct (lprime t); [exact B|].
        rewrite R3, less_one by (unfold fits in R2; lia). exact B.
    - destruct (loop_counter k h (2 * length (lbuckets t) + 2) w1 t1 (N.to_nat idx) 0 0 O1 (or_introl eq_refl)) as [(w' & t' & E' & O' & S' & R')|[E' R']].
      + subst t1. cbn [lbuckets live_stats N.eqb]. lia.
      + subst t1. cbn [lbuckets live_stats]. lia.
      + left. exists w', t'. split; [exact E'|]. split; [exact O'|]. split; [|exact R'].
        apply (grows_same w v); [apply grows_app|]. destruct S' as [K F]. split; [|congruence]. revert K. unfold keeps_mem. now rewrite F1, M1.
      + right. split; [exact E'|]. intros (R0 & _). destruct R' as [R'|R']; [subst t1; cbn [loa live_stats] in R'; congruence|subst t1; cbn [lbuckets live_stats] in R'; lia].
  Qed.
  Definition own_hash (op : lop) : Prop := match op with LHash other _ _ _ _ => other = name | _ => True end.
  Lemma log_counter : forall ops w own ms t, world_ok w -> owns w own ms -> formed t -> lops_ok ms ops -> Forall own_hash ops ->
    (exists w' t' hs, live_log e grow name w own t ops = Ok (w', t', hs) /\ world_ok w' /\ reshaped t t') \/
    (live_log e grow name w own t ops = Panics /\ ~ roomy t).
  Proof.
    induction ops as [|op ops IH]; intros w own ms t O Ow Fo L H; [left; eexists _, _, _; split; [reflexivity|split; [exact O|now repeat split]]|].
    destruct L as [Lo L]. apply Forall_cons_iff in H. destruct H as [Ho H].
    set (t0 := live_new (fun x => x) 0 0 0 false false).
    assert (H0 : holds_all (kept (fun _ => True) w own) t0) by apply new_holds.
    destruct op as [bs|a o bs|other a o n s|a o n]; cbn [live_log lop_mem lop_ok own_hash] in *.
    - destruct (alloc_inv _ w own ms t0 bs O Ow H0 Lo) as (O' & Ow' & _ & _). now apply (IH _ _ (ms ++ [bs])).
    - destruct Lo as (Ha & Hl & Hb). destruct (assign_inv _ w own ms t0 a o bs O Ow H0 Ha Hl Hb) as (O' & Ow' & _ & _). now apply (IH _ _ (store ms a o bs)).
    - subst other. destruct (Hashf_counter e grow w name (LiveModel.piece w (nth a own 0%nat) o n) s Hc O) as (w' & E & O' & M & F & _). rewrite E. cbn [rbind].
      destruct (IH w' own ms t O') as [(w2 & t2 & hs & E2 & O2 & R2)|[E2 N2]]; try assumption.
      + apply (owns_grows w); [|exact Ow]. apply same_grows. split; [rewrite M; apply keeps_mem_refl|now rewrite F].
      + left. rewrite E2. cbn [rbind]. eauto 6.
      + right. rewrite E2. auto.
    - destruct (insert_counter w t (LiveModel.piece w (nth a own 0%nat) o n) O Fo) as [(w' & t' & E & O' & G & R)|[E N1]]; rewrite E; cbn [rbind]; [|right; auto].
      assert (R0 := R). destruct R as (R1 & R2 & R3 & R4 & R5).
      destruct (IH w' own ms t' O') as [(w2 & t2 & hs & E2 & O2 & Rs)|[X N2]]; try assumption; [now apply (owns_grows w)|unfold formed in *; congruence| |right].
      { left. exists w2, t2, hs. split; [exact E2|]. split; [exact O2|]. now apply (reshaped_trans t t'). }
      split; [exact X|]. intros (Q1 & Q2 & Q3 & Q4). apply N2. unfold roomy. now rewrite R2, R3, R4.
  Qed.
End Counter.

(** ** Tests *)
Section Test.
  Variable e : ext.
  Variable grow : nat -> nat -> nat.
  Variable np : N -> N.
  Variable f : flags.
  Variable o : opts.
  Variable fs : string -> option (list N).
  Hypothesis Ee : ext_ok e.
  Hypothesis Hf : forall file s, fs file = Some s -> small_file s.
  Variable name : string.
  Hypothesis Hc : counter name = true.
  Local Notation text := (text fs).
  Local Notation lines_of := (lines_of fs).
  Local Notation whole := (whole fs).
  Local Notation lines_for := (lines_for o fs).
  Local Notation empty_table := (empty_table np f).

  Definition safe (sz : Z) : Prop := cf_oa (f_cf f) = false /\ 1 <= size (empty_table sz) /\ fits 64 (size (empty_table sz)).
  Lemma safe_roomy sz : safe sz -> roomy (live_new np sz (seed64 f) (cf_extra (f_cf f)) (cf_oa (f_cf f)) (cf_prime (f_cf f))).
  Proof.
    unfold safe, roomy, HtMainSpec.empty_table, new_table, live_new. destruct (table_size np sz _ _) as [lg x]. cbn [size loa lsize lmask]. tauto.
  Qed.
  Lemma new_formed sz : formed (live_new np sz (seed64 f) (cf_extra (f_cf f)) (cf_oa (f_cf f)) (cf_prime (f_cf f))).
  Proof. unfold formed, live_new. destruct (table_size np sz _ _) as [lg x]. cbn [lbuckets lsize]. apply repeat_length. Qed.
  Definition sized_as (l : live) (sz : Z) : Prop := lsize l = size (empty_table sz) /\ loa l = cf_oa (f_cf f).
  Lemma new_sized sz : sized_as (live_new np sz (seed64 f) (cf_extra (f_cf f)) (cf_oa (f_cf f)) (cf_prime (f_cf f))) sz.
  Proof. unfold sized_as, live_new, HtMainSpec.empty_table, new_table. destruct (table_size np sz _ _) as [lg x]. split; reflexivity. Qed.
  Lemma fill_counter n sz ops s : world_ok (s_world s) -> lops_ok [] ops -> Forall (own_hash name) ops ->
    (exists s' l hs, fill e grow np f name n sz ops s = Ok (s', l, hs) /\ keeps_on f n s s' /\ sized_as l sz) \/ (fill e grow np f name n sz ops s = Panics /\ ~ safe sz).
  Proof.
    intros O L H. unfold fill.
    destruct (log_counter e grow name Hc ops (s_world s) [] [] _ O (owns_nil _) (new_formed sz) L H) as [(w' & t' & hs & E & O' & R)|[E N]].
    - left. rewrite E. cbn [rbind]. eexists _, _, _. split; [reflexivity|]. split; [split; [exact O'|split; reflexivity]|].
      destruct (new_sized sz) as [Z1 Z2]. destruct R as (_ & R2 & _ & R4 & _). split; congruence.
    - right. rewrite E. split; [reflexivity|]. intros S. now apply N, safe_roomy.
  Qed.
  Definition ended (sz : Z) (m : out (sess * live * nat)) (a : list shown) (ok : bool) (n : Z) (d : nat) : Prop :=
    if ok then exists s' l d2, m = (a, Ok (s', l, d2)) /\ sized_as l sz /\ world_ok (s_world s') /\ s_n s' = n /\ s_draws s' = d else m = (a, Panics).
  Lemma print_ended sz t contents lines s a ok n d : ended sz (call_test e grow np f name contents lines t s) a ok n d ->
    exists rest, did (call_and_print e grow np f name contents lines t s) (FuncHead name :: a ++ rest) ok n d /\ Forall inner rest /\
      (ok = true -> exists x, rest = (if f_show f then [SeedLine (f_seed f)] else []) ++ [x] /\ sized f (size (empty_table sz)) x).
  Proof.
    intros W. unfold call_and_print, say. rewrite andthen_ok. destruct ok; cbn [ended did] in *.
    - destruct W as (s' & l & d2 & E & [Z1 Z2] & O & N1 & N2). rewrite E, andthen_ok.
      exists ((if f_show f then [SeedLine (f_seed f)] else []) ++ [print_table (mem (s_world s')) l d2]). split; [|split].
      + exists s'. split; [|auto]. destruct (f_show f); reflexivity.
      + apply Forall_app. split; [destruct (f_show f); repeat constructor|]. constructor; [|constructor]. unfold print_table. destruct (loa l); exact I.
      + intros _. eexists. split; [reflexivity|]. unfold print_table. destruct (loa l); cbn [sized]; auto.
    - rewrite W, andthen_panics. exists []. cbn [fst snd app]. rewrite app_nil_r. split; [reflexivity|]. split; [constructor|discriminate].
  Qed.
  Lemma fresh_own i ks : Forall (own_hash name) (fresh_ops i ks).
  Proof. revert i. induction ks as [|k ks IH]; intros i; cbn [fresh_ops]; repeat constructor. apply IH. Qed.
  Lemma fill_ended n sz ops (r : res nat) s : world_ok (s_world s) -> lops_ok [] ops -> Forall (own_hash name) ops -> (r = Panics \/ exists c, r = Ok c) ->
    exists ok, ended sz (silent (x <~ fill e grow np f name n sz ops s ;; finish r x)) [] ok n (s_draws s) /\
      (safe sz -> ok = match r with Ok _ => true | _ => false end).
  Proof.
    intros O L H Hr. destruct (fill_counter n sz ops s O L H) as [(s' & l & hs & E & (O' & N1 & N2) & Sz)|[E N]]; rewrite E; cbn [rbind]; unfold silent, finish.
    - destruct Hr as [-> |[c ->]]; cbn [rbind fst]; [exists false; split; [reflexivity|reflexivity]|exists true]. split; [|reflexivity]. exists s', l, 0%nat. auto.
    - exists false. split; [reflexivity|]. tauto.
  Qed.
  Lemma call_file_counter file kf s : world_ok (s_world s) -> In kf [keyA; keyB; keyC; keyD; keyE; keyF; keyG] ->
    exists ok, ended (lines_for file) (call_file e grow np f name (text file) (lines_for file) kf s) [] ok (s_n s) (s_draws s) /\ (safe (lines_for file) -> ok = whole file).
  Proof.
    intros O Hk. unfold call_file, HtMainSpec.whole. pose proof (lines_fair (text file) (text_small fs Hf file) kf Hk) as Lf.
    destruct (ReadFile (text file)) as [ls r] eqn:E. destruct (ReadFile_in _ _ _ E) as [_ Er]. cbn [fst snd] in *.
    destruct (fresh_whole e name (seed64 f) (map kf ls) [] Lf) as (_ & K2 & _ & _).
    apply fill_ended; [exact O|exact K2|apply fresh_own|]. destruct Er as [-> | ->]; eauto.
  Qed.
  Lemma call_words_counter perms s : fine perms -> world_ok (s_world s) ->
    exists ok, ended (Z.of_nat (length (fst (genWords perms)))) (call_words e grow np f name perms s) [] ok (s_n s) (s_draws s) /\ (safe (Z.of_nat (length (fst (genWords perms)))) -> ok = true).
  Proof.
    intros P O. unfold call_words. pose proof (words_fair perms P) as F. destruct P as (H1 & H2 & _ & _). pose proof (genWords_lemma perms H1 H2) as G.
    apply (f_equal snd) in G. cbn [snd] in G. destruct (genWords perms) as [ws r]. cbn [fst snd] in *. subst r. cbn [rbind].
    destruct (fresh_whole e name (seed64 f) ws [] F) as (_ & K2 & _ & _).
    apply (fill_ended (s_n s) (Z.of_nat (length ws)) (fresh_ops 0 ws) (Ok 0%nat)); [exact O|exact K2|apply fresh_own|eauto].
  Qed.
  Lemma each_ends {A S} (I : S -> Prop) (g : A -> S -> out S) l : (forall x s, I s -> exists a, Forall inner a /\ ((exists s', g x s = (a, Ok s') /\ I s') \/ g x s = (a, Panics))) ->
    forall s, I s -> exists a, Forall inner a /\ ((exists s', each g l s = (a, Ok s') /\ I s') \/ each g l s = (a, Panics)).
  Proof.
    intros H. induction l as [|x l IH]; intros s Is; cbn [each]; [exists []; split; [constructor|left; exists s; auto]|].
    destruct (H x s Is) as (a & Fa & [(s' & E & Is')|E]); rewrite E; [|exists a; split; [exact Fa|right; reflexivity]]. rewrite andthen_ok.
    destruct (IH s' Is') as (b & Fb & [(s2 & E2 & I2)|E2]); rewrite E2; exists (a ++ b); (split; [now apply Forall_app|]); [left|right; reflexivity]. exists s2. auto.
  Qed.
  Lemma rounds_counter b ls r : (r = Panics \/ exists c, r = Ok c) -> forall (l : list nat) s, world_ok (s_world s) ->
    exists a (ok : bool), Forall inner a /\ if ok then exists s', each (seed_round e grow f name b ls r) l s = (a, Ok s') /\ world_ok (s_world s') /\ s_n s' = s_n s /\ s_draws s' = (s_draws s + length l)%nat
    else each (seed_round e grow f name b ls r) l s = (a, Panics).
  Proof.
    intros Hr. induction l as [|i l IH]; intros s O.
    - exists [], true. split; [constructor|]. exists s. split; [reflexivity|split; [exact O|split; [reflexivity|cbn [length]; lia]]].
    - cbn [each].
      destruct (each_ends world_ok (hash_line e grow name b (f_draw f (s_draws s))) ls) with (s := s_world s) as (a & Fa & [(w' & E & O')|E]); [|exact O| |].
      + intros x w Ow. unfold hash_line. destruct (Hashf_counter e grow w name b (f_draw f (s_draws s)) Hc Ow) as (w' & E & O' & _). rewrite E. cbn [silent andthen].
        destruct (hex_ends x) as [X|[k X]]; rewrite X; cbn; eexists; (split; [|first [right; reflexivity|left; exists w'; split; [reflexivity|exact O']]]); repeat constructor.
      + destruct Hr as [-> |[c ->]].
        { exists a, false. split; [exact Fa|]. replace (seed_round e grow f name b ls Panics i s) with (a, @Panics sess); [reflexivity|].
          unfold seed_round, hash_lines. rewrite E, andthen_ok. cbn. now rewrite app_nil_r. }
        assert (SR : seed_round e grow f name b ls (Ok c) i s = (a, Ok (mkSess w' (s_n s) (S (s_draws s))))).
        { unfold seed_round, hash_lines. rewrite E, andthen_ok. cbn. now rewrite !app_nil_r. }
        rewrite SR, andthen_ok.
        destruct (IH (mkSess w' (s_n s) (S (s_draws s))) O') as (c' & ok & Fc & R). destruct ok.
        * destruct R as (s' & E' & B' & N1 & N2). exists (a ++ c'), true. split; [now apply Forall_app|]. exists s'. rewrite E'. split; [reflexivity|]. split; [exact B'|]. cbn [s_n s_draws] in *. split; [exact N1|cbn [length]; lia].
        * exists (a ++ c'), false. split; [now apply Forall_app|]. rewrite R. reflexivity.
      + exists a, false. split; [exact Fa|]. replace (seed_round e grow f name b ls r i s) with (a, @Panics sess); [reflexivity|]. unfold seed_round, hash_lines. now rewrite E.
  Qed.
  Lemma call_keys_counter file s : world_ok (s_world s) ->
    exists a ok, Forall inner a /\ ended (lines_for file) (call_keys e grow np f name (text file) (lines_for file) s) (EmptyLine :: a) ok (s_n s) (s_draws s + Z.to_nat (f_ns f mod 2 ^ 64)).
  Proof.
    intros O. unfold call_keys, say. set (b := mkSlice _ _ _ _). set (w := withMem _ _). destruct (ReadFile (text file)) as [ls r] eqn:Er.
    assert (Ow : world_ok w).
    { apply app_ok; [exact O|]. apply Forall_forall. intros x Hx. apply repeat_spec in Hx. subst x. reflexivity. }
    destruct (ReadFile_in _ _ _ Er) as [_ Hr]. destruct (rounds_counter b ls r ltac:(destruct Hr; eauto) (seq 0 (Z.to_nat (f_ns f mod 2 ^ 64))) (mkSess w (s_n s) (s_draws s)) Ow) as (a & ok & Fa & R).
    rewrite seq_length in R. rewrite andthen_ok. destruct ok.
    - destruct R as (s' & E & B' & N1 & N2). rewrite E, andthen_ok. exists (a ++ []), true. split; [rewrite app_nil_r; exact Fa|]. eexists s', _, 0%nat. split; [reflexivity|]. split; [apply new_sized|]. auto.
    - rewrite R. exists a, false. split; [exact Fa|]. reflexivity.
  Qed.
  Local Opaque genWords letters march triples insert_all testL_ops testJ_ops testM_ops.
  Lemma ended_say sz y m a ok n d : ended sz m a ok n d -> ended sz (_ <<- say y ;; m) (y :: a) ok n d.
  Proof. unfold say. rewrite andthen_ok. destruct ok; cbn [ended]; [intros (s' & l & d2 & -> & H); exists s', l, d2; auto|now intros ->]. Qed.
  Lemma L_own seed m : Forall (own_hash name) (testL_ops name seed m).
  Proof.
    Transparent testL_ops.
    constructor; [exact I|]. apply Forall_flat_map. apply Forall_forall. intros i _. apply Forall_flat_map. apply Forall_forall. intros j _.
    apply Forall_flat_map. apply Forall_forall. intros k _. repeat (constructor; [first [exact I|reflexivity]|]). constructor.
    Opaque testL_ops.
  Qed.
  Lemma quiet_own ops : Forall quiet ops -> Forall (own_hash name) ops.
  Proof. apply Forall_impl. intros [| | |]; cbn; tauto. Qed.
  Lemma call_counter_ok file t s : world_ok (s_world s) -> exists a ok, counted np f o fs file name t (s_n s) a ok /\
    did (call_and_print e grow np f name (text file) (lines_for file) t s) a ok (next_n f t (s_n s)) (next_d f t (s_draws s)).
  Proof.
    intros O.
    assert (Fin : forall a ok, ended (table_for f o fs file t (s_n s)) (call_test e grow np f name (text file) (lines_for file) t s) a ok (next_n f t (s_n s)) (next_d f t (s_draws s)) ->
      (exists rest, FuncHead name :: a = opening f name t (s_n s) ++ rest /\ Forall inner rest) ->
      (t <> TK -> safe (table_for f o fs file t (s_n s)) -> ok = ((negb (reads t) || whole file) && match t with TM => (0 <? changed f (s_n s))%Z | _ => true end)) ->
      exists a ok, counted np f o fs file name t (s_n s) a ok /\
        did (call_and_print e grow np f name (text file) (lines_for file) t s) a ok (next_n f t (s_n s)) (next_d f t (s_draws s))).
    { intros a ok En (r1 & R & R') Ok'. destruct (print_ended _ _ _ _ _ _ _ _ _ En) as (rest & D & Fr & La). exists (FuncHead name :: a ++ rest), ok. split; [|exact D]. split.
      - exists (r1 ++ rest). split; [now rewrite app_assoc, <- R|]. split; [now apply Forall_app|]. intros Ht. destruct (La Ht) as (x & -> & Sx). exists r1, x. auto.
      - intros A B C D'. apply Ok'; [exact B|]. split; [exact A|split; [exact C|exact D']]. }
    assert (FileT : forall kf, In kf [keyA; keyB; keyC; keyD; keyE; keyF; keyG] ->
      call_test e grow np f name (text file) (lines_for file) t s = call_file e grow np f name (text file) (lines_for file) kf s ->
      next_n f t (s_n s) = s_n s -> next_d f t (s_draws s) = s_draws s -> opening f name t (s_n s) = [FuncHead name] -> table_for f o fs file t (s_n s) = lines_for file ->
      (negb (reads t) || whole file) && match t with TM => (0 <? changed f (s_n s))%Z | _ => true end = whole file ->
      exists a ok, counted np f o fs file name t (s_n s) a ok /\
        did (call_and_print e grow np f name (text file) (lines_for file) t s) a ok (next_n f t (s_n s)) (next_d f t (s_draws s))).
    { intros kf Hk E N1 N2 Op Tb Er. destruct (call_file_counter file kf s O Hk) as (ok & En & Sf). apply (Fin [] ok); [rewrite E, N1, N2, Tb; exact En|rewrite Op; exists []; now split|].
      rewrite Tb, Er. auto. }
    destruct t.
    1-7: eapply FileT; [|try reflexivity..]; [cbn [In]; tauto|cbn [reads negb orb]; now rewrite andb_true_r].
    - destruct (call_words_counter letters s fine_letters O) as (ok & En & Sf). apply (Fin [] ok En); [exists []; now split|]. intros _ S. now rewrite (Sf S).
    - destruct (testI_whole e name (seed64 f) (cf_ni (f_cf f))) as (_ & K2 & _).
      destruct (fill_ended (changed f (s_n s)) (changed f (s_n s)) (testI_ops (cf_ni (f_cf f))) (Ok 0%nat) s O K2) as (ok & En & Sf).
      { apply quiet_own. constructor; [exact I|]. apply Forall_flat_map. apply Forall_forall. intros i _. repeat constructor. }
      { eauto. }
      apply (Fin _ ok (ended_say _ _ _ _ _ _ _ En)); [exists []; now split|]. intros _ S. now rewrite (Sf S).
    - destruct (testJ_whole e name (seed64 f) 900 ltac:(reflexivity)) as (_ & K2 & _).
      destruct (fill_ended (s_n s) 7200 (testJ_ops 900) (Ok 0%nat) s O K2) as (ok & En & Sf); [|eauto|].
      { Transparent testJ_ops. apply quiet_own. constructor; [exact I|]. apply Forall_flat_map. apply Forall_forall. intros k _. apply Forall_flat_map. apply Forall_forall. intros i _. repeat constructor. Opaque testJ_ops. }
      apply (Fin [] ok En); [exists []; now split|]. intros _ S. now rewrite (Sf S).
    - destruct (call_keys_counter file s O) as (a & ok & Fa & En). apply (Fin _ ok En); [exists a; now split|tauto].
    - destruct (testL_whole e name (seed64 f) (seed64_lt f) 256 (Nat.le_refl _)) as (_ & K2 & _).
      destruct (fill_counter (s_n s) 16777216 _ s O K2 (L_own _ _)) as [(s' & l & hs & E & (O' & N1 & N2) & Sz)|[E N]].
      + apply (Fin [] true); [|exists []; now split|reflexivity]. eexists s', l, _. split; [|auto].
        change (call_test e grow np f name (text file) (lines_for file) TL s) with (silent (x <~ fill e grow np f name (s_n s) 16777216 (testL_ops name (seed64 f) 256) s ;; set_dups2 x)).
        rewrite E. reflexivity.
      + apply (Fin [] false); [|exists []; now split|intros _ S; contradiction].
        change (call_test e grow np f name (text file) (lines_for file) TL s) with (silent (x <~ fill e grow np f name (s_n s) 16777216 (testL_ops name (seed64 f) 256) s ;; set_dups2 x)).
        cbn [ended]. rewrite E. reflexivity.
    - set (n := changed f (s_n s)).
      assert (En : exists a ok, Forall inner a /\ ended n (call_mod e grow np f name n s) (IntLine (s_n s) (cf_ni (f_cf f)) :: a) ok n (s_draws s) /\ (safe n -> ok = (0 <? n)%Z)).
      { unfold call_mod, say. rewrite andthen_ok. destruct (0 <? n)%Z eqn:E; [replace (n <=? 0)%Z with false by lia|replace (n <=? 0)%Z with true by lia; exists [], false; split; [constructor|split; reflexivity]].
        assert (K2 : lops_ok [] (testM_ops name (seed64 f) (cf_ni (f_cf f))) /\ Forall (own_hash name) (testM_ops name (seed64 f) (cf_ni (f_cf f)))).
        { Transparent testM_ops. unfold testM_ops. split.
          - cbn [lops_ok lop_mem lop_ok app]. destruct (testM_body e name (seed64 f) (Z.to_nat (cf_ni (f_cf f))) (seed64_lt f) (seq 0 (Z.to_nat (cf_ni (f_cf f)))) [repeat 0 4] (or_intror I)) as (_ & B & _); [exists (repeat 0 4); auto|].
            split; [repeat constructor|exact B].
          - constructor; [exact I|]. apply Forall_flat_map. apply Forall_forall. intros i _. repeat constructor. Opaque testM_ops. }
        destruct (fill_counter n n _ s O (proj1 K2) (proj2 K2)) as [(s' & l & hs & F & (O' & N1 & N2) & Sz)|[F N]]; rewrite F.
        - eexists _, true. split; [|split; [|reflexivity]]; [|eexists s', l, 0%nat; split; [|auto]; reflexivity]. repeat constructor.
        - exists [], false. split; [constructor|]. split; [reflexivity|]. tauto. }
      destruct En as (a & ok & Fa & En & Sf). apply (Fin _ ok En); [exists a; now split|]. intros _ S. now rewrite (Sf S).
  Qed.
End Test.
