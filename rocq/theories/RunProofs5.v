(** Proofs about RunModel: whole runs. *)
From Coq Require Import NArith ZArith List Arith String Bool Lia.
From Verif Require Import Words WordLemmas ListLemmas Mem KeccakModel HashfModel HashfSpec HashfProofs HashfProps HtModel SmhModel SmhSpec SmhProofs
  RunModel RunSpec RunProofs RunProofs2 RunProofs3 RunProofs4.
Import ListNotations.
Open Scope N_scope.
Open Scope list_scope.

Lemma acceptsb_iff n name : acceptsb n name = true <-> accepts n name.
Proof.
  unfold acceptsb, accepts. rewrite andb_true_iff, Nat.leb_le, existsb_exists. split; intros (H & L); (split; [|exact L]).
  - destruct H as (x & H & E). apply String.eqb_eq in E. now subst.
  - exists name. split; [exact H|apply String.eqb_refl].
Qed.
Lemma acceptsb_false n name : acceptsb n name = false <-> ~ accepts n name.
Proof. rewrite <- acceptsb_iff. destruct (acceptsb n name); split; congruence. Qed.

(** What "-sm" reports for a name. *)
Definition sm_lines (e : ext) (rr : run_randoms) (v : bool) (name : string) : list (option string * nat) :=
  if counter name
  then map (fun '(t, desc) => (if v then Some desc else None, match t with SSanity => length sanity_rounds | _ => 0%nat end)) STests
  else RunSMhasher (answer e name) (rr_of rr) name v.
Lemma sm_through e grow name rr v w : ext_ok e -> world_ok w -> randoms_ok rr -> accepts 0 name ->
  exists w', through e grow name (askSMhasher rr v) w = Ok (sm_lines e rr v name, w') /\ world_ok w'.
Proof.
  intros He O R A. pose proof (valid_SMhasher rr v R) as V.
  destruct (accepts_runs e grow name (askSMhasher rr v) 0 w He O V A) as (a & w' & E & O'). exists w'. split; [|exact O']. rewrite E. do 2 f_equal.
  unfold sm_lines. destruct (counter name) eqn:Hc.
  - destruct (counting_report e grow name Hc rr v R w) as (w2 & E2). rewrite E in E2. congruence.
  - destruct A as (K & L). apply (known_table e) in K. destruct K as [K|K]; [congruence|]. rewrite <- shortest_needs in L.
    destruct (through_ok e grow name _ He Hc K (valid_weak _ _ _ L V) w O) as (w2 & E2 & _). rewrite E in E2.
    rewrite (with_SMhasher (answer e name) rr name v) in E2. congruence.
Qed.
Lemma sm_run e grow rr v n names : ext_ok e -> randoms_ok rr -> forall w, world_ok w ->
  run_reports e grow rr v n (map SMHasher names) w =
  (map (fun x => Tested x (sm_lines e rr v x)) (before (acceptsb 0) names), forallb (acceptsb 0) names).
Proof.
  intros He R. induction names as [|x names IH]; intros w O; cbn [map run_reports before forallb]; [reflexivity|].
  destruct (acceptsb 0 x) eqn:A.
  - apply acceptsb_iff in A. destruct (sm_through e grow x rr v w He O R A) as (w' & E & O'). rewrite E. rewrite (IH w' O'). reflexivity.
  - apply acceptsb_false in A. rewrite (sm_panics e grow x rr v w He O R A). reflexivity.
Qed.

Lemma bench_through e grow name n w : ext_ok e -> world_ok w -> accepts 4 name ->
  exists w', through e grow name (askBenchmark n) w = Ok (bench_lines n keySizes, w') /\ world_ok w'.
Proof.
  intros He O A. destruct (accepts_runs e grow name _ 4 w He O (valid_bench n) A) as (a & w' & E & O'). exists w'. split; [|exact O'].
  rewrite E. unfold askBenchmark in E. cbv zeta in E. now rewrite (bench_value e grow name _ _ w a w' E).
Qed.
Lemma bench_run e grow rr v n names : ext_ok e -> forall w, world_ok w ->
  run_reports e grow rr v n (map Benchmark names) w =
  let fine x := (n <=? 0)%Z || acceptsb 4 x in
  (map (fun x => Timed x (bench_lines n keySizes)) (before fine names), forallb fine names).
Proof.
  intros He. cbv zeta. induction names as [|x names IH]; intros w O; cbn [map run_reports before forallb]; [reflexivity|].
  destruct (n <=? 0)%Z eqn:Hn; cbn [orb andb].
  - apply Z.leb_le in Hn. rewrite (bench_idle e grow x n w Hn), (IH w O). reflexivity.
  - apply Z.leb_gt in Hn. destruct (acceptsb 4 x) eqn:A.
    + apply acceptsb_iff in A. destruct (bench_through e grow x n w He O A) as (w' & E & O'). rewrite E, (IH w' O'). reflexivity.
    + apply acceptsb_false in A. rewrite (bench_panics e grow x n w He O Hn A). reflexivity.
Qed.

(** The calls that a program makes of a function. *)
Fixpoint calls {A} (hf : list N -> N -> N) (p : prog A) : list (list N * N) :=
  match p with
  | Done _ => []
  | Ask b o n s f => let k := firstn n (skipn o b) in (k, s) :: calls hf (f (hf k s))
  end.
Lemma calls_bind {A B} hf (p : prog A) (f : A -> prog B) : calls hf (bind p f) = calls hf p ++ calls hf (f (with_fun hf p)).
Proof. induction p as [a|b o n s g IH]; cbn [bind calls with_fun app]; [reflexivity|]. cbv zeta. now rewrite IH. Qed.
Lemma calls_each {A B} hf (f : A -> prog B) l : calls hf (each_of f l) = flat_map (fun a => calls hf (f a)) l.
Proof. induction l as [|a l IH]; [reflexivity|]. cbn [each_of flat_map]. rewrite !calls_bind, IH. cbn [calls]. now rewrite app_nil_r. Qed.
Lemma firstn_repeat (x : N) : forall m n, (n <= m)%nat -> firstn n (repeat x m) = repeat x n.
Proof. induction m; intros [|n] L; cbn [repeat firstn]; try reflexivity; [lia|]. f_equal. apply IHm. lia. Qed.
Lemma flat_const {A B} (x : B) (l : list A) : flat_map (fun _ => [x]) l = repeat x (length l).
Proof. induction l as [|a l IH]; [reflexivity|]. cbn [flat_map length repeat app]. now rewrite IH. Qed.
Lemma calls_bench hf n : calls hf (askBenchmark n) =
  flat_map (fun l => repeat (repeat 0 (N.to_nat (fst (fst l))), 0) (Z.to_nat (snd (fst l)))) (bench_lines n keySizes).
Proof.
  unfold askBenchmark. cbv zeta. rewrite calls_bind, calls_each. cbn [calls]. rewrite app_nil_r.
  pose proof (sizes_4 n) as S4. revert S4. generalize (bench_lines n keySizes) as ls. induction ls as [|((k & m) & t) ls IH]; intros F; [reflexivity|].
  inversion F as [|? ? F1 F2]; subst. cbn [flat_map fst snd] in *. rewrite IH by exact F2. f_equal.
  rewrite calls_each. cbn [calls]. cbn [skipn]. rewrite firstn_repeat by lia. rewrite flat_const, seq_length. reflexivity.
Qed.
