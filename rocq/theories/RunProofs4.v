(** Proofs about RunModel: commands. *)
From Coq Require Import NArith ZArith List Arith String Bool Lia.
From Verif Require Import Words WordLemmas ListLemmas Mem KeccakModel HashfModel HashfSpec HashfProofs HashfProps HtModel SmhModel SmhSpec SmhProofs
  RunModel RunSpec RunProofs RunProofs2 RunProofs3.
Import ListNotations.
Open Scope N_scope.
Open Scope list_scope.

Lemma known_table e name : In name known <-> counter name = true \/ In name (map fst (table e)).
Proof.
  assert (E : forall l, In name l <-> existsb (String.eqb name) l = true).
  { intros l. rewrite existsb_exists. split; [intros H; exists name; split; [exact H|apply String.eqb_refl]|].
    intros (x & H & Q). apply String.eqb_eq in Q. now subst. }
  rewrite !E. cbn [known table map fst existsb]. unfold counter. rewrite <- orb_true_iff.
  repeat match goal with |- context [(name =? ?x)%string] => generalize (name =? x)%string; intro end.
  repeat match goal with b : bool |- _ => revert b end.
  intros. rewrite <- !Bool.orb_assoc. split; intros H; repeat (apply orb_true_iff in H; destruct H as [H|H]); subst; rewrite ?orb_true_r; auto; rewrite ?orb_true_l; auto; try discriminate.
Qed.
Lemma shortest_needs name : shortest name = needs_bytes name.
Proof.
  unfold shortest, needs_bytes. cbn [existsb]. now rewrite !orb_false_r.
Qed.
Lemma through_counts_ok {A} e grow name (p : prog A) : counter name = true -> valid 0 p -> forall w a w', world_ok w ->
  through e grow name p w = Ok (a, w') -> world_ok w'.
Proof.
  intros Hc. induction p as [a0|b o n s f IH]; intros V w a w' O E; cbn [through valid] in *; [now injection E as <- <-|].
  destruct V as (B & _ & _ & _ & _ & V).
  set (k := mkSlice (length (mem w)) o n (length b - o)) in *.
  destruct (Hashf e grow (withMem w (mem w ++ [b])) name k s) as [[w1 h]| | |] eqn:H; try discriminate. cbn [rbind fst snd] in E.
  assert (O1 : world_ok w1).
  { pose proof (world_new w b O B) as O'. unfold counter in Hc. apply orb_true_iff in Hc.
    destruct Hc as [Hc|Hc]; apply String.eqb_eq in Hc; subst name; unfold Hashf in H; cbn -[N.pow N.modulo mem read withMem] in H; injection H as <- _; destruct O'; now constructor. }
  exact (IH h (V h) w1 a w' O1 E).
Qed.
Lemma valid_weak {A} m m' (p : prog A) : (m' <= m)%nat -> valid m p -> valid m' p.
Proof. intros L. induction p as [a|b o n s f IH]; cbn [valid]; [auto|].
  intros (H1 & H2 & H3 & H4 & H5 & H6). split; [exact H1|]. split; [exact H2|]. split; [exact H3|]. split; [lia|]. split; [exact H5|]. intros h. apply IH, H6. Qed.
(** A program whose keys have at least [m] bytes. *)
Lemma accepts_runs {A} e grow name (p : prog A) m w : ext_ok e -> world_ok w -> valid m p -> accepts m name ->
  exists a w', through e grow name p w = Ok (a, w') /\ world_ok w'.
Proof.
  intros He O V (K & L). apply (known_table e) in K. destruct (counter name) eqn:Hc.
  - destruct (through_counts e grow name p Hc w) as (a & w' & E). exists a, w'. split; [exact E|].
    apply (through_counts_ok e grow name p Hc (valid_weak m 0 p ltac:(lia) V) w a w' O E).
  - destruct K as [K|K]; [discriminate|]. rewrite <- shortest_needs in L.
    destruct (through_ok e grow name p He Hc K (valid_weak _ _ p L V) w O) as (w' & E & O'). eauto.
Qed.
Lemma accepts_dec m name : {accepts m name} + {~ accepts m name}.
Proof.
  unfold accepts. destruct (in_dec string_dec name known) as [I|I]; [|right; tauto].
  destruct (le_dec (needs_bytes name) m); [left; auto|right; tauto].
Qed.
Lemma refuses m name e : ~ accepts m name -> counter name = false /\ (~ In name (map fst (table e)) \/ (m < shortest name)%nat).
Proof.
  intros N. unfold accepts in N. rewrite (known_table e), <- shortest_needs in N. destruct (counter name) eqn:Hc.
  - exfalso. apply N. split; [auto|]. unfold counter in Hc. apply orb_true_iff in Hc. destruct Hc as [Hc|Hc]; apply String.eqb_eq in Hc; subst; cbn; lia.
  - split; [reflexivity|]. destruct (in_dec string_dec name (map fst (table e))) as [I|I]; [|now left]. right.
    destruct (Nat.le_gt_cases (shortest name) m); [|assumption]. exfalso. apply N. auto.
Qed.
Lemma sm_panics e grow name rr v w : ext_ok e -> world_ok w -> randoms_ok rr -> ~ accepts 0 name -> through e grow name (askSMhasher rr v) w = Panics.
Proof.
  intros He O (Rs & _) N. destruct (refuses 0 name e N) as (Hc & H). destruct (first_call rr v) as (f & ->).
  destruct (Rs 0%nat 0%nat 0%nat) as (B & L & _). apply through_first; auto; try reflexivity. rewrite L. lia.
Qed.

(** ** Benchmarks *)
Lemma sizes_4 n : Forall (fun l => 4 <= fst (fst l) <= 4096) (bench_lines n keySizes).
Proof. unfold keySizes. cbn [bench_lines]. repeat (apply Forall_cons; [cbn [fst]; split; discriminate|]). apply Forall_nil. Qed.
Lemma valid_bench n : valid 4 (askBenchmark n).
Proof.
  unfold askBenchmark. cbv zeta. apply valid_bind; [|intros; exact I]. apply valid_each. intros ((k & m) & t) H.
  pose proof (sizes_4 n) as S4. rewrite Forall_forall in S4. specialize (S4 _ H). cbn [fst] in S4.
  apply valid_each. intros i _. cbn [valid]. split; [apply SipProofs.repeat0_ok|].
  assert (L : length (repeat 0 (N.to_nat 16384)) = N.to_nat 16384) by apply repeat_length. rewrite L.
  split; [lia|]. split; [change (2 ^ 64) with 18446744073709551616; lia|]. split; [lia|]. split; [reflexivity|]. intros; exact I.
Qed.
Lemma bench_first n : (0 < n)%Z -> exists f, askBenchmark n = Ask (repeat 0 (N.to_nat 16384)) 0 (N.to_nat 4) 0 f.
Proof.
  intros H. unfold askBenchmark. cbv zeta. unfold keySizes. cbn [bench_lines]. cbv zeta. cbn [N.eqb Pos.eqb each_of].
  assert (E : exists m, Z.to_nat n = S m) by (exists (Z.to_nat n - 1)%nat; lia). destruct E as (m & E). rewrite E. cbn [seq each_of bind]. eexists. reflexivity.
Qed.
Lemma bench_panics e grow name n w : ext_ok e -> world_ok w -> (0 < n)%Z -> ~ accepts 4 name -> through e grow name (askBenchmark n) w = Panics.
Proof.
  intros He O Hn N. destruct (refuses 4 name e N) as (Hc & H). destruct (bench_first n Hn) as (f & ->).
  apply through_first; auto; try reflexivity; [apply SipProofs.repeat0_ok|]. rewrite repeat_length. lia.
Qed.
Lemma bench_value {A B} e grow name (p : prog A) (a : B) w x w' : through e grow name (bind p (fun _ => Done a)) w = Ok (x, w') -> x = a.
Proof.
  intros E. rewrite through_bind in E. destruct (through e grow name p w) as [[y w1]| | |]; cbn [rbind fst snd through] in E; try discriminate. congruence.
Qed.
Lemma bench_idle e grow name n w : (n <= 0)%Z -> through e grow name (askBenchmark n) w = Ok (bench_lines n keySizes, w).
Proof.
  intros H. assert (G : forall ks m, (m <= 0)%Z -> Forall (fun l => Z.to_nat (snd (fst l)) = 0%nat) (bench_lines m ks)).
  { induction ks as [|k ks IH]; intros m Hm; cbn [bench_lines]; [constructor|]. cbv zeta.
    assert (Hq : ((if (k =? 512)%N then Z.quot m 10 else m) <= 0)%Z).
    { destruct (k =? 512)%N; [|exact Hm]. pose proof (Z.quot_le_mono m 0 10 ltac:(lia) Hm). rewrite Z.quot_0_l in H0; lia. }
    constructor; [cbn [fst snd]; lia|]. now apply IH. }
  specialize (G keySizes n H). unfold askBenchmark. cbv zeta.
  assert (F : forall ls, Forall (fun l : N * Z * Z => Z.to_nat (snd (fst l)) = 0%nat) ls -> forall w, exists r,
    through e grow name (each_of (fun '(ksiz, n, _) => each_of (fun _ => Ask (repeat 0 (N.to_nat 16384)) 0 (N.to_nat ksiz) 0 (fun h => Done h)) (seq 0 (Z.to_nat n))) ls) w = Ok (r, w)).
  { induction ls as [|((k & m) & t) ls IH]; intros Hl w0; [exists []; reflexivity|]. inversion Hl as [|? ? E Hl']; subst. cbn [fst snd] in E.
    cbn [each_of]. rewrite E. cbn [seq each_of bind]. rewrite through_bind. destruct (IH Hl' w0) as (r & ->). cbn [rbind fst snd through]. eauto. }
  rewrite through_bind. destruct (F _ G w) as (r & ->). reflexivity.
Qed.
