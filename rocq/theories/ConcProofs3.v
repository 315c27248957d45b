(** Goroutines that hold a mutex. *)
From Coq Require Import NArith ZArith List Arith Lia String Permutation.
From Verif Require Import Words WordLemmas ListLemmas Mem KeccakModel KeccakProofs3 Mm3Model HashfModel HashfSpec HashfProofs ConcModel ConcSpec ConcProofs ConcProofs2.
From Verif Require HashfProps SmallModel.
Import ListNotations.
Open Scope N_scope.

(** ** The sequential program *)
Definition next (x : heap * N * N) (o : hop) : heap * N * N :=
  let '(m, c1, c2) := x in
  (hop_mem m o,
   match o with Call n _ _ => if (n =? "nullhash")%string then c1 + 1 else c1 | _ => c1 end,
   match o with Call n _ _ => if (n =? "nullhash")%string then c2 else if (n =? "nullhashF64ns")%string then c2 + 1 else c2 | _ => c2 end).
Definition after (m : heap) (ops : list hop) : heap * N * N := fold_left next ops (m, 0, 0).
Definition answers3 (e : ext) (x : heap * N * N) (ops : list hop) : list (option N) := let '(m, c1, c2) := x in answers e c1 c2 m ops.
Lemma answers_app e ops : forall x y, Forall (fun a => a <> None) (answers3 e x ops) ->
  answers3 e x (ops ++ y) = answers3 e x ops ++ answers3 e (fold_left next ops x) y.
Proof.
  induction ops as [|o ops IH]; intros [[m c1] c2] y H; [reflexivity|]. cbn [app fold_left]. unfold answers3 in *. cbn [answers] in *.
  destruct o as [bs|a o bs|n k seed]; cbn [next hop_mem] in *.
  - apply (IH (m ++ [bs], c1, c2)). exact H.
  - apply (IH (store m a o bs, c1, c2)). exact H.
  - destruct (n =? "nullhash")%string.
    + cbn [app]. f_equal. apply (IH (m, c1 + 1, c2)). now inversion H.
    + destruct (n =? "nullhashF64ns")%string.
      * cbn [app]. f_equal. apply (IH (m, c1, c2 + 1)). now inversion H.
      * destruct (reference e n (read m k) seed); [|now inversion H]. cbn [app]. f_equal. apply (IH (m, c1, c2)). now inversion H.
Qed.
Lemma answers_length e ops : forall x, Forall (fun a => a <> None) (answers3 e x ops) ->
  length (answers3 e x ops) = length (filter is_call ops).
Proof.
  induction ops as [|o ops IH]; intros [[m c1] c2] H; [reflexivity|]. unfold answers3 in *. cbn [answers filter] in *.
  destruct o as [bs|a o bs|n k seed]; cbn [is_call] in *.
  - apply (IH (m ++ [bs], c1, c2)). exact H.
  - apply (IH (store m a o bs, c1, c2)). exact H.
  - destruct (n =? "nullhash")%string.
    + cbn [length]. f_equal. apply (IH (m, c1 + 1, c2)). now inversion H.
    + destruct (n =? "nullhashF64ns")%string.
      * cbn [length]. f_equal. apply (IH (m, c1, c2 + 1)). now inversion H.
      * destruct (reference e n (read m k) seed); [|now inversion H]. cbn [length]. f_equal. apply (IH (m, c1, c2)). now inversion H.
Qed.
Lemma hop_ok_same a0 m m' o : length m' = length m -> (forall a, length (array m' a) = length (array m a)) -> hop_ok a0 m o -> hop_ok a0 m' o.
Proof.
  intros L A. destruct o as [bs|a o bs|n k seed]; cbn [hop_ok]; [auto|rewrite L, A; auto|].
  intros ((W1 & W2 & W3) & H). split; [|exact H]. repeat split; rewrite ?A, ?L; assumption.
Qed.
Lemma reference_callable e n k seed kb : callable e (Call n k seed) -> counter n = false -> length kb = len k -> exists h, reference e n kb seed = Some h.
Proof.
  intros [->|[->|Hf]] Hc Hl; try discriminate. specialize (Hf kb Hl). destruct (reference e n kb seed) as [h|]; [now exists h|contradiction].
Qed.
Lemma call_step e grow a0 s m c1 c2 n k seed : ext_ok e -> inv a0 (vars s) m c1 c2 -> hop_ok a0 m (Call n k seed) -> callable e (Call n k seed) ->
  exists s' r h, exec (whole (hashf_code e grow n k seed)) s [] = Ok (s', r) /\
    (let '(m', c1', c2') := next (m, c1, c2) (Call n k seed) in inv a0 (vars s') m' c1' c2') /\
    answers e c1 c2 m [Call n k seed] = [Some h] /\ reg 0 r = h /\ hf2 s' = hf2 s /\ lock s' = lock s.
Proof.
  intros He I Hk Hc. destruct Hk as ((W1 & W2 & W3) & Hf & Lk & Hs). cbn [next hop_mem answers].
  destruct (n =? "nullhash")%string eqn:N1.
  { apply String.eqb_eq in N1. subst n. do 3 eexists. split; [reflexivity|]. split; [|split; [reflexivity|]].
    - destruct I as [O F L S A C1 C2]. cbn [vars set_vars]. constructor; try assumption.
      + destruct O. now constructor.
      + cbn. unfold add64, addw. rewrite wrap_mod, C1. apply succ_mod.
    - split; [|split; reflexivity]. destruct I as [O F L S A C1 C2]. cbn. unfold add64, addw. rewrite wrap_mod, C1. apply succ_mod. }
  destruct (n =? "nullhashF64ns")%string eqn:N2.
  { apply String.eqb_eq in N2. subst n. do 3 eexists. split; [reflexivity|]. split; [|split; [reflexivity|]].
    - destruct I as [O F L S A C1 C2]. cbn [vars set_vars]. constructor; try assumption.
      + destruct O. now constructor.
      + cbn. unfold add64, addw. rewrite wrap_mod, C2. apply succ_mod.
    - split; [|split; reflexivity]. destruct I as [O F L S A C1 C2]. cbn. unfold add64, addw. rewrite wrap_mod, C2. apply succ_mod. }
  destruct I as [O F L S A C1 C2].
  assert (W : wf (mem (vars s)) k) by (repeat split; rewrite ?A, ?L; assumption).
  assert (Ap : apart (vars s) k) by (destruct Hf as [Hf|Hf]; [now left|right; rewrite F; now apply not_mine]).
  assert (R : read m k = read (mem (vars s)) k).
  { destruct Hf as [Hf|Hf]; [unfold read; replace (len k) with 0%nat by lia; reflexivity|apply read_array; symmetry; now apply S]. }
  assert (Cn : counter n = false) by (unfold counter; now rewrite N1, N2).
  destruct (reference_callable e n k seed (read (mem (vars s)) k) Hc Cn) as [h Hh]; [now apply read_length|].
  destruct (call_ok e grow s n k seed h He O ltac:(constructor; assumption) Cn Hh) as (s' & r & E & W' & K & Hr & Hn & Hl).
  exists s', r, h. split; [exact E|]. rewrite R, Hh. split; [|auto].
  destruct K as [(K1 & K2 & K3) K4 K5 K6]. constructor; try congruence.
  - intros a Ha. rewrite <- S by assumption. apply K2. rewrite F. now apply not_mine.
Qed.
Lemma write_step e a0 s m c1 c2 a o bs : inv a0 (vars s) m c1 c2 -> hop_ok a0 m (Assign a o bs) ->
  inv a0 (withMem (vars s) (store (mem (vars s)) a o bs)) (store m a o bs) c1 c2 /\ answers e c1 c2 m [Assign a o bs] = [].
Proof.
  intros [O F L S A C1 C2] (Hf & Ha & Hl & Hb). split; [|reflexivity]. constructor; cbn [mem withMem nh nhf64]; try assumption.
  + apply withMem_ok; [exact O|apply store_ok; [apply O|exact Hb]|now rewrite store_length|].
    intros b _. apply store_array_length; [lia|now rewrite A].
  + now rewrite !store_length.
  + intros b Hbf. destruct (Nat.eq_dec b a) as [->|Hn].
    * rewrite !array_store_same by lia. now rewrite S.
    * rewrite !array_store_other by assumption. now apply S.
  + intros b. rewrite !store_array_length; try lia; [apply A|]. now rewrite A.
Qed.

(** Steps of calls leave the mutex and Hf2 alone. *)
Definition quiet (c : step) : Prop := forall s r s' r', c s r = Ok (s', r') -> hf2 s' = hf2 s /\ lock s' = lock s.
Lemma quiet_compute k f : quiet (compute k f).
Proof. intros s r s' r' H. unfold compute in H. destruct (f _); cbn in H; try discriminate. injection H as <- <-. auto. Qed.
Lemma quiet_look f : quiet (look f).
Proof. intros s r s' r' H. unfold look in H. destruct (f _ _); cbn in H; try discriminate. injection H as <- <-. auto. Qed.
Lemma quiet_change f : quiet (change f).
Proof. intros s r s' r' H. unfold change in H. destruct (f _); cbn in H; try discriminate. injection H as <- <-. auto. Qed.
Lemma quiet_assign f : (forall s r, hf2 (f s r) = hf2 s /\ lock (f s r) = lock s) -> quiet (assign f).
Proof. intros Hf s r s' r' H. injection H as <- <-. apply Hf. Qed.
Lemma quiet_code e grow name k seed : Forall quiet (whole (hashf_code e grow name k seed)).
Proof.
  unfold hashf_code. cbv zeta. unfold whole.
  repeat lazymatch goal with |- Forall quiet (fst (if ?c then _ else _) ++ _) => destruct c; [|] end;
    unfold local, via_tl, via_ext, via_pg, via_sha1; cbn [fst snd app];
    repeat (apply Forall_cons; [first [apply quiet_compute|apply quiet_look|apply quiet_change|apply quiet_assign; intros s r; try (destruct (append _ _ _ _)); split; reflexivity|idtac]|]); try apply Forall_nil.
  - intros s r s' r' H. injection H as <- <-. auto.
  - intros s r s' r' H. destruct (SmallModel.null_Hash64S _ _ _). injection H as <- <-. auto.
  - intros s r s' r' H. discriminate.
Qed.

(** ** Work left *)
Definition work (t : thread) : nat := 10 * length (prog t) + match run t with None => 0 | Some (cs, _) => S (length cs) end.
Definition blocked (s : shared) (t : thread) : Prop := run t = None /\ lock s = true /\ exists p, prog t = TLock :: p.
Lemma code_length e grow name k seed : (length (whole (hashf_code e grow name k seed)) <= 8)%nat.
Proof.
  unfold hashf_code. cbv zeta. unfold whole.
  repeat lazymatch goal with |- (length (fst (if ?c then _ else _) ++ _) <= _)%nat => destruct c; [|] end; cbn; lia.
Qed.
Lemma step_work e grow s t s' t' : tstep e grow s t = Ok (s', t') -> ~ finished t -> ~ blocked s t -> (work t' < work t)%nat.
Proof.
  unfold tstep, work, finished, blocked. destruct t as [pr rn rs]. cbn [prog run results]. destruct rn as [[[|c cs] r]|].
  - intros E _ _. injection E as <- <-. cbn [prog run length]. lia.
  - intros E _ _. destruct (c s r) as [[s1 r1]| | |]; try discriminate. cbn [rbind] in E. injection E as <- <-. cbn [prog run length]. lia.
  - intros E F B. destruct pr as [|x pr]; [destruct F; auto|]. destruct x as [| |n|a o bs|k seed]; cbn [length].
    + destruct (lock s); [destruct B; eauto|]. injection E as <- <-. cbn [prog run length]. lia.
    + destruct (lock s); [|discriminate]. injection E as <- <-. cbn [prog run length]. lia.
    + injection E as <- <-. cbn [prog run length]. lia.
    + injection E as <- <-. cbn [prog run length]. lia.
    + pose proof (code_length e grow (hf2 s) k seed) as L. unfold whole in L. destruct (hashf_code e grow (hf2 s) k seed) as [c1 c2]. injection E as <- <-. cbn [prog run length fst snd] in *. lia.
Qed.
Lemma sum_upd f (ts : list thread) i t t' : nth_error ts i = Some t -> (f t' < f t)%nat -> (list_sum (map f (upd ts i t')) < list_sum (map f ts))%nat.
Proof.
  unfold list_sum. revert i; induction ts as [|u ts IH]; intros [|i] E H; try discriminate; cbn [nth_error upd map fold_right] in *.
  - injection E as ->. lia.
  - specialize (IH _ E H). lia.
Qed.
Lemma finished_dec t : finished t \/ ~ finished t.
Proof. unfold finished. destruct t as [[|x p] [r|] rs]; cbn; try (right; intros [? ?]; discriminate). left. auto. Qed.
Lemma unfinished ts : Forall finished ts \/ exists i t, nth_error ts i = Some t /\ ~ finished t.
Proof.
  induction ts as [|t ts IH]; [left; constructor|]. destruct (finished_dec t) as [F|F]; [|right; exists 0%nat, t; auto].
  destruct IH as [IH|(i & u & E & H)]; [left; now constructor|right; exists (S i), u; auto].
Qed.
Lemma finish e grow (P : shared -> list thread -> Prop) :
  (forall s ts i t, P s ts -> nth_error ts i = Some t -> exists s' t', tstep e grow s t = Ok (s', t') /\ P s' (upd ts i t')) ->
  (forall s ts, P s ts -> Forall finished ts \/ exists i t, nth_error ts i = Some t /\ ~ finished t /\ ~ blocked s t) ->
  forall s ts, P s ts -> exists sched s' ts', conc_run e grow sched s ts = Ok (s', ts') /\ P s' ts' /\ Forall finished ts'.
Proof.
  intros Step Alive s ts. remember (list_sum (map work ts)) as n eqn:En. revert s ts En.
  induction n as [n IH] using (well_founded_induction Wf_nat.lt_wf). intros s ts -> H.
  destruct (Alive s ts H) as [F|(i & t & Et & Hf & Hb)]; [exists [], s, ts; auto|].
  destruct (Step s ts i t H Et) as (s' & t' & E & H').
  destruct (IH _ (sum_upd work ts i t t' Et (step_work e grow s t s' t' E Hf Hb)) s' (upd ts i t') eq_refl H') as (sched & s2 & ts2 & E2 & P2 & F2).
  exists (i :: sched), s2, ts2. cbn [conc_run]. rewrite Et, E. auto.
Qed.

(** ** Sections *)
Lemma sections_head p : forall n l, exists more rest, sections (Some (n, l)) p = (l ++ more) :: rest.
Proof.
  induction p as [|x p IH]; intros n l; cbn [sections]; [exists [], []; now rewrite app_nil_r|].
  destruct x as [| |n'|a o bs|k seed].
  - apply IH.
  - exists [], (sections None p). now rewrite app_nil_r.
  - apply IH.
  - destruct (IH n (l ++ [Assign a o bs])) as (more & rest & E). rewrite E, <- app_assoc. eexists. eexists. reflexivity.
  - destruct (IH n (l ++ [Call n k seed])) as (more & rest & E). rewrite E, <- app_assoc. eexists. eexists. reflexivity.
Qed.
Lemma runs_of_app i a b : runs_of i (a ++ b) = runs_of i a ++ runs_of i b.
Proof. unfold runs_of. now rewrite filter_app, map_app. Qed.
Lemma runs_of_one i j l : runs_of i [(j, l)] = if Nat.eqb j i then [l] else [].
Proof. unfold runs_of. cbn. now destruct (Nat.eqb j i). Qed.
Lemma trace_app a b : trace (a ++ b) = trace a ++ trace b.
Proof. unfold trace. apply flat_map_app. Qed.
Lemma trace_snoc d i l o : trace (d ++ [(i, l ++ [o])]) = trace (d ++ [(i, l)]) ++ [(i, o)].
Proof. rewrite !trace_app. cbn [trace flat_map]. rewrite !app_nil_r, map_app, app_assoc. reflexivity. Qed.
Lemma trace_open d i : trace (d ++ [(i, [])]) = trace d.
Proof. rewrite trace_app. cbn. apply app_nil_r. Qed.
Lemma filter_map_call tr : length (map fst (filter (fun x : nat * hop => is_call (snd x)) tr)) = length (filter is_call (map snd tr)).
Proof. rewrite map_length. induction tr as [|[i o] tr IH]; [reflexivity|]. cbn [filter map snd]. destruct (is_call o); cbn [length]; auto. Qed.
Lemma combine_snoc {A B} (a : list A) (b : list B) x y : length a = length b -> combine (a ++ [x]) (b ++ [y]) = combine a b ++ [(x, y)].
Proof. revert b; induction a as [|u a IH]; intros [|v b] H; try discriminate; [reflexivity|]. cbn. f_equal. apply IH. now injection H. Qed.
Definition all_some e m0 (tr : list (nat * hop)) := Forall (fun a => a <> None) (answers e 0 0 m0 (map snd tr)).
Lemma answers_of_write e m0 i tr j a o bs : all_some e m0 tr ->
  all_some e m0 (tr ++ [(j, Assign a o bs)]) /\ answers_of e m0 i (tr ++ [(j, Assign a o bs)]) = answers_of e m0 i tr.
Proof.
  intros H. unfold all_some, answers_of. rewrite map_app, filter_app. cbn [map snd filter is_call]. rewrite app_nil_r.
  pose proof (answers_app e (map snd tr) (m0, 0, 0) [Assign a o bs] H) as E. cbn [answers3] in E. rewrite E.
  destruct (fold_left next (map snd tr) (m0, 0, 0)) as [[m c1] c2]. cbn [answers3 answers]. rewrite app_nil_r. split; [exact H|reflexivity].
Qed.
Lemma answers_of_call e m0 i tr j n k seed h m c1 c2 : all_some e m0 tr -> after m0 (map snd tr) = (m, c1, c2) ->
  answers e c1 c2 m [Call n k seed] = [Some h] ->
  all_some e m0 (tr ++ [(j, Call n k seed)]) /\
  answers_of e m0 i (tr ++ [(j, Call n k seed)]) = answers_of e m0 i tr ++ (if Nat.eqb j i then [Some h] else []).
Proof.
  intros H Ha Hh. unfold all_some, answers_of. rewrite map_app, filter_app. cbn [map snd filter is_call]. rewrite map_app. cbn [map fst].
  pose proof (answers_app e (map snd tr) (m0, 0, 0) [Call n k seed] H) as E. cbn [answers3] in E. unfold after in Ha. rewrite Ha in E.
  cbn [answers3] in E. rewrite Hh in E. rewrite E. split.
  - apply Forall_app. split; [exact H|]. constructor; [discriminate|constructor].
  - rewrite combine_snoc.
    + rewrite filter_app, map_app. f_equal. cbn [filter fst]. now destruct (Nat.eqb j i).
    + rewrite filter_map_call. symmetry. exact (answers_length e (map snd tr) (m0, 0, 0) H).
Qed.

(** ** The invariant *)
Definition opened (cur : option (nat * list hop)) : list (nat * list hop) := match cur with None => [] | Some x => [x] end.
Definition holds_lock (cur : option (nat * list hop)) (i : nat) : option (list hop) := match cur with Some (j, l) => if Nat.eqb j i then Some l else None | None => None end.
Section locked.
  Variables (e : ext) (grow : nat -> nat -> nat) (a0 : nat) (m0 : heap) (ps : list (list top)).
  Definition inv3 (w : world) (x : heap * N * N) : Prop := let '(m, c1, c2) := x in inv a0 w m c1 c2.
  Record waiting (p : list top) (t : thread) (done cur : list (nat * list hop)) (i : nat) : Prop := {
    w_run : run t = None;
    w_disc : disciplined Out (prog t) = true;
    w_sec : sections None p = runs_of i done ++ sections None (prog t);
    w_res : answers_of e m0 i (trace (done ++ cur)) = map Some (results t) }.
  Record inside (p : list top) (s : shared) (t : thread) (done : list (nat * list hop)) (i : nat) (l : list hop) (st : mode) (nm : string) : Prop := {
    n_st : st <> Out;
    n_disc : disciplined st (prog t) = true;
    n_sec : sections None p = runs_of i done ++ sections (Some (nm, l)) (prog t);
    n_name : st = Named -> hf2 s = nm;
    n_run : match run t with
            | None => inv3 (vars s) (after m0 (map snd (trace (done ++ [(i, l)])))) /\ answers_of e m0 i (trace (done ++ [(i, l)])) = map Some (results t)
            | Some (cs, r) => st = Named /\ Forall quiet cs /\ exists s' r' h, exec cs s r = Ok (s', r') /\ inv3 (vars s') (after m0 (map snd (trace (done ++ [(i, l)])))) /\
                reg 0 r' = h /\ hf2 s' = hf2 s /\ lock s' = lock s /\ answers_of e m0 i (trace (done ++ [(i, l)])) = map Some (results t) ++ [Some h]
            end }.
  Record serial (s : shared) (ts : list thread) (done : list (nat * list hop)) (cur : option (nat * list hop)) : Prop := {
    r_length : length ts = length ps;
    r_some : all_some e m0 (trace (done ++ opened cur));
    r_mem : let '(m, _, _) := after m0 (map snd (trace (done ++ opened cur))) in length m = length m0 /\ forall a, length (array m a) = length (array m0 a);
    r_holder : match cur with None => True | Some (i, _) => (i < length ps)%nat end;
    r_lock : lock s = match cur with None => false | Some _ => true end;
    r_inv : cur = None -> inv3 (vars s) (after m0 (map snd (trace done)));
    r_threads : forall i p t, nth_error ps i = Some p -> nth_error ts i = Some t ->
      match holds_lock cur i with
      | None => waiting p t done (opened cur) i
      | Some l => exists st nm, inside p s t done i l st nm
      end }.
  Hypothesis He : ext_ok e.
  Hypothesis Hps : Forall (fun p => Forall (Forall (fun o => hop_ok a0 m0 o /\ callable e o)) (sections None p)) ps.

  Lemma after_snoc (tr : list (nat * hop)) i o : after m0 (map snd (tr ++ [(i, o)])) = next (after m0 (map snd tr)) o.
  Proof. unfold after. rewrite map_app, fold_left_app. reflexivity. Qed.
  Lemma op_good i p done nm l o pr : nth_error ps i = Some p ->
    sections None p = runs_of i done ++ sections (Some (nm, l ++ [o])) pr -> hop_ok a0 m0 o /\ callable e o.
  Proof.
    intros Ep Es. apply nth_error_In in Ep. rewrite Forall_forall in Hps. specialize (Hps _ Ep). rewrite Es in Hps.
    apply Forall_app in Hps. destruct Hps as [_ H]. destruct (sections_head pr nm (l ++ [o])) as (more & rest & E). rewrite E in H.
    apply Forall_inv in H. rewrite <- app_assoc in H. apply Forall_app in H. destruct H as [_ H]. now apply Forall_inv in H.
  Qed.
  Lemma holds_self i l : holds_lock (Some (i, l)) i = Some l.
  Proof. cbn. now rewrite Nat.eqb_refl. Qed.
  Lemma holds_other i j l : j <> i -> holds_lock (Some (i, l)) j = None.
  Proof. intros H. cbn. destruct (Nat.eqb_spec i j); congruence. Qed.
  (** A step of the goroutine that holds the mutex which leaves the trace as it is. *)
  Lemma keep_trace s s' ts i t t' p done l : serial s ts done (Some (i, l)) -> nth_error ts i = Some t -> nth_error ps i = Some p -> lock s' = lock s ->
    (exists st nm, inside p s' t' done i l st nm) -> serial s' (upd ts i t') done (Some (i, l)).
  Proof.
    intros [R1 R2 R3 R0 R4 R5 R6] Et Ep El Hin. constructor; try assumption.
    - now rewrite upd_length.
    - now rewrite El.
    - discriminate.
    - intros j q u Eq Eu. apply nth_error_upd in Eu. destruct Eu as [(-> & -> & _)|(Hn & Eu)].
      + rewrite holds_self. assert (q = p) as -> by congruence. exact Hin.
      + specialize (R6 j q u Eq Eu). rewrite holds_other in * by assumption. exact R6.
  Qed.
  (** One that adds an operation. *)
  Lemma add_op s s' ts i t t' p done l o : serial s ts done (Some (i, l)) -> nth_error ts i = Some t -> nth_error ps i = Some p -> lock s' = lock s ->
    hop_ok a0 m0 o -> (forall bs, o <> Alloc bs) -> all_some e m0 (trace (done ++ [(i, l ++ [o])])) ->
    (forall j, j <> i -> answers_of e m0 j (trace (done ++ [(i, l ++ [o])])) = answers_of e m0 j (trace (done ++ [(i, l)]))) ->
    (exists st nm, inside p s' t' done i (l ++ [o]) st nm) -> serial s' (upd ts i t') done (Some (i, l ++ [o])).
  Proof.
    intros [R1 R2 R3 R0 R4 R5 R6] Et Ep El Hok Hal Hsome Hother Hin. cbn [opened] in *. constructor; try assumption.
    - now rewrite upd_length.
    - cbn [opened]. rewrite trace_snoc, after_snoc. destruct (after m0 (map snd (trace (done ++ [(i, l)])))) as [[m c1] c2]. destruct R3 as [L A].
      cbn [next hop_mem]. destruct o as [bs|a o bs|n k seed]; [now specialize (Hal bs)| |split; assumption].
      destruct Hok as (_ & Ha & Hl & _). cbv beta iota delta [hop_mem]. split; [now rewrite store_length|]. intros b. rewrite store_array_length; [apply A|lia|now rewrite A].
    - now rewrite El.
    - discriminate.
    - intros j q u Eq Eu. apply nth_error_upd in Eu. destruct Eu as [(-> & -> & _)|(Hn & Eu)].
      + rewrite holds_self. assert (q = p) as -> by congruence. exact Hin.
      + specialize (R6 j q u Eq Eu). rewrite holds_other in * by assumption. destruct R6 as [W1 W2 W3 W4]. constructor; try assumption.
        cbn [opened] in *. now rewrite Hother.
  Qed.

  Lemma serial_step s ts done cur i t : serial s ts done cur -> nth_error ts i = Some t ->
    exists s' t' done' cur', tstep e grow s t = Ok (s', t') /\ serial s' (upd ts i t') done' cur'.
  Proof.
    intros R Et. destruct (nth_error ps i) as [p|] eqn:Ep.
    2:{ apply nth_error_None in Ep. assert (i < length ts)%nat by (apply nth_error_Some; congruence). destruct R. lia. }
    pose proof (r_threads _ _ _ _ R i p t Ep Et) as Ti. destruct (holds_lock cur i) as [l|] eqn:Eh.
    - (* the holder *)
      assert (cur = Some (i, l)) as ->.
      { unfold holds_lock in Eh. destruct cur as [[j l']|]; [|discriminate]. destruct (Nat.eqb_spec j i); [congruence|discriminate]. }
      destruct Ti as (st & nm & [N1 N2 N3 N4 N5]). unfold tstep. destruct t as [pr rn rs]. cbn [run prog results] in *.
      destruct rn as [[[|c cs] r]|].
      + destruct N5 as (Hst & _ & s1 & r1 & h & E & I1 & Er & _ & _ & An). cbn [exec] in E. injection E as <- <-.
        do 4 eexists. split; [reflexivity|]. eapply keep_trace; try eassumption; try reflexivity.
        exists st, nm. constructor; cbn [prog run results]; try assumption. split; [exact I1|]. rewrite An, map_app, Er. reflexivity.
      + destruct N5 as (Hst & Q & s1 & r1 & h & E & I1 & Er & E1 & E2 & An). cbn [exec] in E.
        destruct (c s r) as [[s' r']| | |] eqn:Ec; try discriminate. cbn [rbind] in *.
        assert (Hkeep : hf2 s' = hf2 s /\ lock s' = lock s) by (apply Forall_inv in Q; eapply Q; exact Ec).
        do 4 eexists. split; [reflexivity|]. eapply keep_trace; try eassumption; try apply Hkeep.
        exists st, nm. constructor; cbn [prog run results]; try assumption.
        * intros Hs. rewrite (proj1 Hkeep). auto.
        * split; [exact Hst|]. split; [now apply Forall_inv_tail in Q|]. exists s1, r1, h. rewrite (proj1 Hkeep), (proj2 Hkeep). auto 10.
      + destruct N5 as [I1 An]. destruct pr as [|x pr]; [destruct st; [contradiction|discriminate..]|].
        destruct x as [| |n|a o bs|k seed].
        * destruct st; [contradiction|discriminate..].
        * (* Unlock *)
          assert (Hd : disciplined Out pr = true) by (destruct st; [contradiction|exact N2..]). cbn [sections] in N3.
          rewrite (r_lock _ _ _ _ R). do 2 eexists. exists (done ++ [(i, l)]), None. split; [reflexivity|].
          destruct R as [R1 R2 R3 R0 R4 R5 R6]. cbn [opened] in *. constructor; cbn [opened]; rewrite ?app_nil_r; try assumption; try reflexivity.
          -- now rewrite upd_length.
          -- intros _. exact I1.
          -- intros j q u Eq Eu. cbn [holds_lock]. apply nth_error_upd in Eu. destruct Eu as [(-> & -> & _)|(Hn & Eu)].
             ++ assert (q = p) as -> by congruence. constructor; cbn [prog run results]; try assumption; try reflexivity.
                ** rewrite runs_of_app, runs_of_one, Nat.eqb_refl, <- app_assoc. exact N3.
                ** now rewrite app_nil_r.
             ++ specialize (R6 j q u Eq Eu). rewrite holds_other in R6 by assumption. destruct R6 as [W1 W2 W3 W4]. constructor; try assumption.
                ** rewrite runs_of_app, runs_of_one. destruct (Nat.eqb_spec i j); [congruence|]. now rewrite app_nil_r.
                ** now rewrite app_nil_r.
        * (* Hf2 *)
          assert (Hd : disciplined Named pr = true) by (destruct st; [contradiction|exact N2..]). cbn [sections] in N3.
          do 4 eexists. split; [reflexivity|]. eapply keep_trace; try eassumption; try reflexivity.
          exists Named, n. constructor; cbn [prog run results]; try assumption; try discriminate; try reflexivity. split; assumption.
        * (* a write *)
          assert (Hd : disciplined st pr = true) by (destruct st; [contradiction|exact N2..]). cbn [sections] in N3.
          destruct (op_good i p done nm l _ pr Ep N3) as [Hok _].
          pose proof (r_some _ _ _ _ R) as Hs. cbn [opened] in Hs. pose proof (r_mem _ _ _ _ R) as Hm. cbn [opened] in Hm.
          destruct (after m0 (map snd (trace (done ++ [(i, l)])))) as [[m c1] c2] eqn:Ea. destruct Hm as [Lm Am]. cbn [inv3] in I1.
          destruct (write_step e a0 s m c1 c2 a o bs I1 (hop_ok_same a0 m0 m _ Lm Am Hok)) as [I2 _].
          do 2 eexists. exists done, (Some (i, l ++ [Assign a o bs])). split; [reflexivity|].
          eapply add_op; try eassumption; try reflexivity; try discriminate.
          -- rewrite trace_snoc. now apply (answers_of_write e m0 0).
          -- intros j Hj. rewrite trace_snoc. now apply answers_of_write.
          -- exists st, nm. constructor; cbn [prog run results]; try assumption. rewrite trace_snoc, after_snoc, Ea. cbn [vars set_vars inv3 next hop_mem]. split; [exact I2|].
             rewrite (proj2 (answers_of_write e m0 i _ i a o bs Hs)). exact An.
        * (* a call *)
          assert (Hst : st = Named) by (destruct st; [contradiction|discriminate|reflexivity]). subst st. cbn [disciplined] in N2. cbn [sections] in N3.
          destruct (op_good i p done nm l _ pr Ep N3) as [Hok Hca].
          pose proof (r_some _ _ _ _ R) as Hs. cbn [opened] in Hs. pose proof (r_mem _ _ _ _ R) as Hm. cbn [opened] in Hm.
          destruct (after m0 (map snd (trace (done ++ [(i, l)])))) as [[m c1] c2] eqn:Ea. destruct Hm as [Lm Am]. cbn [inv3] in I1.
          destruct (call_step e grow a0 s m c1 c2 nm k seed He I1 (hop_ok_same a0 m0 m _ Lm Am Hok) Hca) as (s1 & r1 & h & E & I2 & Ah & Er & E1 & E2).
          do 2 eexists. exists done, (Some (i, l ++ [Call nm k seed])). split; [reflexivity|].
          eapply add_op; try eassumption; try reflexivity; try discriminate.
          -- rewrite trace_snoc. now apply (answers_of_call e m0 0 _ i nm k seed h m c1 c2).
          -- intros j Hj. rewrite trace_snoc. rewrite (proj2 (answers_of_call e m0 j _ i nm k seed h m c1 c2 Hs Ea Ah)).
             destruct (Nat.eqb_spec i j); [congruence|]. apply app_nil_r.
          -- exists Named, nm. constructor; cbn [prog run results]; try assumption. rewrite (N4 eq_refl).
             destruct (hashf_code e grow nm k seed) as [d1 d2] eqn:Ed. split; [reflexivity|].
             split; [pose proof (quiet_code e grow nm k seed) as Q; rewrite Ed in Q; exact Q|].
             exists s1, r1, h. split; [exact E|]. rewrite trace_snoc, after_snoc, Ea.
             split; [exact I2|]. split; [exact Er|]. split; [rewrite E1; now apply N4|]. split; [exact E2|].
             rewrite (proj2 (answers_of_call e m0 i _ i nm k seed h m c1 c2 Hs Ea Ah)), Nat.eqb_refl, An. reflexivity.
    - destruct Ti as [W1 W2 W3 W4]. unfold tstep. destruct t as [pr rn rs]. cbn [run prog results] in *. subst rn.
      destruct pr as [|x pr].
      + exists s, (mkThread [] None rs), done, cur. split; [reflexivity|]. now rewrite upd_id.
      + destruct x; try discriminate. rewrite (r_lock _ _ _ _ R). destruct cur as [[j l]|].
        * exists s, (mkThread (TLock :: pr) None rs), done, (Some (j, l)). split; [reflexivity|]. now rewrite upd_id.
        * do 2 eexists. exists done, (Some (i, [])). split; [reflexivity|]. cbn [disciplined sections] in *.
          destruct R as [R1 R2 R3 R0 R4 R5 R6]. specialize (R5 eq_refl). cbn [opened] in *. rewrite app_nil_r in *.
          constructor; cbn [opened]; rewrite ?trace_open; try assumption; try reflexivity; try discriminate.
          -- now rewrite upd_length.
          -- apply nth_error_Some. congruence.
          -- intros j q u Eq Eu. apply nth_error_upd in Eu. destruct Eu as [(-> & -> & _)|(Hn & Eu)].
             ++ rewrite holds_self. assert (q = p) as -> by congruence. exists Locked, EmptyString. constructor; cbn [prog run results]; try assumption; try discriminate.
                rewrite trace_open. split; assumption.
             ++ rewrite holds_other by assumption. specialize (R6 j q u Eq Eu). cbn [holds_lock] in R6. destruct R6 as [V1 V2 V3 V4]. constructor; try assumption.
                rewrite trace_open. now rewrite app_nil_r in V4.
  Qed.
  Lemma serial_run sched : forall s ts done cur, serial s ts done cur ->
    exists s' ts' done' cur', conc_run e grow sched s ts = Ok (s', ts') /\ serial s' ts' done' cur'.
  Proof.
    induction sched as [|i sched IH]; intros s ts done cur R; cbn [conc_run]; [exists s, ts, done, cur; auto|].
    destruct (nth_error ts i) as [t|] eqn:Et; [|now apply (IH s ts done cur)].
    destruct (serial_step s ts done cur i t R Et) as (s' & t' & done' & cur' & E & R'). rewrite E. cbn [rbind]. now apply (IH _ _ done' cur').
  Qed.
  Lemma serial_finish s ts done cur : serial s ts done cur ->
    exists sched s' ts', conc_run e grow sched s ts = Ok (s', ts') /\ Forall finished ts'.
  Proof.
    intros R. destruct (finish e grow (fun s ts => exists done cur, serial s ts done cur)) with (s := s) (ts := ts) as (sched & s' & ts' & E & _ & F).
    - intros s1 ts1 i t (d & c & R1) Et. destruct (serial_step s1 ts1 d c i t R1 Et) as (s' & t' & d' & c' & E & R'). exists s', t'. split; [exact E|]. now exists d', c'.
    - intros s1 ts1 (d & c & R1). destruct (unfinished ts1) as [F|(i & t & Et & Hf)]; [now left|right].
      destruct c as [[j l]|].
      + pose proof (r_holder _ _ _ _ R1) as Hj. cbn in Hj. pose proof (r_length _ _ _ _ R1) as Hl.
        destruct (nth_error ts1 j) as [u|] eqn:Eu; [|apply nth_error_None in Eu; lia].
        destruct (nth_error ps j) as [p|] eqn:Ep; [|apply nth_error_None in Ep; lia].
        pose proof (r_threads _ _ _ _ R1 j p u Ep Eu) as T. rewrite holds_self in T. destruct T as (st & nm & [N1 N2 _ _ _]).
        exists j, u. split; [exact Eu|]. split.
        * intros [F1 F2]. rewrite F1 in N2. destruct st; [contradiction|discriminate..].
        * intros (_ & _ & q & F1). rewrite F1 in N2. destruct st; [contradiction|discriminate..].
      + exists i, t. split; [exact Et|]. split; [exact Hf|]. intros (_ & Lk & _). rewrite (r_lock _ _ _ _ R1) in Lk. discriminate.
    - now exists done, cur.
    - exists sched, s', ts'. auto.
  Qed.
  Lemma serial_start name w : inv a0 w m0 0 0 -> Forall (fun p => disciplined Out p = true) ps -> serial (conc_start name w) (threads ps) [] None.
  Proof.
    intros Hi Hd. constructor; cbn; auto.
    - unfold threads. now rewrite map_length.
    - constructor.
    - intros i p t Ep Et. unfold threads in Et. rewrite nth_error_map, Ep in Et. cbn in Et. injection Et as <-.
      constructor; try reflexivity. cbn [prog]. rewrite Forall_forall in Hd. apply Hd. now apply nth_error_In in Ep.
  Qed.
End locked.
