(** Whole programs with a table in memory. *)
From Coq Require Import NArith ZArith List Arith Lia String Bool.
From Verif Require Import Words WordLemmas Mem ListLemmas KeccakModel KeccakProofs3 KeccakProofs4 KeccakProofs5 HashfModel HashfSpec HashfProofs
  HashTableModel HashTableProofs LiveModel LiveSpec LiveProofs.
Import ListNotations.
Open Scope N_scope.

(** The two counting names. *)
Definition count_of (name : string) (w : world) : N := if (name =? "nullhash")%string then nh w else nhf64 w.
Lemma Hashf_counter e grow w name k seed : counter name = true -> world_ok w ->
  exists w', Hashf e grow w name k seed = Ok (w', (count_of name w + 1) mod 2 ^ 64) /\
    world_ok w' /\ mem w' = mem w /\ fps w' = fps w /\ count_of name w' = (count_of name w + 1) mod 2 ^ 64.
Proof.
  intros H O. unfold counter in H. unfold count_of. destruct (name =? "nullhash")%string eqn:N1.
  - unfold Hashf. apply String.eqb_eq in N1. subst name. cbn -[N.pow N.modulo mem].
    unfold SmallModel.null_Reset, SmallModel.null_Write, SmallModel.null_Sum64, add64, addw. rewrite wrap_mod.
    eexists. split; [reflexivity|]. split; [|repeat split]. destruct O. now constructor.
  - cbn [orb] in H. unfold Hashf. apply String.eqb_eq in H. subst name. cbn -[N.pow N.modulo mem].
    unfold SmallModel.null_Hash64S, add64, addw. rewrite wrap_mod.
    eexists. split; [reflexivity|]. split; [|repeat split]. destruct O. now constructor.
Qed.
Lemma call_any e grow w name k seed : ext_ok e -> world_ok w -> wf (mem w) k -> N.of_nat (len k) < 2 ^ 64 -> seed < 2 ^ 64 ->
  (hashes e name (read (mem w) k) seed /\ exists w' h, Hashf e grow w name k seed = Ok (w', h) /\ world_ok w' /\ same w w') \/
  (~ hashes e name (read (mem w) k) seed /\ Hashf e grow w name k seed = Panics).
Proof.
  intros Ee O W L Hs. destruct (counter name) eqn:C.
  - left. split.
    + unfold counter in C. apply orb_true_iff in C. unfold hashes. rewrite !String.eqb_eq in C. tauto.
    + destruct (Hashf_counter e grow w name k seed C O) as (w' & E & O' & M & F & _). exists w'. eexists. split; [exact E|]. split; [exact O'|].
      split; [|now rewrite F]. rewrite M. apply keeps_mem_refl.
  - pose proof (Hashf_right e grow w name k seed Ee O W L Hs C) as R. unfold right in R.
    unfold counter in C. apply orb_false_iff in C. rewrite !String.eqb_neq in C.
    destruct (reference e name (read (mem w) k) seed) as [h|] eqn:Er.
    + left. split; [unfold hashes; right; right; congruence|]. destruct R as (w' & E & O' & K). exists w', h. auto using keeps_same.
    + right. split; [|exact R]. unfold hashes. intuition congruence.
Qed.

(** The program's arrays in memory. *)
Record owns (w : world) (own : list nat) (ms : list (list N)) : Prop := {
  w_len : length own = length ms; w_nodup : NoDup own;
  w_arr : forall a, (a < length ms)%nat ->
    (nth a own 0 < length (mem w))%nat /\ ~ In (nth a own 0%nat) (map arr (fps w)) /\ array (mem w) (nth a own 0%nat) = nth a ms [] }.
Lemma owns_lt w own ms : owns w own ms -> forall a, In a own -> (a < length (mem w))%nat.
Proof. intros [L _ A] a H. apply (In_nth _ _ 0%nat) in H. destruct H as (i & Hi & <-). apply A. lia. Qed.
Lemma owns_grows w w' own ms : grows w w' -> owns w own ms -> owns w' own ms.
Proof.
  intros (L & F & A & B) [L1 N1 A1]. constructor; auto. intros a Ha. destruct (A1 a Ha) as (P & Q & R).
  split; [lia|]. split; [now rewrite F|]. rewrite <- R. now apply A.
Qed.
Lemma same_grows w w' : same w w' -> grows w w'.
Proof. intros [[L [A B]] F]. split; [lia|]. split; [exact F|]. split; intros a _; auto. Qed.
Lemma owns_alloc w own ms bs : world_ok w -> owns w own ms -> owns (withMem w (mem w ++ [bs])) (own ++ [length (mem w)]) (ms ++ [bs]).
Proof.
  intros O Ow. pose proof (owns_lt w own ms Ow) as Lt. pose proof (owns_grows w _ own ms (grows_app w bs) Ow) as [L1 N1 A1].
  constructor.
  - rewrite !app_length. cbn [length]. lia.
  - apply NoDup_rev in N1. rewrite <- (rev_involutive (own ++ _)). apply NoDup_rev. rewrite rev_app_distr. cbn [rev app].
    constructor; [|exact N1]. rewrite <- in_rev. intros I. apply Lt in I. lia.
  - rewrite app_length. cbn [length]. intros a Ha. destruct (Nat.eq_dec a (length ms)) as [->|Hn].
    + rewrite (app_nth2 own) by lia. rewrite (app_nth2 ms) by lia. rewrite L1, !Nat.sub_diag. cbn [nth mem withMem].
      split; [rewrite app_length; cbn [length]; lia|]. split; [|apply array_last].
      intros I. change (map arr (fps (withMem w (mem w ++ [bs])))) with (map arr (fps w)) in I. apply (fps_lt w _ O) in I. lia.
    + rewrite !app_nth1 by lia. apply A1. lia.
Qed.
Lemma owns_assign w own ms a o bs : owns w own ms -> (a < length ms)%nat ->
  owns (withMem w (store (mem w) (nth a own 0%nat) o bs)) own (store ms a o bs).
Proof.
  intros [L1 N1 A1] Ha. constructor; [now rewrite store_length|exact N1|]. rewrite store_length. intros b Hb.
  destruct (A1 b Hb) as (P & Q & R). cbn [mem withMem]. rewrite store_length. split; [exact P|]. split; [exact Q|].
  change (nth b (store ms a o bs) []) with (array (store ms a o bs) b). destruct (Nat.eq_dec b a) as [->|Hn].
  - rewrite (array_store_same (mem w)) by exact P. rewrite (array_store_same ms) by exact Ha. rewrite R. reflexivity.
  - rewrite (array_store_other ms) by exact Hn. rewrite array_store_other; [exact R|].
    intros E. apply Hn. apply (proj1 (NoDup_nth own 0%nat) N1); [lia|lia|exact E].
Qed.
Lemma piece_ok w own ms a o n : owns w own ms -> (a < length ms)%nat -> (o + n <= length (nth a ms []))%nat ->
  wf (mem w) (piece w (nth a own 0%nat) o n) /\ read (mem w) (piece w (nth a own 0%nat) o n) = bytes_of ms a o n.
Proof.
  intros [_ _ A1] Ha Hl. destruct (A1 a Ha) as (P & Q & R). unfold piece, bytes_of, read. cbn [len off arr]. rewrite R. split; [|reflexivity].
  repeat split; cbn [len cap off arr]; rewrite ?R; lia.
Qed.

Section Fixed.
  Variable e : ext.
  Variable grow : nat -> nat -> nat.
  Variable name : string.
  Variable seed : N.
  Hypothesis Ee : ext_ok e.
  Hypothesis Hc : counter name = false.
  Hypothesis Hs : seed < 2 ^ 64.
  Local Notation hf := (named e name seed).
  Local Notation kept' := (kept (good e name seed)).

  Lemma kept_own w own own' s : (forall a, In a own' -> In a own \/ (length (mem w) <= a)%nat) -> kept' w own s -> kept' w own' s.
  Proof.
    intros H [W U L N G]. constructor; auto. intros I. apply H in I. destruct I as [I|I]; [auto|]. destruct U. lia.
  Qed.
  Lemma hashes_good k : hashes e name k seed <-> reference e name k seed <> None.
  Proof.
    unfold counter in Hc. apply orb_false_iff in Hc. rewrite !String.eqb_neq in Hc. unfold hashes. tauto.
  Qed.
  Lemma run_ok : forall ops w own ms t, world_ok w -> owns w own ms -> holds_all (kept' w own) t -> lseed t = seed -> lops_ok ms ops ->
    (all_hash e name seed ms ops ->
     match insert_all hf (table_in (mem w) t) (keys_of ms ops) with
     | Ret t' => exists w' l', live_run e grow name w own t ops = Ok (w', l') /\ table_in (mem w') l' = t'
     | Panic => live_run e grow name w own t ops = Panics
     | OutOfFuel => False
     end) /\
    (~ all_hash e name seed ms ops -> live_run e grow name w own t ops = Panics).
  Proof.
    induction ops as [|op ops IH]; intros w own ms t O Ow H Es Hok.
    - split; [|intros F; now destruct F]. intros _. exists w, t. auto.
    - destruct Hok as [Hop Hok]. destruct op as [bs|a o bs|other a o n s|a o n]; cbn [live_run keys_of all_hash lop_mem lop_ok] in *.
      + rewrite <- (table_in_grows (good e name seed) w (withMem w (mem w ++ [bs])) own t (grows_app w bs) H).
        apply IH; [now apply app_ok|now apply owns_alloc| |exact Es|exact Hok].
        revert H. apply holds_all_mono. intros x Hx. apply (grows_kept (good e name seed) w); [apply grows_app|].
        apply (kept_own w own); [|exact Hx]. intros b Hb. apply in_app_or in Hb. destruct Hb as [Hb|[<-|[]]]; [now left|now right].
      + destruct Hop as (Ha & Hl & Hb). destruct (w_arr _ _ _ Ow a Ha) as (P & Q & R).
        assert (X : forall s, kept' w own s -> array (store (mem w) (nth a own 0%nat) o bs) (arr s) = array (mem w) (arr s)).
        { intros s [_ _ _ N _]. apply array_store_other. intros E. apply N. rewrite E. apply nth_In. rewrite (w_len _ _ _ Ow). exact Ha. }
        assert (B : forall b, length (array (store (mem w) (nth a own 0%nat) o bs) b) = length (array (mem w) b)).
        { intros b. apply store_array_length; [exact P|now rewrite R]. }
        rewrite <- (table_in_ext (mem w) (mem (withMem w (store (mem w) (nth a own 0%nat) o bs))) t).
        2: { revert H. apply holds_all_mono. intros s Hk. apply read_same. now apply X. }
        apply IH; [ |now apply owns_assign| |exact Es|exact Hok].
        * apply withMem_ok; [exact O|apply store_ok; [apply O|exact Hb]|now rewrite store_length|]. intros b _. apply B.
        * revert H. apply holds_all_mono. intros s Hk. pose proof (X s Hk) as E. destruct Hk as [(W1 & W2 & W3) [U1 U2] L N G].
          constructor; auto; cbn [mem withMem].
          -- repeat split; [exact W1|now rewrite B|now rewrite store_length].
          -- split; [cbn [mem withMem]; now rewrite store_length|exact U2].
          -- now rewrite (read_same _ _ s E).
      + destruct Hop as (Ha & Hl & Hn & Hsd). destruct (piece_ok w own ms a o n Ow Ha Hl) as [W R].
        destruct (call_any e grow w other _ s Ee O W Hn Hsd) as [[G (w' & h & E & O' & S)]|[G E]]; rewrite R in G; rewrite E; cbn [rbind]; [|tauto].
        pose proof (same_grows w w' S) as Gr. specialize (IH w' own ms t O' (owns_grows w w' own ms Gr Ow)).
        rewrite (table_in_grows (good e name seed) w w' own t Gr H) in IH.
        assert (IH' := IH (holds_all_mono _ _ t (fun s Hk => grows_kept _ w w' own s Gr Hk) H) Es Hok). tauto.
      + destruct Hop as (Ha & Hl & Hn). destruct (piece_ok w own ms a o n Ow Ha Hl) as [W R].
        pose proof (insert_ok e grow name seed Ee Hc Hs own w t _ O H Es (owns_lt w own ms Ow) W Hn) as I. rewrite R in I.
        cbn [insert_all]. rewrite hashes_good. destruct (reference e name (bytes_of ms a o n) seed) as [h|].
        * destruct (insert hf (table_in (mem w) t) (bytes_of ms a o n)) as [t'| |]; [|now rewrite I|contradiction].
          destruct I as (w' & l' & E & T & O' & Gr & H' & Es'). rewrite E. cbn [rbind]. rewrite <- T.
          destruct (IH w' own ms l' O' (owns_grows w w' own ms Gr Ow) H' Es' Hok) as [I1 I2]. split; [tauto|]. intros F. apply I2. intros G. apply F. split; [discriminate|exact G].
        * rewrite I. cbn [rbind]. split; [tauto|reflexivity].
  Qed.
End Fixed.
