(** Counting names: as long as there are no more keys than buckets, every key gets a bucket of
    its own. *)
From Coq Require Import NArith ZArith List Arith Lia String Bool.
From Verif Require Import Words WordLemmas Mem ListLemmas KeccakModel KeccakProofs3 KeccakProofs4 KeccakProofs5 HashfModel HashfSpec HashfProofs
  HashTableModel HashTableProofs LiveModel LiveSpec LiveProofs LiveProofs2 LiveProofs3.
Import ListNotations.
Open Scope N_scope.

Lemma alloc_inv (P : list N -> Prop) w own ms t bs : world_ok w -> owns w own ms -> holds_all (kept P w own) t -> bytes_ok bs ->
  let w' := withMem w (mem w ++ [bs]) in let own' := own ++ [length (mem w)] in
  world_ok w' /\ owns w' own' (ms ++ [bs]) /\ holds_all (kept P w' own') t /\ table_in (mem w') t = table_in (mem w) t.
Proof.
  intros O Ow H Hb w' own'. split; [now apply app_ok|]. split; [now apply owns_alloc|]. split.
  - revert H. apply holds_all_mono. intros x Hx. apply (grows_kept P w); [apply grows_app|].
    destruct Hx as [W U L N G]. constructor; auto. intros I. apply in_app_or in I. destruct I as [I|[I|[]]]; [auto|]. destruct U. lia.
  - apply (table_in_grows P w w' own); [apply grows_app|exact H].
Qed.
Lemma assign_inv (P : list N -> Prop) w own ms t a o bs : world_ok w -> owns w own ms -> holds_all (kept P w own) t ->
  (a < length ms)%nat -> (o + length bs <= length (nth a ms []))%nat -> bytes_ok bs ->
  let w' := withMem w (store (mem w) (nth a own 0%nat) o bs) in
  world_ok w' /\ owns w' own (store ms a o bs) /\ holds_all (kept P w' own) t /\ table_in (mem w') t = table_in (mem w) t.
Proof.
  intros O Ow H Ha Hl Hb w'. destruct (w_arr _ _ _ Ow a Ha) as (Pa & Qa & R).
  assert (X : forall s, kept P w own s -> array (mem w') (arr s) = array (mem w) (arr s)).
  { intros s [_ _ _ N _]. apply array_store_other. intros E. apply N. rewrite E. apply nth_In. rewrite (w_len _ _ _ Ow). exact Ha. }
  assert (B : forall b, length (array (mem w') b) = length (array (mem w) b)).
  { intros b. apply store_array_length; [exact Pa|now rewrite R]. }
  split; [|split; [now apply owns_assign|split]].
  - apply withMem_ok; [exact O|apply store_ok; [apply O|exact Hb]|now rewrite store_length|]. intros b _. apply B.
  - revert H. apply holds_all_mono. intros s Hk. pose proof (X s Hk) as E. destruct Hk as [(W1 & W2 & W3) [U1 U2] L N G].
    constructor; auto.
    + repeat split; [exact W1|now rewrite B|unfold w'; cbn [mem withMem]; now rewrite store_length].
    + split; [unfold w'; cbn [mem withMem]; now rewrite store_length|exact U2].
    + now rewrite (read_same _ _ s E).
  - apply table_in_ext. revert H. apply holds_all_mono. intros s Hk. apply read_same. now apply X.
Qed.

(** The table after the keys [ks]: the i-th in bucket c + 1 + i. *)
Record perfect (c : N) (ks : list key) (T : HashTableModel.table) : Prop := {
  p_len : length (buckets T) = N.to_nat (size T);
  p_key : forall i, (i < length ks)%nat -> nth_error (buckets T) (N.to_nat ((c + 1 + N.of_nat i) mod size T)) = Some [nth i ks []];
  p_rest : forall j b, nth_error (buckets T) j = Some b -> b <> [] -> exists i, (i < length ks)%nat /\ j = N.to_nat ((c + 1 + N.of_nat i) mod size T);
  p_st : st T = mkStats (N.of_nat (length ks)) 0 (N.of_nat (length ks)) (N.of_nat (length ks)) 0 0 0 }.
Lemma apart c m i j : m <> 0 -> i < j -> j < m -> (c + i) mod m <> (c + j) mod m.
Proof. intros Hm H1 H2 E. pose proof (N.div_mod (c + i) m Hm). pose proof (N.div_mod (c + j) m Hm). rewrite E in *.
  generalize dependent ((c + j) mod m). intros r _ H3 H4. set (p := (c + i) / m) in *. set (q := (c + j) / m) in *.
  destruct (N.le_gt_cases q p) as [Q|Q]; [pose proof (N.mul_le_mono_l q p m Q); lia|].
  assert (Q' : p + 1 <= q) by lia. pose proof (N.mul_le_mono_l _ _ m Q'). lia.
Qed.

Section Null.
  Variable e : ext.
  Variable grow : nat -> nat -> nat.
  Variable name : string.
  Hypothesis Hc : counter name = true.
  Local Notation cnt_of := (count_of name).
  Local Notation kept' := (kept (fun _ => True)).

  Lemma insert_fresh c ks own w t ka : world_ok w -> holds_all (kept' w own) t -> (forall a, In a own -> (a < length (mem w))%nat) ->
    wf (mem w) ka -> N.of_nat (len ka) < 2 ^ 64 -> perfect c ks (table_in (mem w) t) -> cnt_of w = c + N.of_nat (length ks) ->
    c + N.of_nat (length ks) + 1 < 2 ^ 64 -> N.of_nat (length ks) < lsize t ->
    (forall h, (if lprime t then h mod lsize t else N.land h (lmask t)) = h mod lsize t) ->
    exists w' t', live_insert e grow name w t ka = Ok (w', t') /\ world_ok w' /\ grows w w' /\ holds_all (kept' w' own) t' /\
      perfect c (ks ++ [read (mem w) ka]) (table_in (mem w') t') /\ cnt_of w' = c + N.of_nat (length ks) + 1 /\
      lsize t' = lsize t /\ lprime t' = lprime t /\ lmask t' = lmask t.
  Proof.
    intros O H Ho W L Pf Ec Hb Hn Hi. set (x := read (mem w) ka). set (w1 := withMem w (mem w ++ [x])). set (k := mkSlice (length (mem w)) 0 (len ka) (len ka)).
    assert (Bx : bytes_ok x) by (apply read_ok, O). assert (Lx : length x = len ka) by now apply read_length.
    assert (O1 : world_ok w1) by now apply app_ok. assert (G1 : grows w w1) by apply grows_app.
    unfold live_insert. cbn [lseed live_stats lprime lsize lmask lbuckets]. fold k x. fold w1.
    destruct (counter_call e grow w1 name k (lseed t) Hc) as (w2 & E2 & M2 & F2 & C2 & O2). specialize (O2 O1). rewrite E2. cbn [rbind].
    change (cnt_of w1) with (cnt_of w) in *. rewrite Ec in *. rewrite N.mod_small in * by lia.
    assert (Sz : lsize t <> 0) by lia. apply N.eqb_neq in Sz. rewrite Sz, andb_false_r. apply N.eqb_neq in Sz. rewrite Hi.
    set (j := N.to_nat _). set (s1 := mkStats _ _ _ _ _ _ _).
    assert (Sm : same w1 w2) by (split; [rewrite M2; apply keeps_mem_refl|now rewrite F2]).
    assert (G2 : grows w w2) by now apply (grows_same w w1).
    assert (Rk : read (mem w2) k = x).
    { rewrite M2. unfold read, k, w1. cbn [arr off len mem withMem]. rewrite array_last. cbn [skipn]. rewrite firstn_all2 by lia. reflexivity. }
    assert (Hk : kept' w2 own k).
    { apply (same_kept _ w1); [exact Sm|]. constructor; [| |exact L| |exact I].
      - unfold k, w1. repeat split; cbn [len cap off arr mem withMem]; [lia| |right; rewrite app_length; cbn [length]; lia]. rewrite array_last. lia.
      - split; [unfold k, w1; cbn [arr mem withMem]; rewrite app_length; cbn [length]; lia|].
        intros I. change (map arr (fps w1)) with (map arr (fps w)) in I. apply (fps_lt w _ O) in I. cbn [arr k] in I. lia.
      - intros I. apply Ho in I. cbn [arr k] in I. lia. }
    assert (H2 : holds_all (kept' w2 own) t).
    { revert H. apply holds_all_mono. intros s. now apply (grows_kept (fun _ => True) w). }
    assert (T2 : table_in (mem w2) t = table_in (mem w) t) by (apply (table_in_grows (fun _ => True) w w2 own); assumption).
    assert (Lj : (j < length (lbuckets t))%nat).
    { pose proof (p_len _ _ _ Pf) as Q. cbn [buckets table_in size] in Q. rewrite map_length in Q. rewrite Q. unfold j.
      pose proof (N.mod_lt (c + N.of_nat (length ks) + 1) (lsize t) Sz). lia. }
    assert (Ej : nth_error (lbuckets t) j = Some []).
    { destruct (nth_error (lbuckets t) j) as [b|] eqn:En; [|apply nth_error_None in En; lia]. destruct b as [|b0 b]; [reflexivity|]. exfalso.
      destruct (p_rest _ _ _ Pf j (map (read (mem w)) (b0 :: b))) as (i & Hil & Eij).
      - cbn [buckets table_in]. now rewrite nth_error_map', En.
      - discriminate.
      - cbn [size table_in] in Eij. unfold j in Eij. apply N2Nat.inj in Eij. symmetry in Eij. revert Eij.
        replace (c + N.of_nat (length ks) + 1) with (c + 1 + N.of_nat (length ks)) by lia. apply apart; lia. }
    replace (2 * length (lbuckets t) + 2)%nat with (S (2 * length (lbuckets t) + 1)) by lia. cbn [live_loop lbuckets live_stats].
    rewrite Ej. eexists w2, _. split; [reflexivity|]. split; [exact O2|]. split; [exact G2|]. split.
    { unfold holds_all. cbn [lbuckets live_bucket live_stats]. apply set_nth_Forall; auto. }
    split; [|now auto].
    assert (B : buckets (table_in (mem w2) (live_bucket (live_stats t s1) j [k] (bump_head (lst (live_stats t s1))))) = set_nth j [x] (buckets (table_in (mem w) t))).
    { rewrite <- T2. cbn [buckets table_in lbuckets live_bucket live_stats]. rewrite map_set_nth. cbn [map]. now rewrite Rk. }
    assert (Ljb : (j < length (buckets (table_in (mem w) t)))%nat) by (cbn [buckets table_in]; now rewrite map_length).
    assert (Jd : j = N.to_nat ((c + 1 + N.of_nat (length ks)) mod lsize t)) by (unfold j; do 2 f_equal; lia).
    constructor; rewrite ?B.
    - rewrite set_nth_length. apply (p_len _ _ _ Pf).
    - rewrite app_length. cbn [length size table_in lsize live_bucket live_stats]. intros i Hil. destruct (Nat.eq_dec i (length ks)) as [->|Hne].
      + rewrite <- Jd, set_nth_same by exact Ljb. rewrite app_nth2, Nat.sub_diag by lia. reflexivity.
      + rewrite app_nth1 by lia. rewrite set_nth_other; [apply (p_key _ _ _ Pf); lia|]. rewrite Jd. intros E. apply N2Nat.inj in E. symmetry in E.
        revert E. apply apart; lia.
    - intros i b E Eb. cbn [size table_in lsize live_bucket live_stats]. rewrite app_length. cbn [length]. destruct (Nat.eq_dec i j) as [->|Hne].
      + exists (length ks). split; [lia|exact Jd].
      + rewrite set_nth_other in E by auto. destruct (p_rest _ _ _ Pf i b E Eb) as (i' & Hi' & Ei'). exists i'. split; [lia|exact Ei'].
    - pose proof (p_st _ _ _ Pf) as S. cbn [st table_in] in S. cbn [st table_in lst live_bucket live_stats]. unfold s1. rewrite S.
      unfold bump_head. cbn [inserts cols probes heads dups nbuckets longest]. rewrite app_length. cbn [length]. f_equal; lia.
  Qed.
  Lemma run_perfect c : forall ops w own ms t ks, world_ok w -> owns w own ms -> holds_all (kept' w own) t -> lops_ok ms ops -> Forall quiet ops ->
    perfect c ks (table_in (mem w) t) -> cnt_of w = c + N.of_nat (length ks) ->
    c + N.of_nat (length ks + length (keys_of ms ops)) < 2 ^ 64 -> N.of_nat (length ks + length (keys_of ms ops)) <= lsize t ->
    (forall h, (if lprime t then h mod lsize t else N.land h (lmask t)) = h mod lsize t) ->
    exists w' t', live_run e grow name w own t ops = Ok (w', t') /\ perfect c (ks ++ keys_of ms ops) (table_in (mem w') t').
  Proof.
    induction ops as [|op ops IH]; intros w own ms t ks O Ow H Hok Q Pf Ec Hb Hn Hi.
    - exists w, t. cbn [keys_of live_run]. now rewrite app_nil_r.
    - destruct Hok as [Hop Hok]. apply Forall_cons_iff in Q. destruct Q as [Qo Q].
      destruct op as [bs|a o bs|x a o n s|a o n]; cbn [live_run keys_of lop_mem lop_ok] in *; [| |contradiction|].
      + destruct (alloc_inv _ w own ms t bs O Ow H Hop) as (O' & Ow' & H' & T'). apply (IH _ _ (ms ++ [bs])); try assumption. now rewrite T'.
      + destruct Hop as (Ha & Hl & Hbs). destruct (assign_inv _ w own ms t a o bs O Ow H Ha Hl Hbs) as (O' & Ow' & H' & T').
        apply (IH _ _ (store ms a o bs)); try assumption. now rewrite T'.
      + destruct Hop as (Ha & Hl & Hln). destruct (piece_ok w own ms a o n Ow Ha Hl) as [W R]. cbn [length] in *.
        destruct (insert_fresh c ks own w t _ O H (owns_lt w own ms Ow) W Hln Pf Ec ltac:(lia) ltac:(lia) Hi) as (w' & t' & E & O' & G' & H' & P' & C' & S' & Pr' & M').
        rewrite E. cbn [rbind]. rewrite R in P'.
        destruct (IH w' own ms t' (ks ++ [bytes_of ms a o n])) as (w'' & t'' & E2 & P2); try assumption.
        * now apply (owns_grows w).
        * rewrite C', app_length. cbn [length]. lia.
        * rewrite app_length. cbn [length]. lia.
        * rewrite app_length, S'. cbn [length]. lia.
        * intros h. now rewrite S', Pr', M'.
        * exists w'', t''. split; [exact E2|]. now rewrite <- app_assoc in P2.
  Qed.
End Null.
