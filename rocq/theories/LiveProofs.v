(** Proofs about the table in memory. *)
From Coq Require Import NArith ZArith List Arith Lia String Bool.
From Verif Require Import Words WordLemmas Mem ListLemmas KeccakModel KeccakProofs3 KeccakProofs4 KeccakProofs5 HashfModel HashfSpec HashfProofs
  HashTableModel HashTableProofs LiveModel LiveSpec.
Import ListNotations.
Open Scope N_scope.

(** ** Insert always comes to an end *)
Lemma loop_ends hf k h : forall fuel t idx cnt pass, 
  (pass = 0 /\ (2 * length (buckets t) + 2 <= fuel + idx)%nat \/ pass = 1 /\ (length (buckets t) + 1 <= fuel + idx)%nat \/ (length (buckets t) <= idx /\ 0 < fuel)%nat) ->
  (idx <= length (buckets t) \/ 0 < fuel)%nat ->
  insert_loop fuel hf k h t idx cnt pass <> OutOfFuel.
Proof.
  induction fuel as [|fuel IH]; intros t idx cnt pass Hm Hi; [exfalso; lia|]. cbn [insert_loop].
  destruct (nth_error (buckets t) idx) as [[|b0 rest]|] eqn:E; [discriminate| |discriminate].
  assert (L : (idx < length (buckets t))%nat) by (apply nth_error_Some; congruence).
  destruct (is_oa t); [|discriminate]. set (t1 := with_stats t _). assert (B : buckets t1 = buckets t) by reflexivity.
  destruct (sub64 (size t) 1 <? N.of_nat (S idx)).
  - destruct (N.ltb_spec 1 (pass + 1)); [discriminate|]. apply IH; rewrite B; [|lia]. right. left. lia.
  - apply IH; rewrite B; lia.
Qed.
Lemma insert_ends hf t k : insert hf t k <> OutOfFuel.
Proof.
  unfold insert. destruct (is_prime t && (size t =? 0)); [discriminate|]. apply loop_ends; unfold enough_fuel; cbn [buckets with_stats]; lia.
Qed.

(** ** Slices of other people's arrays *)
Definition outside (w : world) (s : slice) : Prop := (arr s < length (mem w))%nat /\ ~ In (arr s) (map arr (fps w)).
Record kept (P : list N -> Prop) (w : world) (own : list nat) (s : slice) : Prop := {
  k_wf : wf (mem w) s; k_out : outside w s; k_len : N.of_nat (len s) < 2 ^ 64;
  k_own : ~ In (arr s) own; k_good : P (read (mem w) s) }.
Definition good (e : ext) (name : string) (seed : N) (k : list N) : Prop := reference e name k seed <> None.
Definition holds_all (P : slice -> Prop) (t : live) : Prop := Forall (Forall P) (lbuckets t).

(** A call changes only the package's own arrays (and counters). *)
Definition same (w w' : world) : Prop := keeps_mem w (mem w') /\ map arr (fps w') = map arr (fps w).
Lemma keeps_same w w' : keeps w w' -> same w w'.
Proof. intros [K F _ _]. now split. Qed.
Lemma same_refl w : same w w.
Proof. split; [apply keeps_mem_refl|reflexivity]. Qed.
Lemma same_array w w' a : same w w' -> ~ In a (map arr (fps w)) -> array (mem w') a = array (mem w) a.
Proof. intros [[_ [K _]] _] H. now apply K. Qed.
Lemma same_read w w' s : same w w' -> outside w s -> read (mem w') s = read (mem w) s.
Proof. intros K [_ H]. apply read_same. now apply (same_array w w'). Qed.
Lemma same_outside w w' s : same w w' -> outside w s -> outside w' s.
Proof. intros [[L _] F] [A B]. split; [now rewrite L|now rewrite F]. Qed.
Lemma same_wf w w' s : same w w' -> wf (mem w) s -> wf (mem w') s.
Proof. intros [[L [_ A]] _] (W1 & W2 & W3). repeat split; rewrite ?A, ?L; assumption. Qed.
Lemma same_trans w1 w2 w3 : same w1 w2 -> same w2 w3 -> same w1 w3.
Proof.
  intros [[L1 [B1 A1]] F1] [[L2 [B2 A2]] F2]. split; [|congruence]. split; [congruence|]. split.
  - intros a H. rewrite B2; [now apply B1|now rewrite F1].
  - intros a. now rewrite A2.
Qed.
Lemma same_kept P w w' own s : same w w' -> kept P w own s -> kept P w' own s.
Proof.
  intros K [W O L N G]. constructor; auto.
  - now apply (same_wf w).
  - now apply (same_outside w).
  - now rewrite (same_read w w').
Qed.
Lemma holds_all_mono (P Q : slice -> Prop) t : (forall s, P s -> Q s) -> holds_all P t -> holds_all Q t.
Proof. intros H. unfold holds_all. apply Forall_impl. intros l. now apply Forall_impl. Qed.
Lemma table_in_ext m m' t : holds_all (fun s => read m' s = read m s) t -> table_in m' t = table_in m t.
Proof.
  intros H. unfold table_in. f_equal. unfold holds_all in H. induction H as [|l ls Hl _ IH]; [reflexivity|].
  cbn [map]. rewrite IH. f_equal. induction Hl as [|s l E _ IHl]; [reflexivity|]. cbn [map]. now rewrite IHl, E.
Qed.
Lemma table_in_same P w w' own t : same w w' -> holds_all (kept P w own) t -> table_in (mem w') t = table_in (mem w) t.
Proof. intros K H. apply table_in_ext. revert H. apply holds_all_mono. intros s [_ O _ _ _]. now apply same_read. Qed.
Lemma map_set_nth {A B} (f : A -> B) x l : forall i, map f (set_nth i x l) = set_nth i (f x) (map f l).
Proof. induction l as [|y l IH]; intros [|i]; cbn; try reflexivity. now rewrite IH. Qed.
Lemma set_nth_Forall {A} (P : A -> Prop) x l : P x -> Forall P l -> forall i, Forall P (set_nth i x l).
Proof. intros Hx H. induction H as [|y l Hy H IH]; intros [|i]; cbn; constructor; auto. Qed.
Lemma nth_error_map' {A B} (f : A -> B) l i : nth_error (map f l) i = option_map f (nth_error l i).
Proof. revert i. induction l; intros [|i]; cbn; auto. Qed.

(** Memory grows by a new array. *)
Definition grows (w w' : world) : Prop := (length (mem w) <= length (mem w'))%nat /\ map arr (fps w') = map arr (fps w) /\
  (forall a, (a < length (mem w))%nat -> ~ In a (map arr (fps w)) -> array (mem w') a = array (mem w) a) /\
  (forall a, (a < length (mem w))%nat -> length (array (mem w') a) = length (array (mem w) a)).
Lemma grows_app w x : grows w (withMem w (mem w ++ [x])).
Proof.
  split; [cbn [mem withMem]; rewrite app_length; lia|]. split; [reflexivity|]. cbn [mem withMem].
  split; intros a H; intros; now rewrite array_app.
Qed.
Lemma grows_same w w' w'' : grows w w' -> same w' w'' -> grows w w''.
Proof.
  intros (L & F & A & B) [[L' [A' B']] F']. split; [lia|]. split; [congruence|]. split; intros a H.
  - intros N. rewrite A' by now rewrite F. now apply A.
  - rewrite B'. now apply B.
Qed.
Lemma app_ok w x : world_ok w -> bytes_ok x -> world_ok (withMem w (mem w ++ [x])).
Proof.
  intros O Hx. apply withMem_ok; [exact O| | |].
  - unfold heap_ok. apply Forall_app. split; [apply O|now constructor].
  - rewrite app_length. lia.
  - intros a H. now rewrite array_app.
Qed.
Lemma fps_lt w a : world_ok w -> In a (map arr (fps w)) -> (a < length (mem w))%nat.
Proof. intros [_ F1 F2 F3 F4 F5 _ _ _ _ _ _] H. cbn in H. destruct F1, F2, F3, F4, F5. intuition lia. Qed.

Lemma grows_kept P w w' own s : grows w w' -> kept P w own s -> kept P w' own s.
Proof.
  intros (L & F & A & B) [W [U1 U2] Ln N G]. assert (E : array (mem w') (arr s) = array (mem w) (arr s)) by now apply A.
  constructor; auto.
  - apply (wf_mono (mem w)); assumption.
  - split; [lia|now rewrite F].
  - now rewrite (read_same (mem w) (mem w') s E).
Qed.
Lemma table_in_grows P w w' own t : grows w w' -> holds_all (kept P w own) t -> table_in (mem w') t = table_in (mem w) t.
Proof.
  intros (L & F & A & B) H. apply table_in_ext. revert H. apply holds_all_mono. intros s [_ [U1 U2] _ _ _].
  apply read_same. now apply A.
Qed.

Section Fixed.
  Variable e : ext.
  Variable grow : nat -> nat -> nat.
  Variable name : string.
  Variable seed : N.
  Hypothesis Ee : ext_ok e.
  Hypothesis Hc : counter name = false.
  Hypothesis Hs : seed < 2 ^ 64.
  Local Notation hf := (named e name seed).
  Local Notation kept' := (kept (good e name seed)).

  Lemma call_kept w own s : world_ok w -> kept' w own s ->
    exists w', Hashf e grow w name s seed = Ok (w', hf (read (mem w) s)) /\ world_ok w' /\ same w w'.
  Proof.
    intros O [W U L N G]. unfold good in G. pose proof (Hashf_right e grow w name s seed Ee O W L Hs Hc) as R. unfold right in R. unfold named.
    destruct (reference e name (read (mem w) s) seed) as [h|]; [|congruence].
    destruct R as (w' & E & O' & K). exists w'. auto using keeps_same.
  Qed.
  Lemma scan_ok own h : forall chain w d, world_ok w -> Forall (kept' w own) chain ->
    exists w', live_scan e grow name seed h chain w d = Ok (w', chain_dups hf h (map (read (mem w)) chain) d) /\ world_ok w' /\ same w w'.
  Proof.
    induction chain as [|s chain IH]; intros w d O H.
    - exists w. split; [reflexivity|]. split; [exact O|apply same_refl].
    - apply Forall_cons_iff in H. destruct H as [Hk H]. destruct (call_kept w own s O Hk) as (w1 & E & O1 & K1).
      cbn [live_scan map chain_dups]. rewrite E. cbn [rbind].
      destruct (IH w1 (if hf (read (mem w) s) =? h then d + 1 else d) O1) as (w2 & E2 & O2 & K2).
      { revert H. apply Forall_impl. intros x. now apply (same_kept (good e name seed) w). }
      exists w2. split; [|split; [exact O2|now apply (same_trans w w1)]]. rewrite E2. do 2 f_equal.
      f_equal. apply map_ext_in. intros x Hx. rewrite Forall_forall in H. destruct (H x Hx) as [_ U _ _ _]. now apply same_read.
  Qed.
  Definition agrees (w : world) (own : list nat) (r : res (world * live)) (p : outcome HashTableModel.table) : Prop :=
    match p with
    | Ret t' => exists w' l', r = Ok (w', l') /\ table_in (mem w') l' = t' /\ world_ok w' /\ same w w' /\ holds_all (kept' w' own) l' /\ lseed l' = seed
    | Panic => r = Panics
    | OutOfFuel => r = NoFuel
    end.
  Lemma agrees_same w w1 own r p : same w w1 -> agrees w1 own r p -> agrees w own r p.
  Proof.
    intros K. destruct p; cbn [agrees]; auto. intros (w' & l' & A & B & C & D & E). exists w', l'.
    split; [exact A|]. split; [exact B|]. split; [exact C|]. split; [|exact E]. now apply (same_trans w w1).
  Qed.
  Lemma loop_ok own k h : forall fuel w t idx cnt pass, world_ok w -> holds_all (kept' w own) t -> kept' w own k -> lseed t = seed ->
    agrees w own (live_loop fuel e grow name k h w t idx cnt pass) (insert_loop fuel hf (read (mem w) k) h (table_in (mem w) t) idx cnt pass).
  Proof.
    induction fuel as [|fuel IH]; intros w t idx cnt pass O H Hk Es; [reflexivity|]. cbn [live_loop insert_loop].
    cbn [table_in buckets is_oa size]. rewrite nth_error_map'. destruct (nth_error (lbuckets t) idx) as [[|b0 rest]|] eqn:E; cbn [option_map map].
    - cbn [agrees]. exists w, (live_bucket t idx [k] (bump_head (lst t))). split; [reflexivity|]. split.
      { unfold table_in, with_bucket, live_bucket. cbn. now rewrite map_set_nth. }
      split; [exact O|]. split; [apply same_refl|]. split; [|exact Es]. unfold holds_all. cbn [lbuckets live_bucket]. apply set_nth_Forall; auto.
    - assert (Hb : Forall (kept' w own) (b0 :: rest)).
      { unfold holds_all in H. rewrite Forall_forall in H. apply H. now apply (nth_error_In _ idx). }
      destruct (loa t) eqn:Eo.
      + rewrite Es. destruct (call_kept w own b0 O (Forall_inv Hb)) as (w1 & E1 & O1 & K1). rewrite E1. cbn [rbind].
        set (s1 := bump_oa cnt _ _). change (st (table_in (mem w) t)) with (lst t). fold s1.
        assert (T : with_stats (table_in (mem w) t) s1 = table_in (mem w1) (live_stats t s1)).
        { transitivity (table_in (mem w) (live_stats t s1)); [reflexivity|]. symmetry. now apply (table_in_same (good e name seed) w w1 own). }
        assert (H1 : holds_all (kept' w1 own) (live_stats t s1)).
        { change (holds_all (kept' w1 own) t). revert H. apply holds_all_mono. intros s. now apply (same_kept (good e name seed) w). }
        assert (Hk1 : kept' w1 own k) by now apply (same_kept (good e name seed) w).
        assert (Rk : read (mem w1) k = read (mem w) k) by (apply same_read; [exact K1|apply Hk]).
        cbn [lsize live_stats]. destruct (sub64 (lsize t) 1 <? N.of_nat (S idx)).
        * destruct (1 <? pass + 1); [reflexivity|]. apply (agrees_same w w1); [exact K1|].
          change (mkTable _ _ _ _ _ _ _) with (table_in (mem w) t). rewrite T, <- Rk. now apply IH.
        * apply (agrees_same w w1); [exact K1|]. change (mkTable _ _ _ _ _ _ _) with (table_in (mem w) t). rewrite T, <- Rk. now apply IH.
      + rewrite Es. destruct (scan_ok own h (b0 :: rest) w (dups (lst t)) O Hb) as (w1 & E1 & O1 & K1). rewrite E1. cbn [rbind agrees].
        eexists w1, _. split; [reflexivity|]. split; [|split; [exact O1|split; [exact K1|split; [|exact Es]]]].
        * transitivity (table_in (mem w) (live_bucket t idx ((b0 :: rest) ++ [k])
            (bump_chain (N.of_nat (length ((b0 :: rest) ++ [k]))) (chain_dups hf h (map (read (mem w)) (b0 :: rest)) (dups (lst t))) (lst t)))).
          { apply (table_in_same (good e name seed) w w1 own); [exact K1|]. unfold holds_all. cbn [lbuckets live_bucket].
            apply set_nth_Forall; [|exact H]. apply Forall_app. auto. }
          unfold table_in, with_bucket, live_bucket. cbn [buckets size size_log2 size_mask is_oa is_prime st lbuckets lsize llog2 lmask loa lprime lst].
          rewrite map_set_nth, map_app. cbn [map app length]. rewrite !app_length, map_length. reflexivity.
        * unfold holds_all. cbn [lbuckets live_bucket]. apply set_nth_Forall.
          { apply Forall_app. split; [|constructor; [|constructor]].
            - revert Hb. apply Forall_impl. intros s. now apply (same_kept (good e name seed) w).
            - now apply (same_kept (good e name seed) w). }
          revert H. apply holds_all_mono. intros s. now apply (same_kept (good e name seed) w).
    - reflexivity.
  Qed.

  Lemma insert_ok own w t ka : world_ok w -> holds_all (kept' w own) t -> lseed t = seed -> (forall a, In a own -> (a < length (mem w))%nat) ->
    wf (mem w) ka -> N.of_nat (len ka) < 2 ^ 64 ->
    match reference e name (read (mem w) ka) seed with
    | None => live_insert e grow name w t ka = Panics
    | Some _ =>
        match insert hf (table_in (mem w) t) (read (mem w) ka) with
        | Ret t' => exists w' l', live_insert e grow name w t ka = Ok (w', l') /\ table_in (mem w') l' = t' /\ world_ok w' /\ grows w w' /\
                      holds_all (kept' w' own) l' /\ lseed l' = seed
        | Panic => live_insert e grow name w t ka = Panics
        | OutOfFuel => False
        end
    end.
  Proof.
    intros O H Es Ho W L. set (x := read (mem w) ka). set (w1 := withMem w (mem w ++ [x])). set (k := mkSlice (length (mem w)) 0 (len ka) (len ka)).
    assert (Bx : bytes_ok x) by (apply read_ok, O). assert (Lx : length x = len ka) by now apply read_length.
    assert (O1 : world_ok w1) by now apply app_ok. assert (G1 : grows w w1) by apply grows_app.
    assert (Rk : read (mem w1) k = x).
    { unfold read, k, w1. cbn [arr off len mem withMem]. rewrite array_last. cbn [skipn]. rewrite firstn_all2 by lia. reflexivity. }
    assert (Wk : wf (mem w1) k).
    { unfold k, w1. repeat split; cbn [len cap off arr mem withMem]; [lia| |right; rewrite app_length; cbn [length]; lia]. rewrite array_last. lia. }
    pose proof (Hashf_right e grow w1 name k seed Ee O1 Wk L Hs Hc) as R. unfold right in R. rewrite Rk in R.
    set (s1 := mkStats (inserts (lst t) + 1) (cols (lst t)) (probes (lst t)) (heads (lst t)) (dups (lst t)) (nbuckets (lst t)) (longest (lst t))).
    assert (D : live_insert e grow name w t ka = rbind (Hashf e grow w1 name k seed) (fun p => match p with (w, h) =>
       if lprime t && (lsize t =? 0) then Panics
       else let idx := if lprime t then h mod lsize t else N.land h (lmask t) in
       live_loop (2 * length (lbuckets t) + 2) e grow name k h w (live_stats t s1) (N.to_nat idx) 0 0 end)).
    { rewrite <- Es. reflexivity. }
    rewrite D. clear D. destruct (reference e name x seed) as [h|] eqn:Er; [|now rewrite R].
    destruct R as (w2 & E2 & O2 & K2). apply keeps_same in K2. rewrite E2. cbn [rbind].
    assert (G2 : grows w w2) by now apply (grows_same w w1).
    assert (Hk : kept' w1 own k).
    { constructor; [exact Wk| |exact L| |unfold good; now rewrite Rk, Er].
      - split; [unfold k, w1; cbn [arr mem withMem]; rewrite app_length; cbn [length]; lia|].
        intros I. change (map arr (fps w1)) with (map arr (fps w)) in I. apply (fps_lt w _ O) in I. cbn [arr k] in I. lia.
      - intros I. apply Ho in I. cbn [arr k] in I. lia. }
    assert (Hk2 : kept' w2 own k) by now apply (same_kept (good e name seed) w1).
    assert (H2 : holds_all (kept' w2 own) (live_stats t s1)).
    { change (holds_all (kept' w2 own) t). revert H. apply holds_all_mono. intros s. now apply (grows_kept (good e name seed) w). }
    assert (Rk2 : read (mem w2) k = x) by (rewrite (same_read w1 w2) by (assumption || apply Hk); exact Rk).
    assert (Eh : hf x = h) by (unfold named; now rewrite Er).
    pose proof (insert_ends hf (table_in (mem w) t) x) as Fuel.
    assert (D : insert hf (table_in (mem w) t) x = if lprime t && (lsize t =? 0) then Panic else
       insert_loop (2 * length (lbuckets t) + 2) hf x h (with_stats (table_in (mem w) t) s1)
         (N.to_nat (if lprime t then h mod lsize t else N.land h (lmask t))) 0 0).
    { unfold insert. rewrite Eh. change (is_prime (table_in (mem w) t)) with (lprime t). change (size (table_in (mem w) t)) with (lsize t).
      replace (enough_fuel (table_in (mem w) t)) with (2 * length (lbuckets t) + 2)%nat; [reflexivity|].
      unfold enough_fuel, table_in. cbn [buckets]. now rewrite map_length. }
    rewrite D in *. clear D. destruct (lprime t && (lsize t =? 0)); [reflexivity|]. cbn zeta.
    set (idx := N.to_nat (if lprime t then _ else _)) in *.
    assert (T : table_in (mem w2) (live_stats t s1) = with_stats (table_in (mem w) t) s1).
    { transitivity (with_stats (table_in (mem w2) t) s1); [reflexivity|]. now rewrite (table_in_grows (good e name seed) w w2 own). }
    pose proof (loop_ok own k h (2 * length (lbuckets t) + 2) w2 (live_stats t s1) idx 0 0 O2 H2 Hk2 Es) as A.
    rewrite T, Rk2 in A.
    destruct (insert_loop _ _ _ _ _ _ _ _) as [t'| |]; [|exact A|now apply Fuel].
    destruct A as (w' & l' & A1 & A2 & A3 & A4 & A5 & A6). exists w', l'. rewrite A1.
    split; [reflexivity|]. split; [exact A2|]. split; [exact A3|]. split; [now apply (grows_same w w2)|]. auto.
  Qed.
End Fixed.
