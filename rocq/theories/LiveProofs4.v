(** Counting names: no duplicates are ever found, and the table looks perfect. *)
From Coq Require Import NArith ZArith List Arith Lia String Bool.
From Verif Require Import Words WordLemmas Mem ListLemmas KeccakModel KeccakProofs3 KeccakProofs4 KeccakProofs5 HashfModel HashfSpec HashfProofs
  HashTableModel HashTableProofs LiveModel LiveSpec LiveProofs LiveProofs2 LiveProofs3.
Import ListNotations.
Open Scope N_scope.

Definition total (t : live) : nat := length (concat (lbuckets t)).
Lemma set_nth_total {A} (b b' : list A) : forall l i, nth_error l i = Some b ->
  (length (concat (set_nth i b' l)) + length b = length (concat l) + length b')%nat.
Proof.
  induction l as [|y l IH]; intros [|i] H; try discriminate; cbn [set_nth concat nth_error] in *.
  - injection H as ->. rewrite !app_length. lia.
  - rewrite !app_length. specialize (IH i H). lia.
Qed.
Lemma bucket_total {A} (b : list A) : forall l i, nth_error l i = Some b -> (length b <= length (concat l))%nat.
Proof.
  induction l as [|y l IH]; intros [|i] H; try discriminate; cbn [concat nth_error] in *; rewrite app_length.
  - injection H as ->. lia.
  - specialize (IH i H). lia.
Qed.

Section Null.
  Variable e : ext.
  Variable grow : nat -> nat -> nat.
  Variable name : string.
  Hypothesis Hc : counter name = true.
  Local Notation cnt_of := (count_of name).

  Lemma loop_dups k x : forall fuel w t idx cnt pass w' t', cnt_of w = (x + cnt) mod 2 ^ 64 -> cnt + N.of_nat fuel < 2 ^ 64 ->
    (loa t = false -> cnt = 0 /\ N.of_nat (total t) < 2 ^ 64) ->
    live_loop fuel e grow name k (x mod 2 ^ 64) w t idx cnt pass = Ok (w', t') ->
    dups (lst t') = dups (lst t) /\ (total t' <= S (total t))%nat /\ loa t' = loa t /\ length (lbuckets t') = length (lbuckets t).
  Proof.
    induction fuel as [|fuel IH]; intros w t idx cnt pass w' t' Ew Hf Hch E; [discriminate|]. cbn [live_loop] in E.
    destruct (nth_error (lbuckets t) idx) as [[|b0 rest]|] eqn:En; [| |discriminate].
    - injection E as <- <-. split; [reflexivity|]. split; [|split; [reflexivity|]].
      + unfold total. cbn [lbuckets live_bucket]. pose proof (set_nth_total [] [k] _ _ En) as T. cbn [length] in T. lia.
      + cbn [lbuckets live_bucket]. apply set_nth_length.
    - destruct (loa t) eqn:Eo.
      + destruct (counter_call e grow w name b0 (lseed t) Hc) as (w1 & E1 & _ & _ & C1 & _). rewrite E1 in E. cbn [rbind lsize live_stats] in E.
        rewrite Ew in *. assert (C : ((x + cnt) mod 2 ^ 64 + 1) mod 2 ^ 64 = (x + (cnt + 1)) mod 2 ^ 64) by (rewrite N.add_mod_idemp_l by discriminate; f_equal; lia).
        rewrite C in *. replace ((x + (cnt + 1)) mod 2 ^ 64 =? x mod 2 ^ 64) with false in E.
        2: { symmetry. apply N.eqb_neq. intros F. change (2 ^ 64) with 18446744073709551616 in *.
             pose proof (N.div_mod x 18446744073709551616 ltac:(discriminate)). pose proof (N.div_mod (x + (cnt + 1)) 18446744073709551616 ltac:(discriminate)). nia. }
        destruct (sub64 (lsize t) 1 <? N.of_nat (S idx)).
        * destruct (1 <? pass + 1); [discriminate|]. apply IH in E; [|exact C1|lia|cbn [loa live_stats]; congruence]. now rewrite <- Eo.
        * apply IH in E; [|exact C1|lia|cbn [loa live_stats]; congruence]. now rewrite <- Eo.
      + destruct (Hch eq_refl) as [-> Ht]. rewrite N.add_0_r in Ew.
        destruct (scan_counter e grow name Hc (lseed t) (x mod 2 ^ 64) (b0 :: rest) w (dups (lst t))) as (w1 & E1 & _).
        rewrite E1 in E. cbn [rbind] in E. pose proof (cdups_none x (length (b0 :: rest)) 0 (dups (lst t)) ltac:(lia)) as Cd.
        rewrite N.add_0_r in Cd. rewrite Ew, Cd in E by (pose proof (bucket_total _ _ _ En) as B; unfold total in Ht; lia).
        injection E as <- <-. split; [reflexivity|]. split; [|split; [now rewrite <- Eo|apply set_nth_length]].
        unfold total. cbn [lbuckets live_bucket]. pose proof (set_nth_total _ ((b0 :: rest) ++ [k]) _ _ En) as T. rewrite app_length in T. cbn [length app] in *. lia.
    Qed.
  Lemma insert_dups w t ka w' t' : N.of_nat (2 * length (lbuckets t) + 2) < 2 ^ 64 -> N.of_nat (total t) < 2 ^ 64 ->
    live_insert e grow name w t ka = Ok (w', t') ->
    dups (lst t') = dups (lst t) /\ (total t' <= S (total t))%nat /\ length (lbuckets t') = length (lbuckets t).
  Proof.
    intros Hs Ht. unfold live_insert. cbn [lseed live_stats lprime lsize lmask lbuckets]. set (v := withMem w _). set (k := mkSlice _ _ _ _).
    destruct (counter_call e grow v name k (lseed t) Hc) as (w1 & E1 & _ & _ & C1 & _). rewrite E1. cbn [rbind].
    destruct (lprime t && (lsize t =? 0)); [discriminate|]. intros E. apply loop_dups in E; [tauto| |lia|].
    - now rewrite C1, N.add_0_r.
    - intros _. split; [reflexivity|exact Ht].
  Qed.
  Lemma run_dups : forall ops w own t w' t', N.of_nat (2 * length (lbuckets t) + 2) < 2 ^ 64 -> N.of_nat (total t + inserts_of ops) < 2 ^ 64 ->
    live_run e grow name w own t ops = Ok (w', t') -> dups (lst t') = dups (lst t).
  Proof.
    induction ops as [|op ops IH]; intros w own t w' t' Hs Ht E.
    - now injection E as <- <-.
    - destruct op as [bs|a o bs|x a o n s|a o n]; cbn [live_run] in E.
      + now apply IH in E.
      + now apply IH in E.
      + destruct (Hashf e grow w x _ s) as [[w1 h]| | |]; [|discriminate..]. now apply IH in E.
      + destruct (live_insert e grow name w t _) as [[w1 t1]| | |] eqn:Ei; [|discriminate..]. cbn [rbind] in E.
        unfold inserts_of in Ht. cbn [filter length] in Ht. fold (inserts_of ops) in Ht.
        apply insert_dups in Ei; [|exact Hs|lia]. destruct Ei as (D & T & L). apply IH in E; [congruence|now rewrite L|lia].
  Qed.
End Null.
