(** The table with the counting names "nullhash" and "nullhashF64ns". *)
From Coq Require Import NArith ZArith List Arith Lia String Bool.
From Verif Require Import Words WordLemmas Mem ListLemmas KeccakModel KeccakProofs3 KeccakProofs4 KeccakProofs5 HashfModel HashfSpec HashfProofs
  HashTableModel HashTableProofs LiveModel LiveSpec LiveProofs LiveProofs2.
Import ListNotations.
Open Scope N_scope.

Lemma counter_call e grow w name k seed : counter name = true ->
  exists w', Hashf e grow w name k seed = Ok (w', (count_of name w + 1) mod 2 ^ 64) /\
    mem w' = mem w /\ fps w' = fps w /\ count_of name w' = (count_of name w + 1) mod 2 ^ 64 /\ (world_ok w -> world_ok w').
Proof.
  intros H. unfold counter in H. unfold count_of. destruct (name =? "nullhash")%string eqn:N1.
  - unfold Hashf. apply String.eqb_eq in N1. subst name. cbn -[N.pow N.modulo mem].
    unfold SmallModel.null_Reset, SmallModel.null_Write, SmallModel.null_Sum64, add64, addw. rewrite wrap_mod.
    eexists. split; [reflexivity|]. split; [reflexivity|]. split; [reflexivity|]. split; [reflexivity|]. intros []. now constructor.
  - cbn [orb] in H. unfold Hashf. apply String.eqb_eq in H. subst name. cbn -[N.pow N.modulo mem].
    unfold SmallModel.null_Hash64S, add64, addw. rewrite wrap_mod.
    eexists. split; [reflexivity|]. split; [reflexivity|]. split; [reflexivity|]. split; [reflexivity|]. intros []. now constructor.
Qed.
Fixpoint cdups (h c : N) (n : nat) (d : N) : N :=
  match n with O => d | S n => let c := (c + 1) mod 2 ^ 64 in cdups h c n (if c =? h then d + 1 else d) end.
Lemma cdups_none x : forall n j d, 0 <= j -> j + N.of_nat n < 2 ^ 64 -> cdups (x mod 2 ^ 64) ((x + j) mod 2 ^ 64) n d = d.
Proof.
  induction n as [|n IH]; intros j d H1 H2; [reflexivity|]. cbn [cdups].
  replace (((x + j) mod 2 ^ 64 + 1) mod 2 ^ 64) with ((x + (j + 1)) mod 2 ^ 64) by (rewrite N.add_mod_idemp_l by discriminate; f_equal; lia).
  replace ((x + (j + 1)) mod 2 ^ 64 =? x mod 2 ^ 64) with false; [apply IH; lia|].
  symmetry. apply N.eqb_neq. intros E. change (2 ^ 64) with 18446744073709551616 in *.
  pose proof (N.div_mod x 18446744073709551616 ltac:(discriminate)). pose proof (N.div_mod (x + (j + 1)) 18446744073709551616 ltac:(discriminate)). nia.
Qed.

Section Null.
  Variable e : ext.
  Variable grow : nat -> nat -> nat.
  Variable name : string.
  Hypothesis Hc : counter name = true.
  Local Notation cnt_of := (count_of name).

  Lemma scan_counter seed h : forall chain w d, exists w',
    live_scan e grow name seed h chain w d = Ok (w', cdups h (cnt_of w) (length chain) d) /\ mem w' = mem w /\ fps w' = fps w /\
    cnt_of w' = Nat.iter (length chain) (fun c => (c + 1) mod 2 ^ 64) (cnt_of w) /\ (world_ok w -> world_ok w').
  Proof.
    induction chain as [|s chain IH]; intros w d; [now exists w|].
    cbn [live_scan length cdups]. destruct (counter_call e grow w name s seed Hc) as (w1 & E1 & M1 & F1 & C1 & O1). rewrite E1. cbn [rbind].
    destruct (IH w1 (if (cnt_of w + 1) mod 2 ^ 64 =? h then d + 1 else d)) as (w2 & E2 & M2 & F2 & C2 & O2).
    exists w2. rewrite E2, C1. split; [reflexivity|]. split; [congruence|]. split; [congruence|]. split; [|auto].
    rewrite C2, C1. generalize (length chain), (cnt_of w). intros n c. cbn [Nat.iter nat_rect]. induction n as [|n IHn]; [reflexivity|].
    cbn [Nat.iter nat_rect]. unfold Nat.iter in *. cbn [nat_rect]. now rewrite IHn.
  Qed.
  (** Two tables of the same shape and statistics, and the same count. *)
  Record alike (w1 : world) (t1 : live) (w2 : world) (t2 : live) : Prop := {
    a_cnt : cnt_of w1 = cnt_of w2; a_len : map (@length slice) (lbuckets t1) = map (@length slice) (lbuckets t2);
    a_size : lsize t1 = lsize t2; a_log : llog2 t1 = llog2 t2; a_mask : lmask t1 = lmask t2; a_oa : loa t1 = loa t2; a_prime : lprime t1 = lprime t2;
    a_st : lst t1 = lst t2 }.
  Definition alike_res (r1 r2 : res (world * live)) : Prop :=
    match r1, r2 with
    | Ok (w1, t1), Ok (w2, t2) => alike w1 t1 w2 t2
    | Panics, Panics => True
    | NoFuel, NoFuel => True
    | _, _ => False
    end.
  Lemma alike_bucket w1 t1 w2 t2 i b1 b2 s : alike w1 t1 w2 t2 -> length b1 = length b2 -> alike w1 (live_bucket t1 i b1 s) w2 (live_bucket t2 i b2 s).
  Proof. intros [] H. constructor; auto. cbn [lbuckets live_bucket]. now rewrite !map_set_nth, H, a_len0. Qed.
  Lemma alike_stats w1 t1 w2 t2 s : alike w1 t1 w2 t2 -> alike w1 (live_stats t1 s) w2 (live_stats t2 s).
  Proof. now intros []. Qed.
  Lemma alike_world w1 t1 w2 t2 w1' w2' : alike w1 t1 w2 t2 -> cnt_of w1' = cnt_of w2' -> alike w1' t1 w2' t2.
  Proof. now intros []. Qed.
  Lemma loop_alike h k1 k2 : forall fuel w1 t1 w2 t2 idx cnt pass, alike w1 t1 w2 t2 ->
    alike_res (live_loop fuel e grow name k1 h w1 t1 idx cnt pass) (live_loop fuel e grow name k2 h w2 t2 idx cnt pass).
  Proof.
    induction fuel as [|fuel IH]; intros w1 t1 w2 t2 idx cnt pass A; [exact I|]. cbn [live_loop].
    pose proof (f_equal (fun l => nth_error l idx) (a_len _ _ _ _ A)) as El. cbn beta in El. rewrite !nth_error_map' in El.
    destruct (nth_error (lbuckets t1) idx) as [[|b1 r1]|], (nth_error (lbuckets t2) idx) as [[|b2 r2]|]; try discriminate; cbn [option_map length] in El; [| |exact I].
    - cbn [alike_res]. rewrite (a_st _ _ _ _ A). now apply alike_bucket.
    - injection El as El. rewrite (a_oa _ _ _ _ A), (a_st _ _ _ _ A). destruct (loa t2).
      + destruct (counter_call e grow w1 name b1 (lseed t1) Hc) as (w1' & E1 & _ & _ & C1 & _).
        destruct (counter_call e grow w2 name b2 (lseed t2) Hc) as (w2' & E2 & _ & _ & C2 & _).
        rewrite E1, E2. cbn [rbind]. rewrite (a_cnt _ _ _ _ A) in *. cbn [lsize live_stats].
        set (s := bump_oa _ _ _). assert (A' : alike w1' (live_stats t1 s) w2' (live_stats t2 s)).
        { apply (alike_world w1 _ w2); [now apply alike_stats|congruence]. }
        rewrite (a_size _ _ _ _ A). destruct (sub64 (lsize t2) 1 <? N.of_nat (S idx)); [|now apply IH].
        destruct (1 <? pass + 1); [exact I|now apply IH].
      + destruct (scan_counter (lseed t1) h (b1 :: r1) w1 (dups (lst t2))) as (w1' & E1 & _ & _ & C1 & _).
        destruct (scan_counter (lseed t2) h (b2 :: r2) w2 (dups (lst t2))) as (w2' & E2 & _ & _ & C2 & _).
        rewrite E1, E2. cbn [rbind alike_res]. cbn [length] in *. rewrite (a_cnt _ _ _ _ A), El in *.
        rewrite !app_length. cbn [app length]. rewrite El. apply (alike_world w1 _ w2); [|congruence]. apply alike_bucket; [exact A|].
        cbn [app length]. rewrite !app_length. cbn [length]. now rewrite El.
  Qed.
  Lemma insert_alike w1 t1 ka1 w2 t2 ka2 : alike w1 t1 w2 t2 ->
    alike_res (live_insert e grow name w1 t1 ka1) (live_insert e grow name w2 t2 ka2).
  Proof.
    intros A. unfold live_insert. cbn [lseed live_stats lprime lsize lmask lbuckets].
    set (k1 := mkSlice _ _ _ _). set (k2 := mkSlice (length (mem w2)) _ _ _).
    set (v1 := withMem w1 _). set (v2 := withMem w2 _).
    destruct (counter_call e grow v1 name k1 (lseed t1) Hc) as (w1' & E1 & _ & _ & C1 & _).
    destruct (counter_call e grow v2 name k2 (lseed t2) Hc) as (w2' & E2 & _ & _ & C2 & _).
    rewrite E1, E2. cbn [rbind]. assert (Ev : cnt_of v1 = cnt_of v2) by apply (a_cnt _ _ _ _ A). rewrite Ev in *.
    rewrite (a_prime _ _ _ _ A), (a_size _ _ _ _ A), (a_mask _ _ _ _ A), (a_st _ _ _ _ A).
    assert (L : length (lbuckets t1) = length (lbuckets t2)) by (rewrite <- (map_length (@length slice) (lbuckets t1)), (a_len _ _ _ _ A); apply map_length).
    rewrite L. destruct (lprime t2 && (lsize t2 =? 0)); [exact I|]. apply loop_alike. apply alike_stats.
    apply (alike_world w1 _ w2); [exact A|congruence].
  Qed.
  (** Programs that do not call Hashf themselves. *)
  Definition quiet (op : lop) : Prop := match op with LHash _ _ _ _ _ => False | _ => True end.
  Definition inserts_of (ops : list lop) : nat := length (filter (fun op => match op with LInsert _ _ _ => true | _ => false end) ops).
  Lemma run_alike : forall m ops1 ops2, (length ops1 + length ops2 <= m)%nat -> forall w1 own1 t1 w2 own2 t2,
    alike w1 t1 w2 t2 -> Forall quiet ops1 -> Forall quiet ops2 -> inserts_of ops1 = inserts_of ops2 ->
    alike_res (live_run e grow name w1 own1 t1 ops1) (live_run e grow name w2 own2 t2 ops2).
  Proof.
    induction m as [|m IH]; intros ops1 ops2 L w1 own1 t1 w2 own2 t2 A Q1 Q2 Hn.
    { destruct ops1, ops2; try (cbn in L; lia). exact A. }
    destruct ops1 as [|[bs|a o bs|x a o n s|a o n] ops1].
    - destruct ops2 as [|[bs|a o bs|x a o n s|a o n] ops2]; [exact A| | | |discriminate].
      + apply Forall_cons_iff in Q2. cbn [length] in L. apply (IH [] ops2); try assumption; [cbn; lia|now apply (alike_world w1 _ w2), A|apply Q2].
      + apply Forall_cons_iff in Q2. cbn [length] in L. apply (IH [] ops2); try assumption; [cbn; lia|now apply (alike_world w1 _ w2), A|apply Q2].
      + apply Forall_cons_iff in Q2. now destruct Q2.
    - apply Forall_cons_iff in Q1. cbn [length] in L. apply (IH ops1 ops2); try assumption; [cbn; lia|now apply (alike_world w1 _ w2), A|apply Q1].
    - apply Forall_cons_iff in Q1. cbn [length] in L. apply (IH ops1 ops2); try assumption; [cbn; lia|now apply (alike_world w1 _ w2), A|apply Q1].
    - apply Forall_cons_iff in Q1. now destruct Q1.
    - destruct ops2 as [|[bs|a' o' bs|x a' o' n' s|a' o' n'] ops2]; [discriminate| | | |].
      + apply Forall_cons_iff in Q2. cbn [length] in L. apply (IH (LInsert a o n :: ops1) ops2); try assumption; [cbn; lia|now apply (alike_world w1 _ w2), A|apply Q2].
      + apply Forall_cons_iff in Q2. cbn [length] in L. apply (IH (LInsert a o n :: ops1) ops2); try assumption; [cbn; lia|now apply (alike_world w1 _ w2), A|apply Q2].
      + apply Forall_cons_iff in Q2. now destruct Q2.
      + apply Forall_cons_iff in Q1, Q2. cbn [live_run length] in *. injection Hn as Hn.
        pose proof (insert_alike w1 t1 (piece w1 (nth a own1 0%nat) o n) w2 t2 (piece w2 (nth a' own2 0%nat) o' n') A) as R.
        destruct (live_insert e grow name w1 t1 _) as [[v1 u1]| | |], (live_insert e grow name w2 t2 _) as [[v2 u2]| | |]; try contradiction; cbn [rbind]; try exact I.
        apply (IH ops1 ops2); try assumption; [lia|apply Q1|apply Q2].
  Qed.
End Null.
