(** Proofs about JexModel: whole runs. *)
From Coq Require Import NArith ZArith List Arith Bool Lia.
From Verif Require Import Words WordLemmas ListLemmas Mem HashTableModel JenkinsModel JenkinsSpec JenkinsProofs JenkinsProps JexModel JexSpec JexProofs.
Import ListNotations.
Open Scope N_scope.
Open Scope list_scope.

Lemma find_seq f : forall r t, match find f (seq t r) with
  | Some s => (t <= s < t + r)%nat /\ f s = true /\ forall u, (t <= u < s)%nat -> f u = false
  | None => forall u, (t <= u < t + r)%nat -> f u = false
  end.
Proof.
  induction r as [|r IH]; intros t; cbn [seq find]; [intros; lia|]. destruct (f t) eqn:F.
  - split; [lia|]. split; [exact F|]. intros; lia.
  - specialize (IH (S t)). destruct (find f (seq (S t) r)) as [s|].
    + destruct IH as (A & B & C). split; [lia|]. split; [exact B|]. intros u Hu. destruct (Nat.eq_dec u t) as [->|D]; [exact F|]. apply C. lia.
    + intros u Hu. destruct (Nat.eq_dec u t) as [->|D]; [exact F|]. apply IH. lia.
Qed.
(** Number of the first trial after which a case is mixed. *)
Definition need (hlen : nat) (c : nat * N * N) : option nat :=
  let '(i, j, m) := c in find (fun s => finished (after hlen i j m (S s))) (seq 0 (N.to_nat 3011)).
Definition case_ok (hlen : nat) (c : nat * N * N) : Prop := let '(i, j, m) := c in tested hlen i j m.
Lemma sweep_ok hlen : (hlen < 70)%nat -> forall l z a b, Forall (case_ok hlen) l -> z < MAXPAIR -> shaped hlen a -> shaped hlen b ->
  exists z' out a' b', sweep hlen l z a b = Ok (z', out, (a', b')) /\ shaped hlen a' /\ shaped hlen b' /\
  (Forall (fun c => exists t, need hlen c = Some t /\ 2 * N.of_nat t <= z') l /\ out = [] /\ z' < MAXPAIR /\ z <= z' /\
     (z' = z \/ exists c t, In c l /\ need hlen c = Some t /\ z' = 2 * N.of_nat t) \/
   z' = MAXPAIR /\ exists l1 i j m l2, l = l1 ++ (i, j, m) :: l2 /\ Forall (fun c => need hlen c <> None) l1 /\ need hlen (i, j, m) = None /\
     out = [Stuck (after hlen i j m (N.to_nat 3011)) i j m hlen]).
Proof.
  intros Hl. induction l as [|((i & j) & m) l IH]; intros z a b C Hz A B.
  - exists z, [], a, b. split; [reflexivity|]. split; [exact A|]. split; [exact B|]. left. repeat split; auto; try lia.
  - inversion C as [|? ? C1 C2]; subst. cbn [sweep].
    destruct (trials_from hlen i j m C1 Hl (N.to_nat 3011) 0 (S (N.to_nat MAXPAIR)) a b) as (a' & b' & A' & B' & E); [lia|unfold MAXPAIR; lia|exact A|exact B|].
    change (2 * N.of_nat 0) with 0 in E. change (after hlen i j m 0) with fresh in E. rewrite E. cbn [rbind].
    assert (Nd : need hlen (i, j, m) = find (fun s => finished (after hlen i j m (S s))) (seq 0 (N.to_nat 3011))) by reflexivity.
    rewrite <- Nd. pose proof (find_seq (fun s => finished (after hlen i j m (S s))) (N.to_nat 3011) 0) as F. rewrite <- Nd in F.
    destruct (need hlen (i, j, m)) as [t|] eqn:Nt.
    + destruct F as (Ht & _ & _). assert (Kt : 2 * N.of_nat t < MAXPAIR) by (unfold MAXPAIR; lia).
      cbv zeta. replace (2 * N.of_nat t =? MAXPAIR) with false by (symmetry; apply N.eqb_neq; lia).
      set (z1 := if z <? 2 * N.of_nat t then 2 * N.of_nat t else z).
      assert (Z1 : z1 < MAXPAIR /\ z <= z1 /\ 2 * N.of_nat t <= z1 /\ (z1 = z \/ z1 = 2 * N.of_nat t)).
      { unfold z1. destruct (N.ltb_spec z (2 * N.of_nat t)); repeat split; auto; lia. }
      destruct Z1 as (Z1 & Z2 & Z3 & Z4). replace (z1 =? MAXPAIR) with false by (symmetry; apply N.eqb_neq; lia).
      destruct (IH z1 a' b' C2 Z1 A' B') as (z' & out & a2 & b2 & Q & A2 & B2 & R). rewrite Q. cbn [rbind app].
      exists z', out, a2, b2. split; [reflexivity|]. split; [exact A2|]. split; [exact B2|].
      destruct R as [(R1 & R2 & R3 & R4 & R5)|(R1 & l1 & i' & j' & m' & l2 & R2 & R3 & R4 & R5)].
      * left. split; [constructor; [exists t; split; [exact Nt|lia]|exact R1]|]. split; [exact R2|]. split; [exact R3|]. split; [lia|].
        destruct R5 as [R5|(c & t' & I & N1 & N2)]; [|right; exists c, t'; split; [now right|auto]].
        destruct Z4 as [Z4|Z4]; [left; congruence|]. right. exists (i, j, m), t. split; [now left|]. split; [exact Nt|congruence].
      * right. split; [exact R1|]. exists ((i, j, m) :: l1), i', j', m', l2. split; [cbn [app]; now rewrite R2|].
        split; [constructor; [rewrite Nt; discriminate|exact R3]|auto].
    + cbv zeta. replace (z <? MAXPAIR) with true by (symmetry; now apply N.ltb_lt). rewrite N.eqb_refl.
      exists MAXPAIR. eexists. exists a', b'. split; [reflexivity|]. split; [exact A'|]. split; [exact B'|]. right. split; [reflexivity|].
      exists [], i, j, m, l. split; [reflexivity|]. split; [constructor|]. split; [exact Nt|]. reflexivity.
Qed.
Lemma in_cases hlen i j m : In (i, j, m) (cases hlen) <-> tested hlen i j m.
Proof.
  unfold cases, tested. rewrite in_flat_map. split.
  - intros (x & Hx & I). apply in_seq in Hx. apply in_flat_map in I. destruct I as (y & Hy & I). apply in_map_iff in I. destruct I as (w & E & Hw).
    injection E as <- <- <-. cbn [In] in Hy, Hw. lia.
  - intros (Hi & Hj & Hm). exists i. split; [apply in_seq; lia|]. apply in_flat_map. exists j. split.
    + cbn [In]. assert (j = 0 \/ j = 1 \/ j = 2 \/ j = 3 \/ j = 4 \/ j = 5 \/ j = 6 \/ j = 7) by lia. intuition.
    + apply in_map_iff. exists m. split; [reflexivity|]. cbn [In]. assert (m = 1 \/ m = 2 \/ m = 3 \/ m = 4 \/ m = 5 \/ m = 6 \/ m = 7) by lia. intuition.
Qed.
Lemma cases_ok hlen : Forall (case_ok hlen) (cases hlen).
Proof. apply Forall_forall. intros ((i & j) & m) I. now apply in_cases. Qed.
Lemma need_some hlen i j m t : need hlen (i, j, m) = Some t ->
  (N.of_nat t < 3011) /\ mixed hlen i j m (S t) /\ forall s, (s <= t)%nat -> ~ mixed hlen i j m s.
Proof.
  intros E. pose proof (find_seq (fun s => finished (after hlen i j m (S s))) (N.to_nat 3011) 0) as F.
  change (find _ _) with (need hlen (i, j, m)) in F. rewrite E in F. destruct F as (L & F & G). split; [lia|]. split; [now apply finished_after|].
  intros s Hs M. destruct s as [|s].
  - destruct (M 0 true eq_refl) as ((s & Hs' & _) & _). lia.
  - apply finished_after in M. rewrite G in M; [discriminate|lia].
Qed.
Lemma need_none hlen i j m : need hlen (i, j, m) = None -> forall s, N.of_nat s <= 3011 -> ~ mixed hlen i j m s.
Proof.
  intros E s Hs M. pose proof (find_seq (fun s => finished (after hlen i j m (S s))) (N.to_nat 3011) 0) as F.
  change (find _ _) with (need hlen (i, j, m)) in F. rewrite E in F. destruct s as [|s].
  - destruct (M 0 true eq_refl) as ((s & Hs' & _) & _). lia.
  - apply finished_after in M. rewrite F in M; [discriminate|lia].
Qed.

(** What is said about a length. *)
Definition faithful (hlen : nat) (out : list line) : Prop :=
  (exists n, out = [Mixed hlen (if Nat.eqb hlen 0 then 0 else 8) n] /\
     (forall i j m, tested hlen i j m -> mixed hlen i j m (S (N.to_nat n))) /\
     ((hlen > 0)%nat -> exists i j m, tested hlen i j m /\ ~ mixed hlen i j m (N.to_nat n)) /\ n < 3011 /\ (hlen = 0%nat -> n = 0)) \/
  (exists l1 i j m l2, cases hlen = l1 ++ (i, j, m) :: l2 /\ out = [Stuck (after hlen i j m (N.to_nat 3011)) i j m hlen] /\
     ~ mixed hlen i j m (N.to_nat 3011) /\ (forall i' j' m', In (i', j', m') l1 -> mixed hlen i' j' m' (N.to_nat 3011))).
Lemma mixed_more hlen i j m s t : (s <= t)%nat -> mixed hlen i j m s -> mixed hlen i j m t.
Proof.
  intros L M p v Hp. destruct (M p v Hp) as ((a & Ha & A) & (b & Hb & B) & (c & Hc & C)).
  split; [exists a|split; [exists b|exists c]]; (split; [lia|assumption]).
Qed.
Lemma round_ok hlen a b : (hlen < 70)%nat -> shaped hlen a -> shaped hlen b ->
  exists out a' b', round hlen a b = Ok (out, (a', b')) /\ shaped hlen a' /\ shaped hlen b' /\ faithful hlen out.
Proof.
  intros Hl A B. unfold round.
  destruct (sweep_ok hlen Hl (cases hlen) 0 a b (cases_ok hlen) eq_refl A B) as (z & out & a' & b' & E & A' & B' & R). rewrite E. cbn [rbind].
  eexists. exists a', b'. split; [reflexivity|]. split; [exact A'|]. split; [exact B'|].
  destruct R as [(R1 & -> & R3 & _ & R5)|(-> & l1 & i & j & m & l2 & R2 & R3 & R4 & ->)].
  - left. replace (z <? MAXPAIR) with true by (symmetry; now apply N.ltb_lt). exists (z / 2). split; [reflexivity|]. rewrite Forall_forall in R1.
    split; [|split; [|split]].
    + intros i j m T. apply in_cases in T. destruct (R1 _ T) as (t & Et & Lt). apply need_some in Et. destruct Et as (_ & M & _).
      apply mixed_more with (S t); [|exact M]. apply le_n_S. apply N.div_le_mono with (c := 2) in Lt; [|discriminate].
      rewrite N.mul_comm, N.div_mul in Lt by discriminate. lia.
    + intros H0. destruct R5 as [R5|(((i & j) & m) & t & I & Et & R5)].
      * subst z. assert (T : tested hlen 0 0 1) by (unfold tested; lia). exists 0%nat, 0, 1. split; [exact T|]. intros M.
        change (N.to_nat (0 / 2)) with 0%nat in M. destruct (M 0 true eq_refl) as ((s & Hs & _) & _). lia.
      * exists i, j, m. split; [now apply in_cases|]. subst z. rewrite N.mul_comm, N.div_mul by discriminate. rewrite Nat2N.id.
        apply need_some in Et. destruct Et as (_ & _ & F). apply F. lia.
    + apply N.div_lt_upper_bound; [discriminate|]. exact R3.
    + intros ->. destruct R5 as [->|(c & t & I & _)]; [reflexivity|destruct I].
  - right. exists l1, i, j, m, l2. split; [exact R2|]. split; [now rewrite N.ltb_irrefl|]. split; [apply need_none; [exact R4|lia]|].
    intros i' j' m' I. rewrite Forall_forall in R3. specialize (R3 _ I). destruct (need hlen (i', j', m')) as [t|] eqn:Et; [|congruence].
    apply need_some in Et. destruct Et as (L & M & _). apply mixed_more with (S t); [lia|exact M].
Qed.
Lemma rounds_ok : forall r n a b, (n + r <= 70)%nat -> shaped n a -> shaped n b ->
  exists outs, rounds (seq n r) a b = Ok outs /\ length outs = r /\ forall l, (l < r)%nat -> faithful (n + l) (nth l outs []).
Proof.
  induction r as [|r IH]; intros n a b L A B; cbn [seq rounds]; [exists []; split; [reflexivity|]; split; [reflexivity|intros; lia]|].
  destruct (round_ok n a b) as (out & a' & b' & E & A' & B' & F); [lia|exact A|exact B|]. rewrite E. cbn [rbind].
  destruct (IH (S n) a' b') as (outs & E2 & L2 & F2); [lia|now apply shaped_more with n; [lia|]|now apply shaped_more with n; [lia|]|].
  rewrite E2. cbn [rbind]. exists (out :: outs). split; [reflexivity|]. split; [cbn [length]; now rewrite L2|].
  intros [|l] Hl; cbn [nth]; [now rewrite Nat.add_0_r|]. replace (n + S l)%nat with (S n + l)%nat by lia. apply F2. lia.
Qed.
