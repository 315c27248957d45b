From Coq Require Import NArith ZArith List Arith String Bool Lia.
From Verif Require Import Words WordLemmas ListLemmas HashTableModel HtModel HtSpec HtProofs HtKeys SmhModel SmhSpec.
Import ListNotations.
Open Scope N_scope.
Open Scope list_scope.

(** ** Loops over a shared buffer *)
Lemma each_eq {A} (f : A -> list N -> list (list N) * list N) (g : A -> list (list N)) (I : list N -> Prop) l :
  (forall x b, In x l -> I b -> fst (f x b) = g x /\ I (snd (f x b))) ->
  forall b, I b -> fst (each f l b) = flat_map g l /\ I (snd (each f l b)).
Proof.
  induction l as [|x l IH]; intros H b Hb; cbn [each flat_map]; [auto|].
  destruct (H x b (or_introl eq_refl) Hb) as [E Hb1]. destruct (f x b) as [k1 b1]. cbn [fst snd] in *.
  destruct (IH (fun y c Hy => H y c (or_intror Hy)) b1 Hb1) as [E2 Hb2].
  destruct (each f l b1) as [k2 b2]. cbn [fst snd] in *. subst. auto.
Qed.
(** The same with a buffer that the body restores. *)
Lemma each_same {A} (f : A -> list N -> list (list N) * list N) (g : A -> list (list N)) l b :
  (forall x, In x l -> f x b = (g x, b)) -> each f l b = (flat_map g l, b).
Proof.
  intros H. destruct (each_eq f g (eq b) l) with (b := b) as [E1 E2]; [|reflexivity|].
  - intros x c Hx <-. rewrite (H x Hx). auto.
  - destruct (each f l b) as [k c]. cbn [fst snd] in *. subst. reflexivity.
Qed.

(** ** The hash set *)
Lemma set_of_spec hs : hs_n (set_of hs) = Z.of_nat (List.length hs) /\
  List.length (hs_m (set_of hs)) = distinct hs.
Proof.
  unfold set_of.
  assert (G : forall hs s, NoDup (hs_m s) ->
    hs_n (fold_left add hs s) = (hs_n s + Z.of_nat (List.length hs))%Z /\
    NoDup (hs_m (fold_left add hs s)) /\
    forall x, In x (hs_m (fold_left add hs s)) <-> In x (hs_m s) \/ In x hs).
  { clear. induction hs as [|h hs IH]; intros s N; cbn [fold_left List.length].
    - repeat split; auto; [lia|intros [Q|[]]; exact Q].
    - destruct (IH (add s h)) as (A & B & C); [cbn [add hs_m]; now apply mem_add_nodup|].
      cbn [add hs_n hs_m] in A, C. split; [lia|]. split; [exact B|].
      intros x. rewrite C, mem_add_in. cbn [In]. intuition. }
  destruct (G hs newHashSet (NoDup_nil _)) as (A & B & C). split; [exact A|]. unfold distinct.
  apply Nat.le_antisymm; apply NoDup_incl_length; try assumption; try apply NoDup_nodup; intros x Hx.
  - apply nodup_In. apply C in Hx. destruct Hx as [[]|Hx]; exact Hx.
  - apply C. right. apply nodup_In in Hx. exact Hx.
Qed.
Lemma distinct_le hs : (distinct hs <= List.length hs)%nat.
Proof.
  apply NoDup_incl_length; [apply NoDup_nodup|]. intros x Hx. apply nodup_In in Hx. exact Hx.
Qed.
Lemma distinct_eq hs : distinct hs = List.length hs <-> NoDup hs.
Proof.
  unfold distinct. split; intros H.
  - apply NoDup_incl_NoDup with (l := nodup N.eq_dec hs); [apply NoDup_nodup|lia|].
    intros x Hx. apply nodup_In in Hx. exact Hx.
  - now rewrite nodup_fixed_point.
Qed.
Lemma check_arith c n (L : (0 <= n <= 134217728)%Z) : (0 <= c <= n)%Z ->
  let p := (n * (n - 1) / 2)%Z in let e := (c * 18446744073709551616 - p)%Z in
  ((0 <? e)%Z && (900 * p * 18446744073709551616 <? e * e)%Z)%bool = negb (c =? 0)%Z.
Proof.
  intros Hc p e.
  assert (Hp : (0 <= p <= 9007199254740992)%Z).
  { unfold p. split; [apply Z.div_pos; [destruct (Z.eq_dec n 0) as [->|]; [reflexivity|nia]|lia]|].
    apply Z.div_le_upper_bound; [lia|]. nia. }
  destruct (Z.eqb_spec c 0) as [->|Hz]; cbn [negb].
  - apply andb_false_intro1. apply Z.ltb_ge. unfold e. lia.
  - apply andb_true_intro. split; apply Z.ltb_lt; [unfold e; lia|].
    assert (18437736874454810624 <= e)%Z by (unfold e; lia). clearbody e p. nia.
Qed.
Lemma check_iff hs : (List.length hs <= 2 ^ 27)%nat -> check (set_of hs) = true <-> ~ NoDup hs.
Proof.
  intros L. destruct (set_of_spec hs) as [E1 E2]. unfold check. rewrite E1, E2.
  change (2 ^ 64)%Z with 18446744073709551616%Z.
  assert (L' : (Z.of_nat (List.length hs) <= 134217728)%Z).
  { apply Nat2Z.inj_le in L. rewrite Nat2Z.inj_pow in L. exact L. }
  pose proof (distinct_le hs). rewrite check_arith by lia.
  rewrite <- distinct_eq. rewrite negb_true_iff, Z.eqb_neq. lia.
Qed.
(** Few hashes always stay below the bound, and only the count decides. *)
Lemma NoDup_map_iff {A} (h : A -> N) ks (P : A -> Prop) : enumerates ks P ->
  ~ NoDup (map h ks) <-> collide h P.
Proof.
  intros [ND M]. split.
  - intros H. assert (D : exists x y, In x ks /\ In y ks /\ x <> y /\ h x = h y).
    { clear M. induction ND as [|x l Hx ND IH]; [exfalso; apply H; constructor|].
      cbn [map] in H. destruct (in_dec N.eq_dec (h x) (map h l)) as [I|I].
      - apply in_map_iff in I. destruct I as (y & E & Iy). exists x, y.
        split; [now left|]. split; [now right|]. split; [|now symmetry]. intros ->. contradiction.
      - destruct IH as (a & b & Ia & Ib & R).
        + intros N. apply H. now constructor.
        + exists a, b. split; [now right|]. split; [now right|]. exact R. }
    destruct D as (x & y & Ix & Iy & R). exists x, y. apply M in Ix. apply M in Iy. auto.
  - intros (x & y & Px & Py & Nxy & E) N. apply M in Px. apply M in Py.
    clear M ND. revert N Px Py. induction ks as [|z l IH]; [intros _ []|].
    cbn [map]. intros N [->|Ix] [->|Iy]; apply NoDup_cons_iff in N; destruct N as [Hz N]; try contradiction; auto.
    + apply Hz. rewrite E. now apply in_map.
    + apply Hz. rewrite <- E. now apply in_map.
Qed.
Lemma verdict_iff hf ks P : (List.length ks <= 2 ^ 27)%nat -> enumerates ks P ->
  verdict hf ks = true <-> collide (fun k => hf k 0) P.
Proof.
  intros L E. unfold verdict, BytesHash. rewrite check_iff by now rewrite map_length. now apply NoDup_map_iff.
Qed.

(** ** Bits of byte strings *)
Lemma byte_string_ok k : byte_string k <-> bytes_ok k.
Proof. reflexivity. Qed.
Lemma bits_ext k k' : byte_string k -> byte_string k' -> List.length k = List.length k' ->
  (forall j, (j < 8 * List.length k)%nat -> bit k j = bit k' j) -> k = k'.
Proof.
  intros B B' L H. apply nth_ext with (d := 0) (d' := 0); [exact L|]. intros q Hq.
  apply N.bits_inj. intros t. destruct (N.lt_ge_cases t 8) as [Ht|Ht].
  - specialize (H (8 * q + N.to_nat t)%nat ltac:(lia)). unfold bit in H.
    assert (E1 : ((8 * q + N.to_nat t) / 8 = q)%nat) by (rewrite Nat.mul_comm, Nat.div_add_l by lia; rewrite Nat.div_small; lia).
    assert (E2 : ((8 * q + N.to_nat t) mod 8 = N.to_nat t)%nat) by (rewrite Nat.add_comm, Nat.mul_comm, Nat.mod_add by lia; apply Nat.mod_small; lia).
    rewrite E1, E2, N2Nat.id in H. exact H.
  - rewrite !(fits_high 8); auto.
    + red in B'. rewrite Forall_forall in B'. apply B'. apply nth_In. lia.
    + red in B. rewrite Forall_forall in B. apply B. apply nth_In. exact Hq.
Qed.
Lemma shl1_testbit w i t : N.testbit (shlw w 1 i) t = (t =? i) && (t <? w).
Proof.
  rewrite shlw_testbit. destruct (N.eqb_spec t i) as [->|E]; cbn [andb].
  - rewrite N.leb_refl, N.sub_diag, andb_true_r. now destruct (i <? w).
  - destruct (N.leb_spec i t) as [L|L]; [|now rewrite andb_false_r].
    assert (exists m, t - i = N.succ m) as [m ->] by (exists (t - i - 1); lia).
    rewrite N.testbit_succ_r_div2 by lia. change (N.div2 1) with 0. rewrite N.bits_0. apply andb_false_r.
Qed.
Lemma land7 j : N.land (N.of_nat j) 7 = N.of_nat (j mod 8).
Proof. change 7 with (N.ones 3). rewrite N.land_ones. change (2 ^ 3) with (N.of_nat 8). now rewrite Nat2N.inj_mod. Qed.
Lemma set_nth_bytes i x k : byte_string k -> x < 256 -> byte_string (set_nth i x k).
Proof.
  intros B Hx. revert i. induction B as [|c k Hc B IH]; intros [|i]; cbn [set_nth]; constructor; auto. apply IH.
Qed.
Lemma nth_byte k i : byte_string k -> nth i k 0 < 256.
Proof.
  intros B. destruct (Nat.lt_ge_cases i (List.length k)) as [L|L].
  - red in B. rewrite Forall_forall in B. apply B. now apply nth_In.
  - rewrite nth_overflow by exact L. reflexivity.
Qed.
(** Changing byte [j/8] by a function that acts on bit [j mod 8] alone. *)
Lemma bit_update k j f : byte_string k -> (j < 8 * List.length k)%nat ->
  forall x, x < 256 ->
  (forall t, t < 8 -> N.testbit x t = if t =? N.of_nat (j mod 8) then f (N.testbit (nth (j / 8) k 0) t) else N.testbit (nth (j / 8) k 0) t) ->
  List.length (set_nth (j / 8) x k) = List.length k /\ byte_string (set_nth (j / 8) x k) /\
  forall i, bit (set_nth (j / 8) x k) i = if Nat.eqb i j then f (bit k j) else bit k i.
Proof.
  intros B L x Hx H. split; [apply HtProofs.set_nth_length|]. split; [now apply set_nth_bytes|].
  assert (Lj : (j / 8 < List.length k)%nat) by (apply Nat.div_lt_upper_bound; lia).
  intros i. unfold bit. rewrite nth_set_nth by exact Lj.
  pose proof (Nat.div_mod i 8 ltac:(lia)) as Ei. pose proof (Nat.div_mod j 8 ltac:(lia)) as Ej.
  pose proof (Nat.mod_upper_bound i 8 ltac:(lia)) as Mi.
  destruct (Nat.eqb_spec (i / 8) (j / 8)) as [E|E].
  - rewrite H by lia. rewrite E.
    destruct (Nat.eqb_spec i j) as [->|Nij].
    + rewrite N.eqb_refl. reflexivity.
    + destruct (N.eqb_spec (N.of_nat (i mod 8)) (N.of_nat (j mod 8))) as [E'|E']; [|reflexivity].
      exfalso. apply Nij. apply Nat2N.inj in E'. lia.
  - destruct (Nat.eqb_spec i j) as [->|]; [congruence|reflexivity].
Qed.
