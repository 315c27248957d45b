(** Which keys the self-made tests insert, and what a table does with keys of different homes. *)
From Coq Require Import NArith ZArith List Arith Lia String Bool Permutation.
From Verif Require Import Words WordLemmas Mem ListLemmas KeccakModel HashfModel HashfSpec HashTableModel HashTableSpec HashTableProofs
  LiveModel LiveSpec HtModel HtSpec HtKeys TestMemModel.
Import ListNotations.
Open Scope N_scope.
Notation length := List.length.

(** ** Programs in pieces *)
Definition mem_after (ms : list (list N)) (ops : list lop) : list (list N) := fold_left lop_mem ops ms.
Lemma keys_of_app a : forall ms b, keys_of ms (a ++ b) = keys_of ms a ++ keys_of (mem_after ms a) b.
Proof. induction a as [|op a IH]; intros ms b; [reflexivity|]. destruct op; cbn [app keys_of mem_after fold_left lop_mem]; rewrite IH; reflexivity. Qed.
Lemma lops_ok_app a : forall ms b, lops_ok ms (a ++ b) <-> lops_ok ms a /\ lops_ok (mem_after ms a) b.
Proof. induction a as [|op a IH]; intros ms b; cbn [app lops_ok mem_after fold_left]; [tauto|]. rewrite IH. unfold mem_after. tauto. Qed.
Lemma all_hash_app e name seed a : forall ms b, all_hash e name seed ms (a ++ b) <-> all_hash e name seed ms a /\ all_hash e name seed (mem_after ms a) b.
Proof. induction a as [|op a IH]; intros ms b; [cbn; tauto|]. destruct op; cbn [app all_hash mem_after fold_left lop_mem]; rewrite IH; unfold mem_after; tauto. Qed.

(** A loop whose body, from any memory satisfying [J], inserts certain keys and ends in such a memory. *)
Section Loop.
  Variable e : ext.
  Variable name : string.
  Variable seed : N.
  Definition body (J : list (list N) -> Prop) (ops : list lop) (ks : list key) : Prop :=
    forall ms, J ms -> J (mem_after ms ops) /\ keys_of ms ops = ks /\ lops_ok ms ops /\
      (all_hash e name seed ms ops <-> forall k, In k ks -> hashes e name k seed).
  Lemma body_app J a b ka kb : body J a ka -> body J b kb -> body J (a ++ b) (ka ++ kb).
  Proof.
    intros A B ms Hm. destruct (A ms Hm) as (A1 & A2 & A3 & A4). destruct (B _ A1) as (B1 & B2 & B3 & B4).
    unfold mem_after in *. rewrite fold_left_app. split; [exact B1|]. split; [rewrite keys_of_app; unfold mem_after; congruence|].
    split; [rewrite lops_ok_app; auto|]. rewrite all_hash_app. unfold mem_after. rewrite A4, B4. split.
    - intros [X Y] k Hk. apply in_app_or in Hk. destruct Hk; auto.
    - intros X. split; intros k Hk; apply X, in_or_app; auto.
  Qed.
  Lemma body_nil J : body J [] [].
  Proof. intros ms Hm. repeat split; auto. intros _ k []. Qed.
  Lemma body_flat {X} J (f : X -> list lop) (g : X -> list key) l : (forall x, In x l -> body J (f x) (g x)) -> body J (flat_map f l) (flat_map g l).
  Proof.
    induction l as [|x l IH]; intros H; [apply body_nil|]. cbn [flat_map]. apply body_app; [apply H; left; reflexivity|].
    apply IH. intros y Hy. apply H. right. exact Hy.
  Qed.

  Lemma byte_ok1 x : x < 256 -> bytes_ok [x].
  Proof. intros H. constructor; [exact H|constructor]. Qed.
  Lemma wrap8_lt x : wrap 8 x < 256.
  Proof. exact (wrap_fits 8 x). Qed.

  (** ** TestI *)
  Lemma int_key_ok i : bytes_ok (int_key i) /\ length (int_key i) = 4%nat.
  Proof. split; [|reflexivity]. unfold int_key. cbn [map]. repeat constructor; apply wrap8_lt. Qed.
  Lemma testI_body ni : body (fun ms => exists b, ms = [b] /\ length b = 4%nat)
    (flat_map (fun i => [LAssign 0 0 (int_key i); LInsert 0 0 4]) (seq 0 ni)) (map int_key (seq 0 ni)).
  Proof.
    replace (map int_key (seq 0 ni)) with (flat_map (fun i => [int_key i]) (seq 0 ni)) by (induction (seq 0 ni) as [|x l IH]; [reflexivity|cbn [flat_map map app]; now rewrite IH]).
    apply body_flat. intros i _ ms (b & -> & Hb). destruct (int_key_ok i) as [K1 K2].
    assert (S : store [b] 0 0 (int_key i) = [int_key i]).
    { destruct b as [|b0 [|b1 [|b2 [|b3 [|b4 b]]]]]; cbn [length] in Hb; try lia. reflexivity. }
    assert (R : LiveSpec.bytes_of [int_key i] 0 0 4 = int_key i) by reflexivity.
    cbn [mem_after fold_left lop_mem keys_of lops_ok lop_ok all_hash]. rewrite S, R. repeat split; auto; try (exists (int_key i); auto); try (rewrite K2; cbn; lia); try (cbn; lia).
    - intros [X _] k [<-|[]]. exact X.
    - apply H. left. reflexivity.
  Qed.
  Lemma testI_whole ni : keys_of [] (testI_ops ni) = keysI ni /\ lops_ok [] (testI_ops ni) /\
    (all_hash e name seed [] (testI_ops ni) <-> forall k, In k (keysI ni) -> hashes e name k seed).
  Proof.
    unfold testI_ops, keysI. set (m := Z.to_nat ni). cbn [keys_of lops_ok all_hash lop_mem lop_ok app].
    destruct (testI_body m [repeat 0 4]) as (_ & B & C & D); [exists (repeat 0 4); auto|].
    split; [exact B|]. split; [split; [repeat constructor|exact C]|exact D].
  Qed.

  (** ** TestJ *)
  Lemma store_set b k x : (k < length b)%nat -> store [b] 0 k [x] = [set_nth k x b].
  Proof.
    intros H. unfold store, array. cbn [nth]. unfold upd. cbn. f_equal. revert k H. induction b as [|y b IH]; intros [|k] H; cbn [length] in H; try lia; [reflexivity|].
    cbn [firstn set_nth app Nat.add skipn]. f_equal. apply IH. lia.
  Qed.
  Lemma whole_buffer b n : length b = n -> LiveSpec.bytes_of [b] 0 0 n = b.
  Proof. intros <-. unfold LiveSpec.bytes_of. cbn [nth skipn]. apply firstn_all. Qed.
  Lemma testJ_body n : N.of_nat n < 2 ^ 64 -> body (fun ms => ms = [zeros n])
    (flat_map (fun k => flat_map (fun i => [LAssign 0 k [shlw 8 1 (N.of_nat i)]; LInsert 0 0 n; LAssign 0 k [0]]) (seq 0 8)) (seq 0 n)) (march n).
  Proof.
    intros Hn. rewrite march_eq. apply body_flat. intros k Hk. apply in_seq in Hk.
    replace (map (fun i => set_nth k (shlw 8 1 (N.of_nat i)) (zeros n)) (seq 0 8))
      with (flat_map (fun i => [set_nth k (shlw 8 1 (N.of_nat i)) (zeros n)]) (seq 0 8)) by reflexivity.
    apply body_flat. intros i _ ms ->. set (x := shlw 8 1 (N.of_nat i)).
    assert (Lz : length (zeros n) = n) by apply repeat_length.
    assert (Ls : length (set_nth k x (zeros n)) = n) by now rewrite set_nth_length.
    assert (Hx : x < 256) by (unfold x, shlw; apply wrap8_lt).
    cbn [mem_after fold_left lop_mem keys_of lops_ok lop_ok all_hash].
    rewrite store_set by lia. rewrite store_set by lia. rewrite whole_buffer by exact Ls. rewrite set_nth_zeros by lia.
    repeat split; auto; cbn [length nth]; try lia; try (now apply byte_ok1).
    - intros [X _] k' [<-|[]]. exact X.
    - apply H. left. reflexivity.
  Qed.
  Lemma testJ_whole n : N.of_nat n < 2 ^ 64 -> keys_of [] (testJ_ops n) = march n /\ lops_ok [] (testJ_ops n) /\
    (all_hash e name seed [] (testJ_ops n) <-> forall k, In k (march n) -> hashes e name k seed).
  Proof.
    intros Hn. unfold testJ_ops. cbn [keys_of lops_ok all_hash lop_mem lop_ok app].
    destruct (testJ_body n Hn [repeat 0 n]) as (_ & B & C & D); [reflexivity|].
    split; [exact B|]. split; [split; [|exact C]|exact D]. unfold bytes_ok. apply Forall_forall. intros x Hx. apply repeat_spec in Hx. subst x. reflexivity.
  Qed.

  (** ** TestL *)
  Hypothesis Hs : seed < 2 ^ 64.
  Lemma testL_body n : (n <= 256)%nat -> body (fun ms => exists b, ms = [b] /\ length b = 3%nat)
    (flat_map (fun i => flat_map (fun j => flat_map (fun k =>
      [LAssign 0 0 [wrap 8 (N.of_nat i)]; LAssign 0 1 [wrap 8 (N.of_nat j)]; LAssign 0 2 [wrap 8 (N.of_nat k)];
       LHash name 0 0 3 seed; LInsert 0 0 3]) (seq 0 n)) (seq 0 n)) (seq 0 n)) (triples n).
  Proof.
    intros Hn. unfold triples. apply body_flat. intros i Hi. apply body_flat. intros j Hj.
    replace (map (fun k => [N.of_nat i; N.of_nat j; N.of_nat k]) (seq 0 n)) with (flat_map (fun k => [[N.of_nat i; N.of_nat j; N.of_nat k]]) (seq 0 n))
      by (generalize (seq 0 n); intros l; induction l as [|x l IH]; [reflexivity|cbn [flat_map map app]; now rewrite IH]).
    apply body_flat. intros k Hk ms (b & -> & Hb). apply in_seq in Hi. apply in_seq in Hj. apply in_seq in Hk.
    assert (W : forall x, (x < 256)%nat -> wrap 8 (N.of_nat x) = N.of_nat x) by (intros x Hx; apply wrap_small; unfold fits; change (2 ^ 8) with 256; lia).
    rewrite !W by lia. destruct b as [|b0 [|b1 [|b2 [|b3 b]]]]; cbn [length] in Hb; try lia.
    cbn [mem_after fold_left lop_mem keys_of lops_ok lop_ok all_hash].
    rewrite store_set by (cbn [length]; lia). cbn [set_nth]. rewrite store_set by (cbn [length]; lia). cbn [set_nth].
    rewrite store_set by (cbn [length]; lia). cbn [set_nth].
    rewrite whole_buffer by reflexivity. cbn [length nth].
    assert (E : (3 < 2 ^ 64)%N) by reflexivity.
    repeat split; auto; try lia; try (apply byte_ok1; lia); try exact E; try (eexists; split; reflexivity).
    - intros [X _] k' [<-|[]]. exact X.
    - apply H. left. reflexivity.
    - apply H. left. reflexivity.
  Qed.
  Lemma testL_whole n : (n <= 256)%nat -> keys_of [] (testL_ops name seed n) = triples n /\ lops_ok [] (testL_ops name seed n) /\
    (all_hash e name seed [] (testL_ops name seed n) <-> forall k, In k (triples n) -> hashes e name k seed).
  Proof.
    intros Hn. unfold testL_ops. cbn [keys_of lops_ok all_hash lop_mem lop_ok app].
    destruct (testL_body n Hn [repeat 0 3]) as (_ & B & C & D); [eexists; split; reflexivity|].
    split; [exact B|]. split; [split; [repeat constructor|exact C]|exact D].
  Qed.
End Loop.

(** ** Keys with homes of their own *)
Record alone (hf : key -> N) (ks : list key) (t : table) : Prop := {
  a_shape : table_shape t;
  a_key : forall k, In k ks -> nth_error (buckets t) (N.to_nat (home (is_prime t) (size t) (hf k))) = Some [k];
  a_rest : forall j b, nth_error (buckets t) j = Some b -> b = [] \/ exists k, In k ks /\ j = N.to_nat (home (is_prime t) (size t) (hf k));
  a_st : st t = mkStats (N.of_nat (length ks)) 0 (N.of_nat (length ks)) (N.of_nat (length ks)) 0 0 0 }.
Lemma home_below prime s h : 1 <= s -> home prime s h < s.
Proof.
  intros H. unfold home. destruct prime; [apply N.mod_lt; lia|].
  pose proof (N.ldiff_le (s - 1) h) as L.
  assert (E : N.land h (s - 1) = s - 1 - N.ldiff (s - 1) h).
  { rewrite N.land_comm. pose proof (N.lor_ldiff_and (s - 1) h) as A.
    pose proof (N.add_nocarry_lxor (N.ldiff (s - 1) h) (N.land (s - 1) h)) as B.
    assert (D : N.land (N.ldiff (s - 1) h) (N.land (s - 1) h) = 0).
    { apply N.bits_inj. intros i. rewrite !N.land_spec, N.ldiff_spec, N.bits_0. destruct (N.testbit (s - 1) i), (N.testbit h i); reflexivity. }
    specialize (B D). rewrite N.lxor_lor in B by exact D. rewrite A in B. lia. }
  lia.
Qed.
Lemma alone_insert hf ks t k : alone hf ks t -> (forall k', In k' ks -> home (is_prime t) (size t) (hf k') <> home (is_prime t) (size t) (hf k)) ->
  exists t', insert hf t k = Ret t' /\ alone hf (ks ++ [k]) t' /\ size t' = size t /\ is_prime t' = is_prime t.
Proof.
  intros [Sh K R S] H. pose proof Sh as (S1 & S2 & S3 & S4). unfold insert.
  replace (is_prime t && (size t =? 0)) with false by (symmetry; apply andb_false_iff; right; apply N.eqb_neq; lia).
  rewrite index_of_home by exact Sh. set (j := N.to_nat (home (is_prime t) (size t) (hf k))).
  assert (Lj : (j < length (buckets t))%nat) by (rewrite S3; pose proof (home_below (is_prime t) (size t) (hf k) S1); unfold j; lia).
  assert (Ej : nth_error (buckets t) j = Some []).
  { destruct (nth_error (buckets t) j) as [b|] eqn:E; [|apply nth_error_None in E; lia].
    destruct (R j b E) as [->|(k' & Hk & Ej)]; [reflexivity|]. exfalso. apply (H k' Hk). unfold j in Ej. lia. }
  unfold enough_fuel. rewrite Nat.add_comm. cbn [Nat.add insert_loop with_stats buckets]. rewrite Ej.
  eexists. split; [reflexivity|]. split; [|split; reflexivity].
  constructor; cbn [with_bucket with_stats buckets size is_prime st].
  - unfold table_shape. cbn [with_bucket with_stats buckets size size_mask]. rewrite set_nth_length. auto.
  - intros k' Hk. apply in_app_or in Hk. destruct Hk as [Hk|[<-|[]]].
    + rewrite set_nth_other; [now apply K|]. intros E. apply (H k' Hk). unfold j in E. lia.
    + now apply set_nth_same.
  - intros i b Hb. destruct (Nat.eq_dec i j) as [->|Ne].
    + right. exists k. split; [apply in_or_app; right; left; reflexivity|reflexivity].
    + rewrite set_nth_other in Hb by congruence. destruct (R i b Hb) as [->|(k' & Hk & E)]; [left; reflexivity|].
      right. exists k'. split; [apply in_or_app; left; exact Hk|exact E].
  - rewrite S. unfold bump_head. cbn [inserts cols probes heads dups nbuckets longest]. rewrite app_length. cbn [length].
    rewrite Nat2N.inj_add. reflexivity.
Qed.
Lemma alone_all hf : forall more ks t, alone hf ks t -> NoDup (map (fun k => home (is_prime t) (size t) (hf k)) (ks ++ more)) ->
  exists t', insert_all hf t more = Ret t' /\ alone hf (ks ++ more) t' /\ size t' = size t /\ is_prime t' = is_prime t.
Proof.
  induction more as [|k more IH]; intros ks t A ND.
  - exists t. rewrite app_nil_r. auto.
  - destruct (alone_insert hf ks t k A) as (t1 & E1 & A1 & Z1 & P1).
    { intros k' Hk E. rewrite map_app in ND. cbn [map] in ND. apply NoDup_remove_2 in ND. apply ND, in_or_app. left.
      rewrite <- E. now apply (in_map (fun k => home (is_prime t) (size t) (hf k))). }
    cbn [insert_all]. rewrite E1. destruct (IH (ks ++ [k]) t1 A1) as (t2 & E2 & A2 & Z2 & P2).
    { rewrite P1, Z1, <- app_assoc. exact ND. }
    exists t2. rewrite <- app_assoc in A2. split; [exact E2|]. split; [exact A2|]. split; congruence.
Qed.
Lemma alone_new hf np sz extra oa prime ks : let t0 := new_table np sz extra oa prime in
  1 <= size t0 -> fits 64 (size t0) -> NoDup (map (fun k => home prime (size t0) (hf k)) ks) ->
  exists t, insert_all hf t0 ks = Ret t /\ alone hf ks t /\ size t = size t0 /\ is_prime t = prime.
Proof.
  intros t0 H1 H2 ND.
  assert (Pr : is_prime t0 = prime) by (unfold t0, new_table; destruct (table_size np sz extra prime); reflexivity).
  assert (A : alone hf [] t0).
  { pose proof (new_table_shape np sz extra oa prime H1 H2) as Sh. fold t0 in Sh. constructor; [exact Sh|intros k []| |].
    - intros j b Hb. left. unfold t0, new_table in Hb. destruct (table_size np sz extra prime) as [lg s]. cbn [buckets] in Hb.
      apply nth_error_In, repeat_spec in Hb. exact Hb.
    - unfold t0, new_table. destruct (table_size np sz extra prime). reflexivity. }
  destruct (alone_all hf ks [] t0 A) as (t & E & A' & Z & P); [rewrite Pr; exact ND|].
  exists t. rewrite Pr in P. auto.
Qed.

(** ** No two equal hashes *)
Lemma pairs_zero hf ks : NoDup ks -> (forall a b, In a ks -> In b ks -> hf a = hf b -> a = b) -> equal_hash_pairs hf ks = 0.
Proof.
  intros N. induction N as [|k ks Hk N IH]; intros I; [reflexivity|]. cbn [equal_hash_pairs].
  rewrite IH by (intros a b Ha Hb; apply I; right; assumption).
  replace (filter (fun k' => hf k' =? hf k) ks) with (@nil key); [reflexivity|]. symmetry.
  assert (F : forall x, In x ks -> (hf x =? hf k) = false).
  { intros x Hx. apply N.eqb_neq. intros E. apply I in E; [|right; exact Hx|left; reflexivity]. subst x. contradiction. }
  clear - F. induction ks as [|x ks IH]; [reflexivity|]. cbn [filter]. rewrite F by (left; reflexivity). apply IH. intros y Hy. apply F. right. exact Hy.
Qed.
Lemma pairs_pos hf ks a b : In a ks -> In b ks -> a <> b -> hf a = hf b -> 1 <= equal_hash_pairs hf ks.
Proof.
  intros Ha Hb Ne E. induction ks as [|k ks IH]; [destruct Ha|]. cbn [equal_hash_pairs].
  assert (C : forall x, In x ks -> hf x = hf k -> 1 <= N.of_nat (length (filter (fun k' => hf k' =? hf k) ks))).
  { intros x Hx Ex. assert (I : In x (filter (fun k' => hf k' =? hf k) ks)) by (apply filter_In; split; [exact Hx|now apply N.eqb_eq]).
    destruct (filter _ ks); [destruct I|]. cbn [length]. lia. }
  destruct Ha as [<-|Ha], Hb as [<-|Hb]; [congruence| | |].
  - pose proof (C b Hb (eq_sym E)). lia.
  - pose proof (C a Ha E). lia.
  - pose proof (IH Ha Hb). lia.
Qed.
