(** Single tests of the command: the program on memory prints what the specification says. *)
From Coq Require Import NArith ZArith List Arith Lia String Bool.
From Verif Require Import Words WordLemmas Mem ListLemmas KeccakModel KeccakProofs3 KeccakProofs4 KeccakProofs5 HashfModel HashfSpec HashfProofs HashfProps
  HashTableModel HashTableProofs LiveModel LiveSpec LiveProofs LiveProofs2 LiveProofs3 LiveProofs5 LiveProps HtModel HtSpec HtProofs HtKeys HtRuns
  TestMemModel TestMemProofs RunSpec RunProofs4 RunProofs5 HtMainModel HtMainSpec.
Import ListNotations.
Open Scope N_scope.
Notation length := List.length.

(** ** Programs with a table, keeping the hashes *)
Definition steady (op : lop) : Prop := match op with LHash other _ _ _ _ => counter other = false | _ => True end.
Fixpoint told (e : ext) (ms : list (list N)) (ops : list lop) : list N :=
  match ops with
  | [] => []
  | LHash other a o n s :: ops => named e other s (LiveSpec.bytes_of ms a o n) :: told e ms ops
  | op :: ops => told e (lop_mem ms op) ops
  end.
Section Fixed.
  Variable e : ext.
  Variable grow : nat -> nat -> nat.
  Variable name : string.
  Variable seed : N.
  Hypothesis Ee : ext_ok e.
  Hypothesis Hc : counter name = false.
  Hypothesis Hs : seed < 2 ^ 64.
  Local Notation hf := (named e name seed).
  Local Notation kept' := (kept (good e name seed)).

  Lemma log_ok : forall ops w own ms t, world_ok w -> owns w own ms -> holds_all (kept' w own) t -> lseed t = seed -> lops_ok ms ops -> Forall steady ops ->
    (all_hash e name seed ms ops ->
     match insert_all hf (table_in (mem w) t) (keys_of ms ops) with
     | Ret t' => exists w' l', live_log e grow name w own t ops = Ok (w', l', told e ms ops) /\ table_in (mem w') l' = t' /\ world_ok w'
     | Panic => live_log e grow name w own t ops = Panics
     | OutOfFuel => False
     end) /\
    (~ all_hash e name seed ms ops -> live_log e grow name w own t ops = Panics).
  Proof.
    induction ops as [|op ops IH]; intros w own ms t O Ow H Es Hok St.
    - split; [|intros F; now destruct F]. intros _. exists w, t. auto.
    - destruct Hok as [Hop Hok]. apply Forall_cons_iff in St. destruct St as [St0 St].
      destruct op as [bs|a o bs|other a o n s|a o n]; cbn [live_log keys_of all_hash lop_mem lop_ok told steady] in *.
      + destruct (alloc_inv (good e name seed) w own ms t bs O Ow H Hop) as (O' & Ow' & H' & T'). rewrite <- T'. now apply IH.
      + destruct Hop as (Ha & Hl & Hb).
        destruct (assign_inv (good e name seed) w own ms t a o bs O Ow H Ha Hl Hb) as (O' & Ow' & H' & T'). rewrite <- T'. now apply IH.
      + destruct Hop as (Ha & Hl & Hn & Hsd). destruct (piece_ok w own ms a o n Ow Ha Hl) as [W R].
        pose proof (Hashf_right e grow w other _ s Ee O W Hn Hsd St0) as Rt. unfold right in Rt. rewrite R in Rt.
        unfold named at 2. unfold hashes.
        assert (Nc : other <> "nullhash"%string /\ other <> "nullhashF64ns"%string).
        { unfold counter in St0. apply orb_false_iff in St0. now rewrite !String.eqb_neq in St0. }
        destruct (reference e other (LiveSpec.bytes_of ms a o n) s) as [h|] eqn:Er.
        * destruct Rt as (w' & E & O' & K). rewrite E. cbn [rbind]. apply keeps_same in K.
          pose proof (same_grows w w' K) as Gr. specialize (IH w' own ms t O' (owns_grows w w' own ms Gr Ow)).
          rewrite (table_in_grows (good e name seed) w w' own t Gr H) in IH.
          destruct (IH (holds_all_mono _ _ t (fun s Hk => grows_kept _ w w' own s Gr Hk) H) Es Hok St) as [I1 I2]. split.
          -- intros [_ A]. specialize (I1 A). destruct (insert_all hf (table_in (mem w) t) (keys_of ms ops)) as [t'| |]; [|now rewrite I1|exact I1].
             destruct I1 as (w2 & l2 & -> & T & O2). cbn [rbind]. eauto.
          -- intros F. rewrite I2; [reflexivity|]. intros A. apply F. split; [right; right; discriminate|exact A].
        * rewrite Rt. cbn [rbind]. split; [|reflexivity]. intros [[X|[X|X]] _]; [tauto|tauto|congruence].
      + destruct Hop as (Ha & Hl & Hn). destruct (piece_ok w own ms a o n Ow Ha Hl) as [W R].
        pose proof (insert_ok e grow name seed Ee Hc Hs own w t _ O H Es (owns_lt w own ms Ow) W Hn) as I. rewrite R in I.
        cbn [insert_all]. rewrite (hashes_good e name seed Hc). destruct (reference e name (LiveSpec.bytes_of ms a o n) seed) as [h|].
        * destruct (insert hf (table_in (mem w) t) (LiveSpec.bytes_of ms a o n)) as [t'| |]; [|now rewrite I|contradiction].
          destruct I as (w' & l' & E & T & O' & Gr & H' & Es'). rewrite E. cbn [rbind]. rewrite <- T.
          destruct (IH w' own ms l' O' (owns_grows w w' own ms Gr Ow) H' Es' Hok St) as [I1 I2]. split; [tauto|]. intros F. apply I2. intros G. apply F. split; [discriminate|exact G].
        * rewrite I. cbn [rbind]. split; [tauto|reflexivity].
  Qed.
End Fixed.

Lemma takes_iff e name ks seed : counter name = false -> takes name ks = true <-> forall k, In k ks -> hashes e name k seed.
Proof.
  intros Hc. unfold takes. rewrite forallb_forall. split; intros H k Hk; specialize (H k Hk).
  - apply (hashes_good e name seed Hc). rewrite reference_none. apply acceptsb_iff in H. destruct H as [K L]. apply (known_table e) in K.
    rewrite <- shortest_needs in L. intros [X|X]; [|lia]. destruct K as [K|K]; [congruence|contradiction].
  - apply acceptsb_iff. destruct (accepts_dec (length k) name) as [A|A]; [exact A|exfalso].
    apply (hashes_good e name seed Hc) in H. apply H. apply reference_none. now apply (refuses _ _ e) in A.
Qed.

(** ** New arrays for all keys *)
Definition fair (k : list N) : Prop := bytes_ok k /\ N.of_nat (length k) < 2 ^ 64.
Lemma fresh_whole e name seed : forall ks ms, Forall fair ks ->
  keys_of ms (fresh_ops (length ms) ks) = ks /\ lops_ok ms (fresh_ops (length ms) ks) /\ Forall steady (fresh_ops (length ms) ks) /\
  (all_hash e name seed ms (fresh_ops (length ms) ks) <-> forall k, In k ks -> hashes e name k seed).
Proof.
  unfold key in *. induction ks as [|k ks IH]; intros ms F.
  - cbn. repeat split; auto. intros _ k [].
  - apply Forall_cons_iff in F. destruct F as [[B L] F]. cbn [fresh_ops keys_of lops_ok all_hash lop_mem lop_ok].
    replace (S (length ms)) with (length (ms ++ [k])) by (rewrite app_length; cbn; lia).
    destruct (IH (ms ++ [k]) F) as (I1 & I2 & I3 & I4).
    assert (R : LiveSpec.bytes_of (ms ++ [k]) (length ms) 0 (length k) = k).
    { unfold LiveSpec.bytes_of. rewrite nth_middle. cbn [skipn]. apply firstn_all. }
    rewrite I1, R. split; [reflexivity|]. split.
    { split; [exact B|]. split; [|exact I2]. rewrite nth_middle. rewrite app_length. cbn [length]. repeat split; [lia|lia|exact L]. }
    split; [constructor; [exact I|constructor; [exact I|exact I3]]|]. rewrite I4. split.
    + intros [X Y] k' [<-|Hk]; auto.
    + intros X. split; [apply X; now left|]. intros k' Hk. apply X. now right.
Qed.

(** ** TestM *)
Lemma testM_body e name seed ni : seed < 2 ^ 64 -> forall l ms, l = seq 0 ni \/ True -> (exists b, ms = [b] /\ length b = 4%nat) ->
  let ops := flat_map (fun i => [LAssign 0 0 (int_key i); LHash name 0 0 4 seed]) l in
  keys_of ms ops = [] /\ lops_ok ms ops /\ told e ms ops = map (fun i => named e name seed (int_key i)) l /\
  (all_hash e name seed ms ops <-> forall k, In k (map int_key l) -> hashes e name k seed).
Proof.
  intros Hs. induction l as [|i l IH]; intros ms _ (b & -> & Hb) ops; subst ops.
  - cbn. repeat split; auto. intros _ k [].
  - destruct (int_key_ok i) as [K1 K2].
    assert (S : store [b] 0 0 (int_key i) = [int_key i]).
    { destruct b as [|b0 [|b1 [|b2 [|b3 [|b4 b]]]]]; cbn [length] in Hb; try lia. reflexivity. }
    assert (R : LiveSpec.bytes_of [int_key i] 0 0 4 = int_key i) by reflexivity.
    cbn [flat_map app keys_of lops_ok lop_ok lop_mem told all_hash map]. rewrite S, R.
    destruct (IH [int_key i] (or_intror I)) as (I1 & I2 & I3 & I4); [eauto|]. cbv zeta in *.
    rewrite I1, I3, I4. split; [reflexivity|]. split.
    { split; [cbn [length nth]; rewrite K2; repeat split; try lia; exact K1|]. split; [|exact I2]. cbn [length nth]. rewrite K2. repeat split; try lia; exact Hs. }
    split; [reflexivity|]. split.
    + intros [X Y] k [<-|Hk]; auto.
    + intros X. split; [apply X; now left|]. intros k Hk. apply X. now right.
Qed.
Lemma testM_whole e name seed ni : seed < 2 ^ 64 -> counter name = false ->
  keys_of [] (testM_ops name seed ni) = [] /\ lops_ok [] (testM_ops name seed ni) /\ Forall steady (testM_ops name seed ni) /\
  told e [] (testM_ops name seed ni) = map (named e name seed) (keysI ni) /\
  (all_hash e name seed [] (testM_ops name seed ni) <-> forall k, In k (keysI ni) -> hashes e name k seed).
Proof.
  intros Hs Hc. unfold testM_ops, keysI. cbn [keys_of lops_ok all_hash lop_mem lop_ok app told].
  destruct (testM_body e name seed (Z.to_nat ni) Hs (seq 0 (Z.to_nat ni)) [repeat 0 4] (or_intror I)) as (A & B & C & D); [exists (repeat 0 4); auto|].
  split; [exact A|]. split; [split; [repeat constructor|exact B]|]. split; [|split; [rewrite C, map_map; reflexivity|exact D]].
  constructor; [exact I|]. apply Forall_flat_map. apply Forall_forall. intros i _. constructor; [exact I|]. constructor; [exact Hc|constructor].
Qed.

(** ** TestI, TestJ, TestL *)
Lemma quiet_steady (ops : list lop) : Forall quiet ops -> Forall steady ops.
Proof. apply Forall_impl. intros [| | |]; cbn; tauto. Qed.
Lemma testI_steady ni : Forall steady (testI_ops ni).
Proof. apply quiet_steady. constructor; [exact I|]. apply Forall_flat_map. apply Forall_forall. intros i _. repeat constructor. Qed.
Lemma testJ_steady n : Forall steady (testJ_ops n).
Proof.
  apply quiet_steady. constructor; [exact I|]. apply Forall_flat_map. apply Forall_forall. intros k _. apply Forall_flat_map. apply Forall_forall. intros i _.
  repeat constructor.
Qed.
Lemma testL_steady name seed n : counter name = false -> Forall steady (testL_ops name seed n).
Proof.
  intros Hc. constructor; [exact I|]. apply Forall_flat_map. apply Forall_forall. intros i _. apply Forall_flat_map. apply Forall_forall. intros j _.
  apply Forall_flat_map. apply Forall_forall. intros k _. repeat (constructor; [first [exact I|exact Hc]|]). constructor.
Qed.
Section Told.
  Variable e : ext.
  Definition tells (J : list (list N) -> Prop) (ops : list lop) (hs : list N) : Prop :=
    forall ms, J ms -> J (mem_after ms ops) /\ told e ms ops = hs.
  Lemma told_app a : forall ms b, told e ms (a ++ b) = told e ms a ++ told e (mem_after ms a) b.
  Proof. induction a as [|op a IH]; intros ms b; [reflexivity|]. destruct op; cbn [app told mem_after fold_left lop_mem]; rewrite IH; reflexivity. Qed.
  Lemma tells_flat {X} J (f : X -> list lop) (g : X -> list N) l : (forall x, In x l -> tells J (f x) (g x)) -> tells J (flat_map f l) (flat_map g l).
  Proof.
    induction l as [|x l IH]; intros H ms Hm; [split; [exact Hm|reflexivity]|]. cbn [flat_map].
    destruct (H x (or_introl eq_refl) ms Hm) as [A1 A2]. destruct (IH (fun y Hy => H y (or_intror Hy)) _ A1) as [B1 B2].
    unfold mem_after in *. rewrite fold_left_app. split; [exact B1|]. rewrite told_app. unfold mem_after. now rewrite A2, B2.
  Qed.
  Lemma map_flat {A B C} (g : B -> C) (f : A -> list B) l : map g (flat_map f l) = flat_map (fun x => map g (f x)) l.
  Proof. induction l as [|x l IH]; [reflexivity|]. cbn [flat_map]. now rewrite map_app, IH. Qed.
  Lemma testL_told name seed n : (n <= 256)%nat -> told e [] (testL_ops name seed n) = map (named e name seed) (triples n).
  Proof.
    intros Hn. unfold testL_ops. cbn [told lop_mem app].
    assert (T : tells (fun ms => exists b, ms = [b] /\ length b = 3%nat) (flat_map (fun i => flat_map (fun j => flat_map (fun k =>
      [LAssign 0 0 [wrap 8 (N.of_nat i)]; LAssign 0 1 [wrap 8 (N.of_nat j)]; LAssign 0 2 [wrap 8 (N.of_nat k)];
       LHash name 0 0 3 seed; LInsert 0 0 3]) (seq 0 n)) (seq 0 n)) (seq 0 n)) (map (named e name seed) (triples n))).
    { unfold triples. rewrite map_flat. apply tells_flat. intros i Hi. rewrite map_flat. apply tells_flat. intros j Hj. rewrite map_map.
      replace (map (fun k => named e name seed [N.of_nat i; N.of_nat j; N.of_nat k]) (seq 0 n)) with (flat_map (fun k => [named e name seed [N.of_nat i; N.of_nat j; N.of_nat k]]) (seq 0 n))
        by (generalize (seq 0 n); intros l; induction l as [|x l IH]; [reflexivity|cbn [flat_map map app]; now rewrite IH]).
      apply tells_flat. intros k Hk ms (b & -> & Hb). apply in_seq in Hi. apply in_seq in Hj. apply in_seq in Hk.
      assert (W : forall x, (x < 256)%nat -> wrap 8 (N.of_nat x) = N.of_nat x) by (intros x Hx; apply wrap_small; unfold fits; change (2 ^ 8) with 256; lia).
      rewrite !W by lia. destruct b as [|b0 [|b1 [|b2 [|b3 b]]]]; cbn [length] in Hb; try lia.
      cbn [mem_after fold_left lop_mem told].
      rewrite store_set by (cbn [length]; lia). cbn [set_nth]. rewrite store_set by (cbn [length]; lia). cbn [set_nth].
      rewrite store_set by (cbn [length]; lia). cbn [set_nth].
      rewrite whole_buffer by reflexivity. split; [eexists; split; reflexivity|reflexivity]. }
    apply T. exists (repeat 0 3). auto.
  Qed.
End Told.

(** ** A table filled by one test *)
Definition keeps_on (f : flags) (n : Z) (s s' : sess) : Prop := world_ok (s_world s') /\ s_n s' = n /\ s_draws s' = s_draws s.
Lemma seed64_lt f : seed64 f < 2 ^ 64.
Proof.
  unfold seed64. change (2 ^ 64) with (Z.to_N (2 ^ 64)). apply Z2N.inj_lt; [apply Z.mod_pos_bound; lia|lia|apply Z.mod_pos_bound; lia].
Qed.
Lemma print_view m t d : print_table m t d = summary (table_in m t) d.
Proof.
  unfold print_table, summary, table_in. cbn [is_oa size st buckets]. destruct (loa t); [reflexivity|]. f_equal. rewrite map_map. apply map_ext. intros b. now rewrite map_length.
Qed.
Lemma fill_ok e grow np f name n sz ops s : ext_ok e -> counter name = false -> world_ok (s_world s) -> lops_ok [] ops -> Forall steady ops ->
  (all_hash e name (seed64 f) [] ops ->
   match insert_all (named e name (seed64 f)) (empty_table np f sz) (keys_of [] ops) with
   | Ret T => exists s' l, fill e grow np f name n sz ops s = Ok (s', l, told e [] ops) /\ table_in (mem (s_world s')) l = T /\ keeps_on f n s s'
   | Panic => fill e grow np f name n sz ops s = Panics
   | OutOfFuel => False
   end) /\
  (~ all_hash e name (seed64 f) [] ops -> fill e grow np f name n sz ops s = Panics).
Proof.
  intros Ee Hc O L St. unfold fill, empty_table.
  rewrite <- (new_in (mem (s_world s)) np sz (seed64 f) (cf_extra (f_cf f)) (cf_oa (f_cf f)) (cf_prime (f_cf f))).
  destruct (log_ok e grow name (seed64 f) Ee Hc (seed64_lt f) ops (s_world s) [] [] _ O (owns_nil _) (new_holds _ np sz (seed64 f) (cf_extra (f_cf f)) (cf_oa (f_cf f)) (cf_prime (f_cf f))) (new_seed np sz (seed64 f) (cf_extra (f_cf f)) (cf_oa (f_cf f)) (cf_prime (f_cf f))) L St) as [A B].
  split.
  - intros H. specialize (A H). destruct (insert_all _ _ _) as [T| |]; [|now rewrite A|exact A].
    destruct A as (w' & l' & E & V & O'). rewrite E. cbn [rbind]. eexists _, l'. split; [reflexivity|]. cbn [s_world]. split; [exact V|]. split; [exact O'|split; reflexivity].
  - intros H. now rewrite (B H).
Qed.

(** ** Files *)
Lemma read_string_in : forall s l rest ok, read_string s = (l, rest, ok) -> incl l s /\ incl rest s /\ (length l + length rest = length s)%nat /\ (ok = true -> (0 < length l)%nat).
Proof.
  induction s as [|c s IH]; intros l rest ok E; cbn [read_string] in E.
  - injection E as <- <- <-. repeat split; try apply incl_refl. discriminate.
  - destruct (c =? 10).
    + injection E as <- <- <-. split; [intros x [<-|[]]; now left|]. split; [intros x Hx; now right|]. split; cbn [length]; lia.
    + destruct (read_string s) as [[l' rest'] ok']. injection E as <- <- <-. destruct (IH _ _ _ eq_refl) as (A & B & C & D).
      split; [intros x [<-|Hx]; [now left|right; auto]|]. split; [intros x Hx; right; auto|]. split; cbn [length]; lia.
Qed.
Lemma chop_in c s t : chop c s = Ok t -> incl t s /\ (length t <= length s)%nat.
Proof.
  unfold chop. destruct s as [|a s]; [discriminate|]. destruct (idx (a :: s) _) as [x| | |]; try discriminate. cbn [rbind]. intros E. injection E as <-.
  destruct (x =? c); [|split; [apply incl_refl|lia]]. split; [intros y Hy; rewrite <- (firstn_skipn (length (a :: s) - 1) (a :: s)); apply in_or_app; now left|]. rewrite firstn_length. lia.
Qed.
Lemma chop_ends c s : chop c s = Panics \/ exists t, chop c s = Ok t.
Proof.
  unfold chop. destruct s as [|a s]; [now left|]. unfold idx.
  destruct (nth_error (a :: s) _) as [x|] eqn:E; [right; eexists; reflexivity|]. apply nth_error_None in E. cbn [length] in E. lia.
Qed.
Lemma read_loop_in : forall fuel s n ls r, read_loop fuel s n = (ls, r) -> (length s < fuel)%nat ->
  (forall l, In l ls -> incl l s /\ (length l <= length s)%nat) /\ (r = Panics \/ r = Ok (n + length ls)%nat).
Proof.
  induction fuel as [|fuel IH]; intros s n ls r E Hf; [lia|]. cbn [read_loop] in E. destruct (read_string s) as [[l rest] ok] eqn:Er.
  destruct (read_string_in _ _ _ _ Er) as (A & B & C & D). destruct ok.
  - destruct (chop_ends 10 l) as [X|[l1 X]]; rewrite X in E; cbn [rbind] in E; [injection E as <- <-; split; [intros ? []|now left]|].
    destruct (chop_ends 13 l1) as [Y|[l2 Y]]; rewrite Y in E; cbn [rbind] in E; [injection E as <- <-; split; [intros ? []|now left]|].
    destruct (chop_ends 32 l2) as [Z|[l3 Z]]; rewrite Z in E; [injection E as <- <-; split; [intros ? []|now left]|].
    destruct (read_loop fuel rest (S n)) as [ls' r'] eqn:El. injection E as <- <-. specialize (D eq_refl).
    destruct (IH _ _ _ _ El ltac:(lia)) as (I1 & I2).
    apply chop_in in X, Y, Z. destruct X as [Xa Xb], Y as [Ya Yb], Z as [Za Zb]. split.
    + intros y [<-|Hy]; [split; [intros z Hz; auto|lia]|]. destruct (I1 y Hy) as [J1 J2]. split; [intros z Hz; auto|lia].
    + destruct I2 as [-> | ->]; [now left|right]. cbn [length]. f_equal. lia.
  - injection E as <- <-. split; [intros ? []|]. right. cbn [length]. f_equal. lia.
Qed.
Lemma ReadFile_in c ls r : ReadFile c = (ls, r) ->
  (forall l, In l ls -> exists s, c = Some s /\ incl l s /\ (length l <= length s)%nat) /\ (r = Panics \/ r = Ok (length ls)).
Proof.
  destruct c as [s|]; cbn [ReadFile].
  - intros E. destruct (read_loop_in _ _ _ _ _ E ltac:(lia)) as [A B]. split; [|exact B]. intros l Hl. exists s. destruct (A l Hl). auto.
  - intros E. injection E as <- <-. split; [intros ? []|now left].
Qed.
Lemma utf8_length b : (length (utf8 b) <= 2)%nat.
Proof. unfold utf8. destruct (b <? 128); cbn [length]; lia. Qed.
Lemma utf8_ok b : b < 256 -> bytes_ok (utf8 b).
Proof.
  intros H. unfold utf8. destruct (b <? 128) eqn:E; [constructor; [unfold byte_ok; lia|constructor]|]. apply N.ltb_ge in E.
  assert (A : forall n, (n < 256)%nat -> (N.lor 192 (shr (N.of_nat n) 6) <? 256) && (N.lor 128 (N.land (N.of_nat n) 63) <? 256) = true).
  { intros n Hn. assert (F : forallb (fun n => (N.lor 192 (shr (N.of_nat n) 6) <? 256) && (N.lor 128 (N.land (N.of_nat n) 63) <? 256)) (seq 0 256) = true) by reflexivity.
    rewrite forallb_forall in F. apply F. apply in_seq. lia. }
  specialize (A (N.to_nat b) ltac:(lia)). rewrite N2Nat.id in A. apply andb_true_iff in A. destruct A as [A B]. apply N.ltb_lt in A, B.
  constructor; [exact A|]. constructor; [exact B|]. constructor.
Qed.
Lemma reverse_fair l : bytes_ok l -> bytes_ok (reverse l) /\ (length (reverse l) <= 2 * length l)%nat.
Proof.
  induction l as [|c l IH]; intros H; [split; [constructor|cbn; lia]|]. apply Forall_cons_iff in H. destruct H as [Hc H]. destruct (IH H) as [A B].
  cbn [reverse]. rewrite app_length. cbn [length]. pose proof (utf8_length c). split; [|lia]. apply Forall_app. split; [exact A|]. apply utf8_ok. exact Hc.
Qed.
Lemma lines_fair c : (forall s, c = Some s -> small_file s) -> forall key, In key [keyA; keyB; keyC; keyD; keyE; keyF; keyG] ->
  Forall fair (map key (fst (ReadFile c))).
Proof.
  intros H key Hk. apply Forall_forall. intros k Hin. apply in_map_iff in Hin. destruct Hin as (l & <- & Hl).
  destruct (ReadFile c) as [ls r] eqn:E. destruct (ReadFile_in _ _ _ E) as [A _]. destruct (A l Hl) as (s & -> & I & L). destruct (H s eq_refl) as [B S].
  assert (Bl : bytes_ok l) by (unfold bytes_ok in *; rewrite Forall_forall in *; auto). destruct (reverse_fair l Bl) as [R1 R2].
  assert (T : forall b, byte b -> bytes_ok [b]) by (intros b Hb; repeat constructor; exact Hb).
  repeat (destruct Hk as [<-|Hk]); try contradiction; unfold keyA, keyB, keyC, keyD, keyE, keyF, keyG, fair;
    (split; [unfold bytes_ok in *; rewrite ?Forall_app; repeat split; auto; repeat constructor|rewrite ?app_length; cbn [length]; try lia]).
Qed.
