(** C105: for the hashes that read the key block after block, the block behind any beginning of a
    key makes up for that beginning, and for the seed. *)
From Coq Require Import NArith ZArith List Arith Lia.
From Verif Require Import Words WordLemmas ListLemmas Mem Bij HashTableModel HashTableSpec HashTableProps Mm3Model Mm3Spec Mm3Proofs
  GomapModel GomapSpec GomapProofs GomapProps MetroModel MetroSpec MetroProofs MetroProps JenkinsModel JenkinsSpec JenkinsProofs2 JenkinsProps
  UniformSpec UniformProofs UniformProofs2 UniformProps SteerSpec SteerProofs SteerProofs2.
Import ListNotations.
Open Scope N_scope.

Lemma steered_ext {V} B (ok ok' : nat -> Prop) (h h' g g' : list N -> option V) :
  (forall n, ok' n -> ok n) -> (forall k, bytes_ok k -> ok' (length k) -> h k = g k /\ h' k = g' k) -> steered B ok h h' -> steered B ok' g g'.
Proof.
  intros K E S p p' n Hp Hp' L M O. destruct (S p p' n Hp Hp' L M (K _ O)) as (f & F1 & F2). exists f. split; [exact F1|].
  intros b r Hb Hr Lr. assert (Hf : block B (f b)) by now apply F1.
  destruct (E (p ++ b ++ r)) as [<- _].
  - apply bytes_ok_app. split; [exact Hp|]. apply bytes_ok_app. split; [apply Hb|exact Hr].
  - rewrite !app_length, (proj1 Hb), Lr, Nat.add_assoc. exact O.
  - destruct (E (p' ++ f b ++ r)) as [_ <-].
    + apply bytes_ok_app. split; [exact Hp'|]. apply bytes_ok_app. split; [apply Hf|exact Hr].
    + rewrite !app_length, (proj1 Hf), Lr, Nat.add_assoc, <- L. exact O.
    + now apply F2.
Qed.

(** Jenkins: any two initial values or seeds, keys of any length (of less than 4 GB for Hash232). *)
Theorem c105_jenkins : forall pc pb pc' pb' seed seed', fits 64 seed -> fits 64 seed' ->
  steered 12 (fun _ => True) (fun k => got (hash_string k pc pb)) (fun k => got (hash_string k pc' pb')) /\
  steered 12 (fun n => N.of_nat n < 2 ^ 32) (fun k => got (hash232 k (seed mod 2 ^ 32))) (fun k => got (hash232 k (seed' mod 2 ^ 32))) /\
  steered 24 (fun n => N.of_nat n < 2 ^ 64) (fun k => got (hash264 k seed)) (fun k => got (hash264 k seed')).
Proof.
  intros pc pb pc' pb' seed seed' Hs Hs'.
  assert (F : forall x, fits 32 (x mod 2 ^ 32)) by (intros; apply N.mod_lt; discriminate). split; [|split].
  - refine (steered_ext _ _ _ _ _ _ _ (fun _ H => H) _ (steered_lookup3 pc pb pc' pb')).
    intros k Hk _. unfold hash_string. now rewrite !jenkins364_full.
  - refine (steered_ext _ _ _ _ _ _ _ (fun _ _ => I) _ (steered_lookup2 false false _ _ (F seed) (F seed'))).
    intros k Hk L. split; now rewrite (proj1 (c57_lookup2_variant k _ Hk)).
  - refine (steered_ext _ _ _ _ _ _ _ (fun _ _ => I) _ (steered_lookup8 _ _ Hs Hs')).
    intros k Hk L. split; now rewrite (proj2 (c57_lookup2_variant k _ Hk)).
Qed.
Print Assumptions c105_jenkins.

(** Murmur3 (it has no seed). *)
Theorem c105_murmur :
  steered 4 (fun _ => True) (fun k => Some (mm_sum32 k)) (fun k => Some (mm_sum32 k)) /\
  steered 16 (fun _ => True) (fun k => Some (mm_sum128 k)) (fun k => Some (mm_sum128 k)).
Proof. split; [exact steered_mm32|exact steered_mm128]. Qed.
Print Assumptions c105_murmur.

(** gomap: any two seeds, for the keys long enough for its main loop. *)
Theorem c105_gomap : forall seed seed',
  steered 16 (fun n => (16 < n)%nat) (fun k => got (Hash32 k seed)) (fun k => got (Hash32 k seed')) /\
  steered 32 (fun n => (32 < n)%nat) (fun k => got (Hash64 k seed)) (fun k => got (Hash64 k seed')).
Proof.
  intros seed seed'. split.
  - refine (steered_ext _ _ _ _ _ _ _ (fun _ H => H) _ (steered_gomap v32 rest32 finish32 seed seed' eq_refl eq_refl eq_refl eq_refl ltac:(discriminate) ltac:(cbn; lia))).
    intros k Hk L. rewrite !Hash32_ok by (auto; intros ->; cbn in L; lia). now split.
  - refine (steered_ext _ _ _ _ _ _ _ (fun _ H => H) _ (steered_gomap v64 rest64 finish64 seed seed' eq_refl eq_refl eq_refl eq_refl ltac:(discriminate) ltac:(cbn; lia))).
    intros k Hk L. rewrite !Hash64_ok by (auto; intros ->; cbn in L; lia). now split.
Qed.
Print Assumptions c105_gomap.

(** MetroHash: the 128-bit hashes with any two seeds, the 64-bit ones with one seed (which is added
    once more behind the blocks). *)
Theorem c105_metro : forall seed seed',
  steered 32 (fun _ => True) (fun k => got (hash64_1 k seed)) (fun k => got (hash64_1 k seed)) /\
  steered 32 (fun _ => True) (fun k => got (hash64_2 k seed)) (fun k => got (hash64_2 k seed)) /\
  steered 32 (fun _ => True) (fun k => got (hash128_1 k seed)) (fun k => got (hash128_1 k seed')) /\
  steered 32 (fun _ => True) (fun k => got (hash128_2 k seed)) (fun k => got (hash128_2 k seed')).
Proof.
  intros seed seed'. split; [|split; [|split]].
  - refine (steered_ext _ _ _ _ _ _ _ (fun _ H => H) _ (steered_metro64 p64_1 5 seed eq_refl eq_refl eq_refl eq_refl)).
    intros k _ _. now rewrite hash64_1_gen.
  - refine (steered_ext _ _ _ _ _ _ _ (fun _ H => H) _ (steered_metro64 p64_2 4 seed eq_refl eq_refl eq_refl eq_refl)).
    intros k _ _. now rewrite hash64_2_gen.
  - refine (steered_ext _ _ _ _ _ _ _ (fun _ H => H) _ (steered_metro128 p128_1 seed seed' eq_refl eq_refl eq_refl eq_refl)).
    intros k _ _. now rewrite !hash128_1_gen.
  - refine (steered_ext _ _ _ _ _ _ _ (fun _ H => H) _ (steered_metro128 p128_2 seed seed' eq_refl eq_refl eq_refl eq_refl)).
    intros k _ _. now rewrite !hash128_2_gen.
Qed.
Print Assumptions c105_metro.

(** What follows for counts: whatever is asked of the hash, as many continuations of [n] bytes of
    one beginning answer it under one seed as of any other beginning under any other seed. *)
Lemma number_same n (P P' : list N -> bool) (F : list N -> list N) :
  (forall k, In k (all_keys n) -> In (F k) (all_keys n) /\ P' (F k) = P k) ->
  (forall k k', In k (all_keys n) -> In k' (all_keys n) -> F k = F k' -> k = k') -> number n P = number n P'.
Proof.
  intros HF IF.
  assert (D : forall l, NoDup l -> incl l (all_keys n) -> NoDup (map F l)).
  { induction l as [|x l IH]; intros D J; [constructor|]. inversion D; subst. cbn. constructor.
    - rewrite in_map_iff. intros (y & E' & Hy). apply IF in E'; [congruence|apply J; now right|apply J; now left].
    - apply IH; [assumption|]. intros z Hz. apply J. now right. }
  assert (A : incl (all_keys n) (map F (all_keys n))).
  { apply NoDup_length_incl; [apply D; [apply nodup_all_keys|apply incl_refl]|now rewrite map_length|].
    intros x Hx. apply in_map_iff in Hx. destruct Hx as (k & <- & Hk). now apply HF. }
  unfold number. f_equal. apply Nat.le_antisymm.
  - rewrite <- (map_length F (filter P (all_keys n))). apply NoDup_incl_length.
    + apply D; [apply NoDup_filter, nodup_all_keys|]. intros x Hx. now apply filter_In in Hx.
    + intros x Hx. apply in_map_iff in Hx. destruct Hx as (k & <- & Hk). apply filter_In in Hk. destruct Hk as [K1 K2].
      destruct (HF k K1) as [G1 G2]. apply filter_In. split; [exact G1|now rewrite G2].
  - rewrite <- (map_length F (filter P (all_keys n))). apply NoDup_incl_length; [apply NoDup_filter, nodup_all_keys|].
    intros x Hx. apply filter_In in Hx. destruct Hx as [X1 X2]. apply A in X1. apply in_map_iff in X1. destruct X1 as (k & <- & Hk).
    apply in_map. apply filter_In. split; [exact Hk|]. destruct (HF k Hk) as [_ G]. now rewrite <- G.
Qed.
Theorem c105_same_counts : forall V B ok (h h' : list N -> option V) p p' n (P : option V -> bool), steered B ok h h' ->
  bytes_ok p -> bytes_ok p' -> length p = length p' -> (length p mod B = 0)%nat -> (B <= n)%nat -> ok (length p + n)%nat ->
  number n (fun k => P (h (p ++ k))) = number n (fun k => P (h' (p' ++ k))).
Proof.
  intros V B ok h h' p p' n P S Hp Hp' L M Hn K.
  destruct (S p p' (n - B)%nat Hp Hp' L M) as (f & F1 & F2); [now replace (length p + B + (n - B))%nat with (length p + n)%nat by lia|].
  assert (Z : forall k, In k (all_keys n) -> block B (firstn B k) /\ bytes_ok (skipn B k) /\ length (skipn B k) = (n - B)%nat).
  { intros k Hk. apply in_all_keys in Hk. destruct Hk as [Lk Ok]. split; [split; [rewrite firstn_length; lia|now apply bytes_ok_firstn]|].
    split; [now apply bytes_ok_skipn|rewrite skipn_length; lia]. }
  apply (number_same n _ _ (fun k => f (firstn B k) ++ skipn B k)).
  - intros k Hk. destruct (Z k Hk) as (Z1 & Z2 & Z3). assert (Hf : block B (f (firstn B k))) by now apply F1. split.
    + apply in_all_keys. rewrite app_length, (proj1 Hf), Z3. split; [lia|]. apply bytes_ok_app. split; [apply Hf|exact Z2].
    + rewrite F2 by assumption. now rewrite firstn_skipn.
  - intros k k' Hk Hk' E. destruct (Z k Hk) as (Z1 & _). destruct (Z k' Hk') as (Z1' & _).
    apply app_inj_len in E; [|destruct (proj1 F1 _ Z1) as [-> _], (proj1 F1 _ Z1') as [-> _]; reflexivity]. destruct E as [E1 E2].
    apply (bij_inj _ _ F1) in E1; auto. rewrite <- (firstn_skipn B k), <- (firstn_skipn B k'). now rewrite E1, E2.
Qed.
Print Assumptions c105_same_counts.

(** What follows for a table: any beginnings of keys, one block more each, and all keys collide,
    whatever is added behind. *)
Theorem c105_flood : forall V B ok (h : list N -> option V) l n ps, steered B ok h h -> (l mod B = 0)%nat -> ok (l + B + n)%nat ->
  Forall (block l) ps -> exists g, forall p q r, In p ps -> In q ps -> block n r ->
    block B (g p) /\ h (p ++ g p ++ r) = h (q ++ g q ++ r).
Proof.
  intros V B ok h l n ps S M K H. destruct ps as [|p0 ps]; [exists (fun _ => []); contradiction|].
  set (z := repeat 0 B). assert (Hz : block B z) by (split; [apply repeat_length|apply Forall_forall; intros x Hx; apply repeat_spec in Hx; now subst]).
  assert (G : forall qs, Forall (block l) qs -> exists g, forall p r, In p qs -> block n r -> block B (g p) /\ h (p ++ g p ++ r) = h (p0 ++ z ++ r)).
  { apply Forall_inv in H. destruct H as [L0 O0]. induction 1 as [|p qs [Lp Op] Hq (g & Hg)]; [exists (fun _ => []); contradiction|].
    destruct (S p0 p n O0 Op ltac:(congruence)) as (f & F1 & F2); [now rewrite L0|now rewrite L0|].
    exists (fun q => if list_eq_dec N.eq_dec q p then f z else g q). intros q r Hin [Lr Or]. destruct (list_eq_dec N.eq_dec q p) as [->|Ne].
    - split; [now apply F1|]. now apply F2.
    - destruct Hin as [<-|Hin]; [contradiction|]. now apply Hg. }
  destruct (G (p0 :: ps) H) as (g & Hg). exists g. intros p q r Hp Hq Hr. destruct (Hg p r Hp Hr) as [G1 ->]. destruct (Hg q r Hq Hr) as [_ ->]. auto.
Qed.
Print Assumptions c105_flood.
Lemma filter_true {A} (P : A -> bool) l : forallb P l = true -> filter P l = l.
Proof. induction l as [|x l IH]; cbn; [auto|]. intros H. apply andb_prop in H. destruct H as [-> H]. now rewrite IH. Qed.
Lemma pairs_const hf ks v : (forall k, In k ks -> hf k = v) -> 2 * equal_hash_pairs hf ks = N.of_nat (length ks) * (N.of_nat (length ks) - 1).
Proof.
  induction ks as [|k ks IH]; intros E; [reflexivity|]. cbn [equal_hash_pairs].
  assert (F : filter (fun k' => hf k' =? hf k) ks = ks).
  { apply filter_true. apply forallb_forall. intros x Hx. rewrite !E by (cbn; auto). apply N.eqb_refl. }
  rewrite F. assert (IH' := IH (fun x Hx => E x (or_intror Hx))). cbn [length]. nia.
Qed.
Lemma one_bucket (bs : list (list key)) j ks : (j < length bs)%nat -> (forall i, (i < length bs)%nat -> nth_error bs i = Some (if Nat.eqb i j then ks else [])) ->
  list_max (map (@length key) bs) = length ks /\ (ks <> [] -> length (filter nonempty bs) = 1%nat).
Proof.
  revert j. induction bs as [|b bs IH]; intros j Hj H; [cbn in Hj; lia|].
  assert (Z : forall cs : list (list key), (forall i, (i < length cs)%nat -> nth_error cs i = Some []) -> list_max (map (@length key) cs) = 0%nat /\ filter nonempty cs = []).
  { induction cs as [|c cs IHc]; intros Hc; [auto|]. assert (Hc0 := Hc 0%nat ltac:(cbn; lia)). cbn in Hc0. injection Hc0 as ->.
    apply IHc. intros i Hi. apply (Hc (S i)). cbn. lia. }
  assert (H0 := H 0%nat ltac:(cbn; lia)). cbn [nth_error] in H0. injection H0 as ->. destruct j as [|j].
  - destruct (Z bs) as [Z1 Z2]; [intros i Hi; apply (H (S i)); cbn; lia|]. cbn [Nat.eqb map list_max fold_right filter]. split.
    + fold (list_max (map (@length key) bs)). rewrite Z1. lia.
    + intros Ne. destruct ks; [contradiction|]. cbn [nonempty length]. now rewrite Z2.
  - destruct (IH j) as [I1 I2]; [cbn in Hj; lia|intros i Hi; apply (H (S i)); cbn; lia|].
    cbn [Nat.eqb map list_max fold_right filter nonempty length]. fold (list_max (map (@length key) bs)). now rewrite I1.
Qed.
Theorem c105_table : forall V B ok (h : list N -> option V) (word : option V -> N) l r ps nextprime sz extra prime,
  steered B ok h h -> (l mod B = 0)%nat -> ok (l + B + length r)%nat -> bytes_ok r ->
  Forall (block l) ps -> NoDup ps -> (2 <= length ps)%nat ->
  let t0 := new_table nextprime sz extra false prime in 1 <= size t0 -> fits 64 (size t0) ->
  exists ks t, NoDup ks /\ length ks = length ps /\ (forall i p, nth_error ps i = Some p -> exists b, block B b /\ nth_error ks i = Some (p ++ b ++ r)) /\
    insert_all (fun k => word (h k)) t0 ks = Ret t /\
    heads (st t) = 1 /\ longest (st t) = N.of_nat (length ps) /\ 2 * dups (st t) = N.of_nat (length ps) * (N.of_nat (length ps) - 1).
Proof.
  intros V B ok h word l r ps np sz extra prime S M K Hr H D L t0 T1 T2.
  destruct (c105_flood V B ok h l (length r) ps S M K H) as (g & Hg).
  assert (Hr' : block (length r) r) by now split.
  set (ks := map (fun p => p ++ g p ++ r) ps). set (hf := fun k => word (h k)).
  destruct (c01_chained_contents np sz extra prime hf ks T1 T2) as (t & E & Sz & Lb & C). fold t0 in E, Sz, Lb, C. exists ks, t.
  assert (Lk : length ks = length ps) by apply map_length.
  assert (HC : exists v, forall k, In k ks -> hf k = v).
  { destruct ps as [|p0 ps]; [cbn in L; lia|]. exists (hf (p0 ++ g p0 ++ r)). intros k Hk. apply in_map_iff in Hk. destruct Hk as (p & <- & Hp).
    unfold hf. f_equal. apply (Hg p p0 r); auto. now left. }
  destruct HC as (v & HC).
  assert (Hh : home prime (size t0) v < size t0) by now apply HashTableProofs.home_lt.
  destruct (one_bucket (buckets t) (N.to_nat (home prime (size t0) v)) ks) as [O1 O2].
  - rewrite Lb. lia.
  - intros i Hi. rewrite <- (Nat2N.id i) at 1. rewrite C by lia. f_equal. destruct (Nat.eqb_spec i (N.to_nat (home prime (size t0) v))) as [->|Ne].
    + apply filter_true. apply forallb_forall. intros k Hk. rewrite HC by exact Hk. rewrite N2Nat.id. apply N.eqb_refl.
    + rewrite (filter_ext_in _ (fun _ => false)); [clear; generalize ks; intros x; now induction x|]. intros k Hk. rewrite HC by exact Hk. apply N.eqb_neq. intros Z. apply Ne. rewrite Z. now rewrite Nat2N.id.
  - assert (Nk : ks <> []) by (intros Z; rewrite Z in Lk; cbn in Lk; lia).
    split; [|split; [exact Lk|split; [|split; [exact E|split; [|split]]]]].
    + unfold ks. clear - D H. induction D as [|p ps Hp D IH]; [constructor|]. inversion H; subst. cbn. constructor; [|now apply IH].
      rewrite in_map_iff. intros (q & E & Hq). rewrite Forall_forall in H3. destruct (H3 q Hq) as [Lq _], H2 as [Lp _].
      apply app_inj_len in E; [|congruence]. destruct E as [-> _]. contradiction.
    + intros i p Hi. exists (g p). assert (In p ps) by (apply nth_error_In in Hi; exact Hi). split; [now apply (Hg p p r)|].
      unfold ks. now rewrite (map_nth_error _ _ _ Hi).
    + destruct (c04_stats_chained np sz extra prime hf ks t T1 T2 E) as (_ & -> & _). unfold used_buckets. now rewrite O2.
    + rewrite (c06_longest_chain np sz extra prime hf ks t T1 T2 E). unfold longest_bucket. rewrite O1. unfold key in *. rewrite Lk.
      destruct (Nat.leb_spec 2 (length ps)); [reflexivity|lia].
    + rewrite (c05_dups np sz extra false prime hf ks t T1 T2 E), <- Lk. now apply (pairs_const hf ks v).
Qed.
Print Assumptions c105_table.

(** Twelve ones with seed 5 and twelve twos with seed 77, made up for by one block. *)
Example c105_nonvacuous :
  let b := [249; 119; 253; 254; 92; 142; 217; 215; 117; 67; 160; 96] in
  got (hash232 (repeat 1 12 ++ repeat 0 12 ++ [7]) 5) = Some 4090314968 /\ got (hash232 (repeat 2 12 ++ b ++ [7]) 77) = Some 4090314968 /\
  got (hash232 (repeat 1 12 ++ repeat 0 12 ++ [8; 9]) 5) = got (hash232 (repeat 2 12 ++ b ++ [8; 9]) 77) /\
  got (hash232 (repeat 2 12 ++ repeat 0 12 ++ [7]) 77) <> Some 4090314968 /\
  Forall (block 12) [repeat 1 12; repeat 2 12; repeat 3 12] /\ NoDup [repeat 1 12; repeat 2 12; repeat 3 12].
Proof.
  cbv zeta. do 3 (split; [vm_compute; reflexivity|]). split; [vm_compute; discriminate|]. split.
  - repeat constructor.
  - repeat constructor; cbn [In]; intuition discriminate.
Qed.
(** The flood, for Hash232 with seed 5, three beginnings and the last byte 9, in a table of 1024 buckets. *)
Example c105_table_nonvacuous : exists ks t, NoDup ks /\ length ks = 3%nat /\
  insert_all (fun k => match got (hash232 k 5) with Some x => x | None => 0 end) (new_table ex_np 1024 0 false false) ks = Ret t /\
  size (new_table ex_np 1024 0 false false) = 1024 /\ longest (st t) = 3 /\ heads (st t) = 1.
Proof.
  destruct (c105_jenkins 0 0 0 0 5 5 ltac:(reflexivity) ltac:(reflexivity)) as (_ & S & _).
  change (5 mod 2 ^ 32) with 5 in S.
  destruct (c105_table _ _ _ _ (fun v => match v with Some x => x | None => 0 end) 12 [9] [repeat 1 12; repeat 2 12; repeat 3 12] ex_np 1024 0 false S)
    as (ks & t & D & L & _ & E & Hd & Lo & _).
  - reflexivity.
  - vm_compute. reflexivity.
  - repeat constructor.
  - repeat constructor.
  - repeat constructor; cbn [In]; intuition discriminate.
  - cbn. lia.
  - vm_compute. discriminate.
  - vm_compute. reflexivity.
  - exists ks, t. split; [exact D|]. split; [exact L|]. split; [exact E|]. split; [vm_compute; reflexivity|]. now split.
Qed.
(** Of the 256^20 keys behind sixteen ones as many hash to 3 with seed 5 as behind sixteen twos with seed 77. *)
Example c105_same_counts_nonvacuous :
  number 20 (fun k => match got (Hash32 (repeat 1 16 ++ k) 5) with Some x => x =? 3 | None => false end) =
  number 20 (fun k => match got (Hash32 (repeat 2 16 ++ k) 77) with Some x => x =? 3 | None => false end).
Proof.
  refine (c105_same_counts _ _ _ _ _ (repeat 1 16) (repeat 2 16) 20 (fun v => match v with Some x => x =? 3 | None => false end) (proj1 (c105_gomap 5 77)) _ _ eq_refl eq_refl _ _);
    try (repeat constructor); cbn; lia.
Qed.
(** Three beginnings of eight bytes that Murmur3 cannot tell apart behind a block of four. *)
Example c105_flood_nonvacuous : exists g, forall p q, In p [repeat 1 8; repeat 2 8; repeat 3 8] -> In q [repeat 1 8; repeat 2 8; repeat 3 8] ->
  block 4 (g p) /\ Some (mm_sum32 (p ++ g p ++ [7; 7])) = Some (mm_sum32 (q ++ g q ++ [7; 7])).
Proof.
  destruct (c105_flood _ _ _ _ 8 2 [repeat 1 8; repeat 2 8; repeat 3 8] (proj1 c105_murmur) eq_refl I ltac:(repeat constructor)) as (g & G).
  exists g. intros p q P Q. exact (G p q [7; 7] P Q ltac:(repeat constructor)).
Qed.
