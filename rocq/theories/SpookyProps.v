(** Properties C32 and C33: package spooky. *)
From Verif Require Import Words WordLemmas ListLemmas Mem SLP Bij WordBij Mm3Spec Mm3Proofs SpookyModel SpookySpec SpookyProofs SpookyProofs2.
Open Scope N_scope.

(** ** Ranges *)
Lemma arx_fits p st : Forall (fits 64) st -> rots_ok p = true -> Forall (fits 64) (arx_run p st).
Proof.
  intros H R. rewrite tr_run by assumption. clear R. revert st H. induction p as [|o p IH]; intros st H; [assumption|].
  cbn [map exec fold_left]. apply IH. apply step_fits; auto. now destruct o.
Qed.
Lemma mods_fit (l : list (N * N)) : Forall (fits 64) (map (fun x => (fst x + snd x) mod 2 ^ 64) l).
Proof. induction l; cbn [map]; constructor; auto. unfold fits. apply N.mod_lt. discriminate. Qed.
Lemma v2_range s h1 h2 : fst (spookyhash_v2 s h1 h2) < 2 ^ 64 /\ snd (spookyhash_v2 s h1 h2) < 2 ^ 64.
Proof.
  unfold spookyhash_v2, spec_short, spec_long. destruct (Nat.ltb _ _).
  - destruct (blocks 32 s) as [bs r]. destruct (Nat.leb 16 (length r)); cbn [fst snd]; split; apply nth_fits; apply arx_fits; try reflexivity; apply mods_fit.
  - destruct (blocks 96 s) as [bs r]. cbn [fst snd]. split; apply nth_fits; unfold spec_end; cbv zeta;
    repeat (apply arx_fits; [|reflexivity]); apply mods_fit.
Qed.

(** ** One word of data *)
Definition untouched (k : nat) (p : prog) : bool := forallb (fun a => match a with Set_ d e => negb (Nat.eqb d k) && negb (mentions k e) end) p.
Lemma upd_comm {A} (l : list A) i j x y : i <> j -> upd (upd l i x) j y = upd (upd l j y) i x.
Proof. revert i j. induction l as [|z l IH]; intros [|i] [|j] H; cbn; auto; try congruence. now rewrite IH by lia. Qed.
Lemma exec_upd w k p x st : untouched k p = true -> exec w p (upd st k x) = upd (exec w p st) k x.
Proof.
  revert st. induction p as [|[d e] p IH]; intros st H; [reflexivity|].
  cbn [untouched forallb] in H. apply andb_prop in H. destruct H as [H1 H2]. apply andb_prop in H1. destruct H1 as [H0 H1].
  apply negb_true_iff in H0, H1. apply Nat.eqb_neq in H0.
  cbn [exec fold_left step]. rewrite eval_upd by assumption. rewrite upd_comm by auto. now apply IH.
Qed.
Lemma firstn_upd {A} n (l : list A) i x : (n <= i)%nat -> firstn n (upd l i x) = firstn n l.
Proof.
  revert l i. induction n as [|n IH]; intros l i H; [reflexivity|]. destruct l as [|y l]; [reflexivity|].
  destruct i; [lia|]. cbn. f_equal. apply IH. lia.
Qed.
Lemma upd_app_r {A} (s d : list A) i x : upd (s ++ d) (length s + i) x = s ++ upd d i x.
Proof. induction s as [|y s IH]; cbn; auto. now rewrite IH. Qed.
Lemma exec_app w p q st : exec w (p ++ q) st = exec w q (exec w p st).
Proof. apply fold_left_app. Qed.
Definition row_split (i : nat) : prog * prog := (firstn (5 * i) mix_prog, skipn (5 * i + 1) mix_prog).
Lemma row_split_ok : forallb (fun i => let '(p1, p2) := row_split i in
   untouched (12 + i) p1 && untouched (12 + i) p2 && reversible 64 24 p1 && reversible 64 24 p2 && writes_below 12 p1 && writes_below 12 p2) (seq 0 12) = true.
Proof. reflexivity. Qed.
Lemma row_split_eq i : (i < 12)%nat -> mix_prog = fst (row_split i) ++ [Set_ i (E2 BAdd (EV i) (EV (12 + i)))] ++ snd (row_split i).
Proof. intros H. do 12 (destruct i as [|i]; [reflexivity|]). lia. Qed.
Lemma mix_one_word s d i x : regs_ok 64 12 s -> regs_ok 64 12 d -> (i < 12)%nat -> fits 64 x -> x <> nth i d 0 ->
  firstn 12 (exec 64 mix_prog (s ++ upd d i x)) <> firstn 12 (exec 64 mix_prog (s ++ d)).
Proof.
  intros Hs Hd Hi Hx Hne E. rewrite (row_split_eq i Hi) in E.
  pose proof (proj1 (forallb_forall _ _) row_split_ok i) as C. cbv beta in C.
  specialize (C ltac:(apply in_seq; lia)). destruct (row_split i) as [p1 p2]. cbn [fst snd] in E.
  repeat (apply andb_prop in C; let C' := fresh "C" in destruct C as [C C']).
  rewrite !exec_app in E. rewrite <- upd_app_r in E. rewrite (proj1 Hs) in E.
  rewrite exec_upd in E by assumption. set (t := exec 64 p1 (s ++ d)) in E.
  destruct (exec_bijection 64 24 p1) as [B1 _]; [assumption|]. pose proof (B1 (s ++ d) (regs_app 64 12 12 _ _ Hs Hd)) as Ht. fold t in Ht.
  assert (Td : skipn 12 t = d) by (unfold t; rewrite exec_frame by assumption; apply skipn_app_n, Hs).
  assert (Tn : nth (12 + i) t 0 = nth i d 0).
  { rewrite <- Td. rewrite <- (firstn_skipn 12 t) at 1. rewrite app_nth2; rewrite firstn_length_le by (rewrite (proj1 Ht); lia); [|lia].
    f_equal. lia. }
  cbn [exec fold_left step eval sem2] in E. rewrite Tn in E.
  assert (Lt : length t = 24%nat) by apply Ht.
  rewrite upd_same in E by (rewrite Lt; lia). rewrite upd_other in E by lia. rewrite upd_comm in E by lia.
  fold (exec 64 p2 (upd (upd t i (addw 64 (nth i t 0) x)) (12 + i) x)) in E. fold (exec 64 p2 (upd t i (addw 64 (nth i t 0) (nth i d 0)))) in E.
  rewrite exec_upd in E by assumption. rewrite firstn_upd in E by lia.
  set (u := upd t i (addw 64 (nth i t 0) x)) in E. set (v := upd t i (addw 64 (nth i t 0) (nth i d 0))) in E.
  assert (U : forall y, regs_ok 64 24 (upd t i (addw 64 (nth i t 0) y))).
  { intros y. split; [now rewrite upd_length|]. apply upd_Forall; [apply Ht|apply add64_fits]. }
  assert (E2 : exec 64 p2 u = exec 64 p2 v).
  { rewrite <- (firstn_skipn 12 (exec 64 p2 u)), <- (firstn_skipn 12 (exec 64 p2 v)). f_equal; [exact E|].
    rewrite !exec_frame by assumption. unfold u, v. now rewrite !skipn_upd by lia. }
  apply (bij_inj _ _ (exec_bijection 64 24 p2 ltac:(assumption))) in E2; [|apply U|apply U].
  apply Hne. assert (A : addw 64 (nth i t 0) x = addw 64 (nth i t 0) (nth i d 0)).
  { rewrite <- (upd_same t i (addw 64 (nth i t 0) x) 0) by lia. fold u. rewrite E2. unfold v. apply upd_same. lia. }
  destruct (bij_add_l 64 (nth i t 0)) as [_ [g G]]; try (apply nth_fits, Ht).
  assert (Fd : fits 64 (nth i d 0)) by apply nth_fits, Hd.
  destruct (G x Hx) as (_ & G1 & _). destruct (G _ Fd) as (_ & G2 & _). rewrite <- G1, <- G2. now f_equal.
Qed.

(** ** C32 *)
(** For every key and pair of 64-bit seeds the 128-bit function returns - no index out
    of range, no panic, both loops terminate - and returns what SpookyHash V2 is
    published to return; likewise the short-message function, for keys of any length. *)
Theorem c32_spooky_published s hash1 hash2 :
  bytes_ok s -> hash1 < 2 ^ 64 -> hash2 < 2 ^ 64 ->
  SpookyHash128 s hash1 hash2 = Ok (spookyhash_v2 s hash1 hash2) /\
  SpookyHashShort s hash1 hash2 = Ok (spec_short s hash1 hash2).
Proof. intros. split; [now apply spooky_ok|now apply short_ok]. Qed.

(** Hash128, Hash64 and Hash32 always return; Hash64 is the first half of Hash128,
    Hash32 (whose seed has 32 bits) the low half of Hash64. *)
Theorem c32_widths_agree s seed : bytes_ok s -> seed < 2 ^ 64 ->
  exists a b, spooky_hash128 s seed = Ok (a, b) /\ a < 2 ^ 64 /\ b < 2 ^ 64 /\ (a, b) = spookyhash_v2 s seed seed /\
    spooky_hash64 s seed = Ok a /\ (seed < 2 ^ 32 -> spooky_hash32 s seed = Ok (a mod 2 ^ 32)).
Proof.
  intros Hb Hs. exists (fst (spookyhash_v2 s seed seed)), (snd (spookyhash_v2 s seed seed)).
  destruct (v2_range s seed seed) as [R1 R2].
  unfold spooky_hash128, spooky_hash64, spooky_hash32. rewrite spooky_ok by assumption.
  destruct (spookyhash_v2 s seed seed) as [a b]. cbn [rbind fst snd] in *. rewrite wrap_mod. auto 10.
Qed.
(** The exported Mix and End panic exactly when they are given fewer than twelve words. *)
Theorem c32_mix_needs_twelve data h :
  (Mix data h = Panics <-> (length data < 12)%nat) /\ (End_ data h = Panics <-> (length data < 12)%nat).
Proof.
  unfold Mix, End_, twelve. destruct (Nat.leb_spec 12 (length data)); cbn [rbind]; split; split; intros; try lia; try discriminate; auto.
Qed.

(** A 200-byte key: two blocks of 96 and a rest of 8. *)
Example c32_nonvacuous :
  let s := map (fun i => (N.of_nat i + 128) mod 256) (seq 0 200) in
  bytes_ok s /\ 7 < 2 ^ 64 /\ exists a b, spooky_hash128 s 7 = Ok (a, b) /\ spooky_hash32 s 7 = Ok (a mod 2 ^ 32) /\ a <> b.
Proof.
  cbv zeta. split; [|split; [reflexivity|]].
  - apply Forall_forall. intros x Hx. apply in_map_iff in Hx. destruct Hx as (i & <- & _). apply N.mod_lt. discriminate.
  - eexists _, _. split; [vm_compute; reflexivity|]. split; [vm_compute; reflexivity|discriminate].
Qed.

(** ** C33 *)
(** The state of twelve (or four) 64-bit words is permuted by each of the mixing
    functions; for Mix and End, for every fixed block of at least twelve words. *)
Theorem c33_mixers_bijective :
  bijection_on (regs_ok 64 12) EndPartial /\ bijection_on (regs_ok 64 4) ShortMix /\ bijection_on (regs_ok 64 4) ShortEnd /\
  (forall data, (12 <= length data)%nat -> Forall (fits 64) data ->
     exists f g, (forall h, Mix data h = Ok (f h)) /\ bijection_on (regs_ok 64 12) f /\
                 (forall h, End_ data h = Ok (g h)) /\ bijection_on (regs_ok 64 12) g).
Proof.
  split; [apply end_partial_bij|]. split; [apply short_mix_bij|]. split; [apply short_end_bij|].
  intros data Hl Hf.
  assert (R : regs_ok 64 12 (firstn 12 data)).
  { split; [now apply firstn_length_le|]. rewrite <- (firstn_skipn 12 data) in Hf. now apply Forall_app in Hf. }
  exists (fun s => firstn 12 (exec 64 mix_prog (s ++ firstn 12 data))),
    (fun s => EndPartial (EndPartial (EndPartial (firstn 12 (exec 64 end_add_prog (s ++ firstn 12 data)))))).
  unfold Mix, End_, twelve. destruct (Nat.leb_spec 12 (length data)); [|lia]. cbn [rbind].
  split; [intros; reflexivity|]. split; [now apply mix_bij|]. split; [intros; reflexivity|now apply end_bij].
Qed.

(** Two blocks that differ in exactly one of their twelve words never mix to the same
    state. *)
Theorem c33_mix_one_word data h i x :
  length data = 12%nat -> Forall (fits 64) data -> regs_ok 64 12 h -> (i < 12)%nat -> fits 64 x -> x <> nth i data 0 ->
  exists r1 r2, Mix data h = Ok r1 /\ Mix (set_nth data i x) h = Ok r2 /\ r1 <> r2.
Proof.
  intros Hl Hf Hh Hi Hx Hne. rewrite set_nth_upd. unfold Mix, twelve. rewrite upd_length, Hl. cbn [Nat.leb rbind].
  do 2 eexists. split; [reflexivity|]. split; [reflexivity|].
  rewrite (firstn_all2 data), (firstn_all2 (upd data i x)) by (rewrite ?upd_length; lia). intro E. symmetry in E. revert E.
  apply mix_one_word; auto. now split.
Qed.

Definition w12 : list N := [1; 2; 3; 4; 5; 6; 7; 8; 9; 10; 11; 0xffffffffffffffff].
Example c33_nonvacuous :
  regs_ok 64 12 w12 /\ EndPartial w12 <> w12 /\
  exists r1 r2, Mix w12 w12 = Ok r1 /\ Mix (set_nth w12 5 77) w12 = Ok r2 /\ r1 <> r2.
Proof.
  split; [split; [reflexivity|repeat constructor]|]. split; [vm_compute; discriminate|].
  apply c33_mix_one_word; try reflexivity; try lia; try discriminate; [repeat constructor|]. split; [reflexivity|repeat constructor].
Qed.

Print Assumptions c32_spooky_published.
Print Assumptions c32_widths_agree.
Print Assumptions c32_mix_needs_twelve.
Print Assumptions c33_mixers_bijective.
Print Assumptions c33_mix_one_word.
