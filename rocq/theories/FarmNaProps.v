(** C31, continued: naHash64 for keys of every length.  The entry points of the package call
    it for at most 64 bytes only; within the package it is farmhashna's Hash64. *)
From Coq Require Import NArith ZArith List Arith Lia.
From Verif Require Import Words WordLemmas ListLemmas Mem FarmModel FarmSpec FarmProofs FarmProofs2.
Import ListNotations.
Open Scope N_scope.

(** farmhashna::Hash64 as published, with seed 81. *)
Definition spec_na (s : list N) : N :=
  let n := length s in
  let seed := 81 in
  if (n <=? 64)%nat then spec_upto64 s
  else
    let y := add64 (mul64 seed K1) 113 in
    let z := mul64 (S_shift_mix (add64 (mul64 y K2) 113)) K2 in
    let x := add64 (mul64 seed K2) (w64 s 0) in
    S_na_final (len64 s) (block64 s (n - 64)) (iterate ((n - 1) / 64) (fun i => S_na_round (block64 s (64 * i))) (x, y, z, 0, 0, 0, 0)).

Lemma na_loop_ok : forall fuel s r, (length s <= fuel)%nat -> bytes_ok s ->
  na_loop fuel s r = Ok (iterate ((length s - 1) / 64) (fun i => S_na_round (block64 s (64 * i))) r).
Proof.
  induction fuel as [|fuel IH]; intros s r Hf Hs; cbn [na_loop]; destruct (Nat.ltb_spec 64 (length s)) as [H|H].
  - lia.
  - rewrite (Nat.div_small (length s - 1)) by lia. reflexivity.
  - rewrite fetch_words8_ok, tail_from_ok by (auto; lia). cbn [rbind].
    rewrite IH by (rewrite ?skipn_len; auto using bytes_ok_skipn; lia). rewrite skipn_len.
    rewrite (div_step (length s - 1) 64) by lia. rewrite iterate_S, na_round_eq.
    replace (length s - 1 - 64)%nat with (length s - 64 - 1)%nat by lia. f_equal.
    apply iterate_ext. intros i x Hi. rewrite block64_skipn. do 2 f_equal. lia.
  - rewrite (Nat.div_small (length s - 1)) by lia. reflexivity.
Qed.
Lemma na_final_eq n ws r : na_final n ws r = S_na_final n ws r.
Proof.
  unfold na_final, S_na_final, shift_mix, S_shift_mix, weak_words, S_weak_words, rotate64, rotr64, rotrw, hash_len16_mul, S_hash_len16_mul. same_mix.
Qed.

Theorem c31_na_hash64 : forall s, bytes_ok s ->
  na_hash64 s = Ok (spec_na s) /\
  (forall a b, na_hash64_with_seeds s a b = Ok (S_hash_len16 (sub64 (spec_na s) a) b)) /\
  (forall b, na_hash64_with_seed s b = Ok (S_hash_len16 (sub64 (spec_na s) K2) b)).
Proof.
  intros s Hs. assert (E : na_hash64 s = Ok (spec_na s)).
  { unfold spec_na. destruct (Nat.leb_spec (length s) 64) as [L|L]; [now apply na_ok|].
    unfold na_hash64. replace (length s <=? 32)%nat with false by (symmetry; apply Nat.leb_gt; lia).
    replace (length s <=? 64)%nat with false by (symmetry; apply Nat.leb_gt; lia). cbv zeta.
    rewrite (fetch64_ok s 0 0) by (auto; lia). cbn [rbind].
    rewrite (tailz_ok s _ (length s - 64)) by (try apply last64_idx_eq; lia). cbn [rbind].
    rewrite na_loop_ok by auto. cbn [rbind].
    rewrite fetch_words8_ok by (rewrite ?skipn_len; auto using bytes_ok_skipn; lia). cbn [rbind].
    rewrite na_final_eq, block64_skipn, ulen64_len, Nat.add_0_r.
    cbv zeta. replace (add64 (mul64 81 K1) 113) with 2480279821605975764 by (vm_compute; reflexivity).
    rewrite shift_mix_eq. change fk2 with K2. reflexivity. }
  split; [exact E|]. unfold na_hash64_with_seed, na_hash64_with_seeds. rewrite E. cbn [rbind].
  split; intros; now rewrite hash_len16_eq.
Qed.
Print Assumptions c31_na_hash64.
(** For more than 64 bytes it is not what Hash64 returns. *)
Example c31_na_nonvacuous : exists s, bytes_ok s /\ length s = 100%nat /\ na_hash64 s = Ok (spec_na s) /\ na_hash64 s <> farm_hash64 s.
Proof.
  exists (repeat 7 100). split; [apply Forall_forall; intros x H; apply repeat_spec in H; subst; reflexivity|].
  split; [reflexivity|]. split; [vm_compute; reflexivity|]. vm_compute. discriminate.
Qed.

(** The step on the first 32 bytes of a slice, the form that takes a slice; the rounds above read the words themselves. *)
Theorem c31_weak_hash s a b : bytes_ok s -> (32 <= length s)%nat ->
  weak_hash s a b = Ok (S_weak_words (w64 s 0) (w64 s 8) (w64 s 16) (w64 s 24) a b).
Proof.
  intros Hs L. unfold weak_hash. rewrite (fetch64_ok s 0 0), (fetch64_ok s 8 8), (fetch64_ok s 16 16), (fetch64_ok s 24 24) by (auto; lia).
  cbn [rbind]. now rewrite weak_words_eq.
Qed.
Print Assumptions c31_weak_hash.
Example c31_weak_hash_nonvacuous : bytes_ok (map N.of_nat (seq 1 40)) /\ (32 <= length (map N.of_nat (seq 1 40)))%nat /\
  weak_hash (map N.of_nat (seq 1 40)) 5 6 <> weak_hash (map N.of_nat (seq 2 40)) 5 6 /\ weak_hash (map N.of_nat (seq 1 31)) 5 6 = Panics.
Proof. split; [repeat constructor|]. split; [cbn; lia|]. split; [vm_compute; discriminate|reflexivity]. Qed.
