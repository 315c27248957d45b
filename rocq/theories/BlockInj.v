(** A generic consequence of block-wise injectivity: an iterated hash whose block
    step is injective in the state and in the block never collides on two messages
    of equal length that differ inside one aligned block only. *)
From Verif Require Import Words WordLemmas ListLemmas Blocks.
Open Scope nat_scope.

(** [m] and [m'] have the same length and agree outside block [i] (block size [B]). *)
Definition differ_in_block (B i : nat) (m m' : list N) : Prop :=
  length m = length m' /\ m <> m' /\ forall j, j / B <> i -> nth_error m j = nth_error m' j.

Section BlockInj.
  Context {S T : Type} (B : nat) (Bpos : 0 < B) (P : S -> Prop) (f : S -> list N -> S) (fin : S -> list N -> T).
  Hypothesis f_ok : forall s b, P s -> bytes_ok b -> length b = B -> P (f s b).
  Hypothesis f_inj_s : forall s s' b, P s -> P s' -> bytes_ok b -> length b = B -> f s b = f s' b -> s = s'.
  Hypothesis f_inj_b : forall s b b', P s -> bytes_ok b -> bytes_ok b' -> length b = B -> length b' = B ->
    f s b = f s b' -> b = b'.
  Hypothesis fin_inj_s : forall s s' r, P s -> P s' -> bytes_ok r -> length r < B -> fin s r = fin s' r -> s = s'.
  Hypothesis fin_inj_r : forall s r r', P s -> bytes_ok r -> bytes_ok r' -> length r = length r' -> length r < B ->
    fin s r = fin s r' -> r = r'.

  Definition block_hash (s : S) (m : list N) : T := let '(s, r) := absorb B f s m in fin s r.

  Lemma block_hash_step s b m : length b = B -> block_hash s (b ++ m) = block_hash (f s b) m.
  Proof. intros H. unfold block_hash. now rewrite (absorb_block B f Bpos). Qed.
  Lemma block_hash_short s m : length m < B -> block_hash s m = fin s m.
  Proof. intros H. unfold block_hash. now rewrite (absorb_short B f Bpos). Qed.

  Lemma block_hash_inj_state m : bytes_ok m -> forall s s', P s -> P s' -> block_hash s m = block_hash s' m -> s = s'.
  Proof.
    induction m as [p Hp|b p Hb IH] using (absorb_ind B Bpos); intros Hok s s' Hs Hs' E.
    - rewrite !block_hash_short in E by assumption. eauto.
    - apply bytes_ok_app in Hok. destruct Hok as [Hb' Hok].
      rewrite !block_hash_step in E by assumption. apply IH in E; auto. eauto.
  Qed.

  Theorem block_hash_no_collision i : forall m m' s, bytes_ok m -> bytes_ok m' -> P s ->
    differ_in_block B i m m' -> block_hash s m <> block_hash s m'.
  Proof.
    induction i as [|i IH]; intros m m' s Hm Hm' Hs (L & D & A) E.
    - destruct (Nat.lt_ge_cases (length m) B) as [Hl|Hl].
      + rewrite !block_hash_short in E by lia. apply D. eapply fin_inj_r; eauto.
      + assert (R : skipn B m = skipn B m').
        { apply nth_error_ext. intro j. rewrite !nth_error_skipn. apply A.
          pose proof (Nat.div_le_mono B (B + j) B ltac:(lia) ltac:(lia)) as K.
          rewrite Nat.div_same in K by lia. lia. }
        rewrite <- (firstn_skipn B m), <- (firstn_skipn B m'), R in E.
        rewrite !block_hash_step in E by (rewrite firstn_length; lia).
        apply block_hash_inj_state in E; try (apply f_ok); auto using bytes_ok_firstn, bytes_ok_skipn;
          try (rewrite firstn_length; lia).
        apply f_inj_b in E; auto using bytes_ok_firstn; try (rewrite firstn_length; lia).
        apply D. rewrite <- (firstn_skipn B m), <- (firstn_skipn B m'). now rewrite E, R.
    - assert (F : firstn B m = firstn B m').
      { apply nth_error_ext. intro j. destruct (Nat.lt_ge_cases j B).
        - rewrite !nth_error_firstn by assumption. apply A. now rewrite Nat.div_small.
        - rewrite !(proj2 (nth_error_None _ _)); auto; rewrite firstn_length; lia. }
      destruct (Nat.lt_ge_cases (length m) B) as [Hl|Hl].
      + rewrite !firstn_all2 in F by lia. contradiction.
      + rewrite <- (firstn_skipn B m), <- (firstn_skipn B m') in E.
        rewrite !block_hash_step in E by (rewrite firstn_length; lia). rewrite <- F in E.
        revert E. apply IH; auto using bytes_ok_skipn.
        * apply f_ok; auto using bytes_ok_firstn. rewrite firstn_length; lia.
        * split; [rewrite !skipn_length; lia|]. split.
          -- intro R. apply D. rewrite <- (firstn_skipn B m), <- (firstn_skipn B m'). now rewrite F, R.
          -- intros j Hj. rewrite !nth_error_skipn. apply A.
             replace (B + j) with (1 * B + j) by lia. rewrite Nat.div_add_l by lia. lia.
  Qed.
End BlockInj.
