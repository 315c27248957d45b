(** Block-wise consumption of a byte string: the loop

      for len(p) >= B { s = f(s, p[:B]); p = p[B:] }

    that occurs in every streaming and one-shot hash of /repo (for example
    siphash/hash.go:23-68, siphash/siphash.go:80-127).  [absorb] is that loop:
    it returns the final state and the unconsumed rest. *)
From Verif Require Import Words ListLemmas.
Open Scope nat_scope.

Section Blocks.
  Context {S : Type} (B : nat) (f : S -> list N -> S).

  (** The loop with an explicit iteration bound (any bound >= len(p) gives the
      same result when B > 0, see [absorb_fuel]). *)
  Fixpoint absorb_loop (fuel : nat) (s : S) (p : list N) : S * list N :=
    match fuel with
    | O => (s, p)
    | Datatypes.S n =>
        if B <=? length p then absorb_loop n (f s (firstn B p)) (skipn B p) else (s, p)
    end.
  Definition absorb (s : S) (p : list N) : S * list N := absorb_loop (length p) s p.

  Hypothesis Bpos : 0 < B.

  Lemma absorb_fuel n m s p : length p <= n -> length p <= m -> absorb_loop n s p = absorb_loop m s p.
  Proof.
    revert m s p. induction n as [|n IH]; intros [|m] s p Hn Hm; cbn.
    - reflexivity.
    - destruct (Nat.leb_spec B (length p)); [lia | reflexivity].
    - destruct (Nat.leb_spec B (length p)); [lia | reflexivity].
    - destruct (Nat.leb_spec B (length p)); auto.
      apply IH; rewrite skipn_length; lia.
  Qed.

  Lemma absorb_short s p : length p < B -> absorb s p = (s, p).
  Proof.
    unfold absorb. destruct (length p) eqn:E; cbn; auto.
    intros. rewrite E. destruct (Nat.leb_spec B (Datatypes.S n)); [lia | reflexivity].
  Qed.

  Lemma absorb_step s p : B <= length p -> absorb s p = absorb (f s (firstn B p)) (skipn B p).
  Proof.
    intros H. unfold absorb at 1. destruct (length p) as [|n] eqn:E; [lia|].
    cbn. rewrite E. destruct (Nat.leb_spec B (Datatypes.S n)); [|lia].
    apply absorb_fuel; rewrite skipn_length; lia.
  Qed.

  Lemma absorb_block s b p : length b = B -> absorb s (b ++ p) = absorb (f s b) p.
  Proof.
    intros H. rewrite absorb_step by (rewrite app_length; lia).
    now rewrite (firstn_app_exact B), (skipn_app_exact B).
  Qed.

  (** Strong induction over the number of blocks. *)
  Lemma absorb_ind (P : list N -> Prop) :
    (forall p, length p < B -> P p) ->
    (forall b p, length b = B -> P p -> P (b ++ p)) ->
    forall p, P p.
  Proof.
    intros Hs Hb p. remember (length p) as n eqn:E. revert p E.
    induction n as [n IH] using lt_wf_ind; intros p ->.
    destruct (Nat.ltb_spec (length p) B); [now apply Hs|].
    rewrite <- (firstn_skipn B p). apply Hb.
    - rewrite firstn_length; lia.
    - eapply IH; [|reflexivity]. rewrite skipn_length; lia.
  Qed.

  (** Splitting the input anywhere: the rest of the first part is carried over. *)
  Lemma absorb_app s a b :
    absorb s (a ++ b) = (let '(s', r) := absorb s a in absorb s' (r ++ b)).
  Proof.
    revert s. induction a as [a Ha|c a Hc IH] using absorb_ind; intros s.
    - rewrite (absorb_short s a Ha). reflexivity.
    - rewrite <- app_assoc, (absorb_block s c (a ++ b)), (absorb_block s c a) by assumption. apply IH.
  Qed.

  Lemma absorb_rest s p : snd (absorb s p) = skipn (B * (length p / B)) p.
  Proof.
    revert s. induction p as [p Hp|b p Hb IH] using absorb_ind; intros s.
    - rewrite absorb_short by assumption. cbn. rewrite Nat.div_small by assumption.
      now rewrite Nat.mul_0_r.
    - rewrite absorb_block by assumption. rewrite IH.
      rewrite app_length, Hb.
      replace (B + length p) with (1 * B + length p) by lia.
      rewrite Nat.div_add_l by lia.
      replace (B * (1 + length p / B)) with (B + B * (length p / B)) by lia.
      rewrite skipn_add, (skipn_app_exact B) by assumption. reflexivity.
  Qed.

  Lemma absorb_rest_length s p : length (snd (absorb s p)) = length p mod B.
  Proof.
    rewrite absorb_rest, skipn_length. rewrite (Nat.div_mod (length p) B) at 1 by lia. lia.
  Qed.

  Lemma absorb_rest_lt s p : length (snd (absorb s p)) < B.
  Proof. rewrite absorb_rest_length. apply Nat.mod_upper_bound. lia. Qed.

  (** Absorbing exactly the full blocks gives the same state and an empty rest. *)
  Lemma absorb_full s p :
    absorb s (firstn (B * (length p / B)) p) = (fst (absorb s p), []).
  Proof.
    revert s. induction p as [p Hp|b p Hb IH] using absorb_ind; intros s.
    - rewrite Nat.div_small, Nat.mul_0_r by assumption. cbn [firstn].
      rewrite !absorb_short by (cbn; lia). reflexivity.
    - rewrite app_length, Hb.
      replace (B + length p) with (1 * B + length p) by lia.
      rewrite Nat.div_add_l by lia.
      replace (B * (1 + length p / B)) with (length b + B * (length p / B)) by lia.
      rewrite firstn_app_2, !absorb_block by assumption. apply IH.
  Qed.

  (** Preservation of a state predicate. *)
  Lemma absorb_inv (P : S -> Prop) (Q : list N -> Prop) :
    (forall l n, Q l -> Q (firstn n l) /\ Q (skipn n l)) ->
    (forall s b, P s -> Q b -> length b = B -> P (f s b)) ->
    forall s p, P s -> Q p -> P (fst (absorb s p)).
  Proof.
    intros HQ Hf s p. unfold absorb. generalize (length p). intro n. revert s p.
    induction n as [|n IH]; intros s p Hs Hp; cbn; auto.
    destruct (Nat.leb_spec B (length p)); auto.
    apply IH; [apply Hf; auto | ]; try apply HQ; auto.
    rewrite firstn_length; lia.
  Qed.
End Blocks.

(** The loop does not depend on more than the values of [f] on full blocks. *)
Lemma absorb_ext {S} B (f g : S -> list N -> S) : 0 < B ->
  (forall s b, length b = B -> f s b = g s b) -> forall s p, absorb B f s p = absorb B g s p.
Proof.
  intros HB H s p. revert s. induction p as [p Hp|b p Hb IH] using (absorb_ind B HB); intros s.
  - now rewrite !absorb_short.
  - rewrite !absorb_block, H by assumption. apply IH.
Qed.
