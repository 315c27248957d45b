(** Proofs about package jenkins: mixers, block loops, equality with the specification. *)
From Coq Require Import ZArith.
From Verif Require Import Words WordLemmas ListLemmas Blocks SLP Bij Mem Mm3Spec Mm3Proofs
  JenkinsModel JenkinsSpec.
Open Scope N_scope.

(** ** Register triples *)
Definition tri_ok (w : N) (s : tri) : Prop := let '(a, b, c) := s in fits w a /\ fits w b /\ fits w c.
Definition enc3 (s : tri) : list N := let '(a, b, c) := s in [a; b; c].
Definition dec3 (l : list N) : tri := (nth 0 l 0, nth 1 l 0, nth 2 l 0).
Lemma enc3_ok w s : tri_ok w s -> regs_ok w 3 (enc3 s).
Proof. destruct s as [[a b] c]. intros (H1 & H2 & H3). split; [reflexivity|]. repeat constructor; assumption. Qed.
Lemma dec3_ok w l : regs_ok w 3 l -> tri_ok w (dec3 l) /\ enc3 (dec3 l) = l.
Proof.
  intros [Hl Hf]. do 3 (destruct l as [|? l]; [discriminate|]). destruct l; [|discriminate].
  inversion Hf as [|? ? F1 G1]; subst. inversion G1 as [|? ? F2 G2]; subst.
  inversion G2; subst. repeat split; assumption.
Qed.
Lemma tri_bij w p f : reversible w 3 p = true ->
  (forall a b c, enc3 (f (a, b, c)) = exec w p [a; b; c]) -> bijection_on (tri_ok w) f.
Proof.
  intros R E. pose proof (exec_bijection w 3 p R) as B.
  apply (bij_transfer (tri_ok w) (regs_ok w 3) enc3 dec3 f (exec w p)).
  - apply enc3_ok.
  - apply dec3_ok.
  - intros [[a b] c] _. reflexivity.
  - intros [[a b] c] _. apply E.
  - intros [[a b] c] H.
    assert (H' : regs_ok w 3 (exec w p [a; b; c])) by (apply B; now apply (enc3_ok w (a, b, c))).
    rewrite <- E in H'. destruct (f (a, b, c)) as [[a' b'] c']. now apply (dec3_ok w [a'; b'; c']).
  - exact B.
Qed.

(** ** Mixers as straight-line programs *)
Definition rsub d s := Set_ d (E2 BSub (EV d) (EV s)).
Definition rxsh d s u := Set_ d (E2 BXor (EV d) (E1 u (EV s))).
Definition l2line (d y z s : nat) (u : uop) : prog := [rsub d y; rsub d z; rxsh d s u].
(** Three lines of a lookup2 mixer. *)
Definition tri_lines32 (k1 k2 k3 : N) (s : tri) : tri :=
  let '(a, b, c) := s in
  let a := sub32 a b in let a := sub32 a c in let a := xor a (shr c k1) in
  let b := sub32 b c in let b := sub32 b a in let b := xor b (shl32 a k2) in
  let c := sub32 c a in let c := sub32 c b in let c := xor c (shr b k3) in
  (a, b, c).
Definition tri_lines64 (k1 k2 k3 : N) (s : tri) : tri :=
  let '(a, b, c) := s in
  let a := sub64 a b in let a := sub64 a c in let a := xor a (shr c k1) in
  let b := sub64 b c in let b := sub64 b a in let b := xor b (shl64 a k2) in
  let c := sub64 c a in let c := sub64 c b in let c := xor c (shr b k3) in
  (a, b, c).
Definition p_lines k1 k2 k3 : prog :=
  l2line 0 1 2 2 (UShr k1) ++ l2line 1 2 0 0 (UShl k2) ++ l2line 2 0 1 1 (UShr k3).
Definition l8line (d y z s : nat) (u : uop) : asg :=
  Set_ d (E2 BSub (EV d) (E2 BXor (E2 BSub (EV y) (EV z)) (E1 u (EV s)))).
Definition p_mix64a := [l8line 0 1 2 2 (UShr 43); l8line 1 2 0 0 (UShl 9)].
Definition p_mix64b := [l8line 2 0 1 1 (UShr 8); l8line 0 1 2 2 (UShr 38)].
Definition p_mix64c := [l8line 1 2 0 0 (UShl 23); l8line 2 0 1 1 (UShr 5)].
Definition p_mix64d := [l8line 0 1 2 2 (UShr 35); l8line 1 2 0 0 (UShl 49)].
Definition p_mix64e := [l8line 2 0 1 1 (UShr 11); l8line 0 1 2 2 (UShr 12)].
Definition p_mix64f := [l8line 1 2 0 0 (UShl 18); l8line 2 0 1 1 (UShr 22)].
Definition l3line (d s x : nat) k : prog := [rsub d s; rxsh d s (URotl k); radd s x].
Definition p_mix1 : prog := l3line 0 2 1 4 ++ l3line 1 0 2 6 ++ l3line 2 1 0 8.
Definition p_mix2 : prog := l3line 0 2 1 16 ++ l3line 1 0 2 19 ++ l3line 2 1 0 4.
Definition fline (d s : nat) k : prog := [rxor d s; Set_ d (E2 BSub (EV d) (E1 (URotl k) (EV s)))].
Definition p_final1 : prog := fline 2 1 14 ++ fline 0 2 11 ++ fline 1 0 25 ++ fline 2 1 16.
Definition p_final2 : prog := fline 0 2 4 ++ fline 1 0 14 ++ fline 2 1 24.

(** Running a let-chain and a program side by side, one assignment at a time. *)
Ltac slp_one :=
  lazymatch goal with
  | |- enc3 (let x := ?e in @?f x) = exec ?w (?i :: ?p) [?r0; ?r1; ?r2] =>
      change (enc3 (f e) = exec w p (step w [r0; r1; r2] i));
      first [change (step w [r0; r1; r2] i) with [e; r1; r2]
            |change (step w [r0; r1; r2] i) with [r0; e; r2]
            |change (step w [r0; r1; r2] i) with [r0; r1; e]];
      generalize e; let v := fresh "v" in intro v; cbv beta
  end.
Ltac tri_run p f :=
  apply (tri_bij _ p); [vm_compute; reflexivity|]; intros; lazy beta iota delta [f];
  let q := eval cbv in p in change p with q;
  repeat slp_one; reflexivity.

Lemma tri_lines32_bij k1 k2 k3 : bijection_on (tri_ok 32) (tri_lines32 k1 k2 k3).
Proof. apply (tri_bij 32 (p_lines k1 k2 k3)); reflexivity. Qed.
Lemma tri_lines64_bij k1 k2 k3 : bijection_on (tri_ok 64) (tri_lines64 k1 k2 k3).
Proof. apply (tri_bij 64 (p_lines k1 k2 k3)); reflexivity. Qed.
Lemma mix32_lines s : tri_lines32 3 10 15 (tri_lines32 12 16 5 (tri_lines32 13 8 13 s)) = mix32 s.
Proof. destruct s as [[a b] c]. reflexivity. Qed.
Lemma mix32_bij : bijection_on (tri_ok 32) mix32.
Proof.
  eapply bij_ext; [intros s _; apply mix32_lines|].
  exact (bij_comp _ _ _ (tri_lines32_bij _ _ _) (bij_comp _ _ _ (tri_lines32_bij _ _ _) (tri_lines32_bij _ _ _))).
Qed.
Lemma mix32a_eq s : mix32a s = mix32 s.
Proof. destruct s as [[a b] c]. reflexivity. Qed.
Lemma mix64_lines s : tri_lines64 12 18 22 (tri_lines64 35 49 11 (tri_lines64 38 23 5 (tri_lines64 43 9 8 s))) = mix64 s.
Proof. destruct s as [[a b] c]. reflexivity. Qed.
Lemma mix64_bij : bijection_on (tri_ok 64) mix64.
Proof.
  eapply bij_ext; [intros s _; apply mix64_lines|].
  exact (bij_comp _ _ _ (tri_lines64_bij _ _ _) (bij_comp _ _ _ (tri_lines64_bij _ _ _)
    (bij_comp _ _ _ (tri_lines64_bij _ _ _) (tri_lines64_bij _ _ _)))).
Qed.
Lemma mix64a_bij : bijection_on (tri_ok 64) mix64a. Proof. tri_run p_mix64a mix64a. Qed.
Lemma mix64b_bij : bijection_on (tri_ok 64) mix64b. Proof. tri_run p_mix64b mix64b. Qed.
Lemma mix64c_bij : bijection_on (tri_ok 64) mix64c. Proof. tri_run p_mix64c mix64c. Qed.
Lemma mix64d_bij : bijection_on (tri_ok 64) mix64d. Proof. tri_run p_mix64d mix64d. Qed.
Lemma mix64e_bij : bijection_on (tri_ok 64) mix64e. Proof. tri_run p_mix64e mix64e. Qed.
Lemma mix64f_bij : bijection_on (tri_ok 64) mix64f. Proof. tri_run p_mix64f mix64f. Qed.
Lemma mix64alt_eq s : mix64f (mix64e (mix64d (mix64c (mix64b (mix64a s))))) = mix64alt s.
Proof. destruct s as [[a b] c]. reflexivity. Qed.
Lemma mix64alt_bij : bijection_on (tri_ok 64) mix64alt.
Proof.
  eapply bij_ext; [intros s _; apply mix64alt_eq|].
  exact (bij_comp _ _ _ mix64a_bij (bij_comp _ _ _ mix64b_bij (bij_comp _ _ _ mix64c_bij
    (bij_comp _ _ _ mix64d_bij (bij_comp _ _ _ mix64e_bij mix64f_bij))))).
Qed.
Lemma mix1_bij : bijection_on (tri_ok 32) mix1. Proof. tri_run p_mix1 mix1. Qed.
Lemma mix2_bij : bijection_on (tri_ok 32) mix2. Proof. tri_run p_mix2 mix2. Qed.
Lemma final1_bij : bijection_on (tri_ok 32) final1. Proof. tri_run p_final1 final1. Qed.
Lemma final2_bij : bijection_on (tri_ok 32) final2. Proof. tri_run p_final2 final2. Qed.
Lemma mix12_bij : bijection_on (tri_ok 32) mix12. Proof. exact (bij_comp _ _ _ mix1_bij mix2_bij). Qed.
Lemma final12_bij : bijection_on (tri_ok 32) final12. Proof. exact (bij_comp _ _ _ final1_bij final2_bij). Qed.
Lemma xmix_eq s : xmix s = mix12 s. Proof. destruct s as [[a b] c]. reflexivity. Qed.
Lemma xfinal_eq s : xfinal s = final12 s. Proof. destruct s as [[a b] c]. reflexivity. Qed.

Lemma mix64_differs : mix64 (1, 0, 0) <> mix64alt (1, 0, 0).
Proof. vm_compute. discriminate. Qed.
