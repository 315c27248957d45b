(** The block functions of the hashes are one-to-one between blocks and states. *)
From Coq Require Import NArith ZArith List Lia Arith.
From Verif Require Import Words Mem WordLemmas WordBij ListLemmas Bij Blocks Mm3Model Mm3Spec Mm3Proofs JenkinsModel JenkinsSpec JenkinsProofs JenkinsProofs2
  MetroModel MetroSpec MetroProofs GomapModel GomapSpec GomapProofs UniformSpec UniformProofs UniformProofs2 SteerSpec.
Import ListNotations.
Open Scope N_scope.

(** [A] takes the blocks one-to-one onto [Q]. *)
Definition onto {T} (B : nat) (Q : T -> Prop) (A : list N -> T) : Prop :=
  (forall b, block B b -> Q (A b)) /\
  exists D, (forall b, block B b -> D (A b) = b) /\ forall t, Q t -> block B (D t) /\ A (D t) = t.
Lemma onto_switch {T} B (Q : T -> Prop) A A' : onto B Q A -> onto B Q A' ->
  exists f, bijection_on (block B) f /\ forall b, block B b -> A' (f b) = A b.
Proof.
  intros [A1 (D & D1 & D2)] [A1' (D' & D1' & D2')]. exists (fun b => D' (A b)). split.
  - apply (bij_inverse _ _ (fun b => D (A' b))).
    + intros b Hb. now apply D2', A1.
    + intros b Hb. now apply D2, A1'.
    + intros b Hb. destruct (D2' (A b) (A1 b Hb)) as [_ ->]. now apply D1.
    + intros b Hb. destruct (D2 (A' b) (A1' b Hb)) as [_ ->]. now apply D1'.
  - intros b Hb. now destruct (D2' (A b) (A1 b Hb)).
Qed.
Lemma onto_ext {T} B (Q : T -> Prop) A A' : (forall b, block B b -> A b = A' b) -> onto B Q A -> onto B Q A'.
Proof.
  intros E [A1 (D & D1 & D2)]. split; [intros b Hb; rewrite <- E; auto|]. exists D. split.
  - intros b Hb. rewrite <- E; auto.
  - intros t Ht. destruct (D2 t Ht) as [K1 K2]. split; [exact K1|]. rewrite <- E; auto.
Qed.
(** A hash that reads the key block after block. *)
Lemma steered_gen {S T V} B (ok : nat -> Prop) (Q : T -> Prop) (P : S -> Prop) (h h' : list N -> option V) (st st' : nat -> list N -> S) (A : S -> list N -> T) (G : nat -> T -> list N -> option V) :
  (forall s, P s -> onto B Q (A s)) ->
  (forall n p, bytes_ok p -> (length p mod B = 0)%nat -> ok n -> P (st n p) /\ P (st' n p)) ->
  (forall p b r, bytes_ok p -> (length p mod B = 0)%nat -> block B b -> bytes_ok r -> ok (length p + B + length r)%nat ->
     h (p ++ b ++ r) = G (length p + B + length r)%nat (A (st (length p + B + length r)%nat p) b) r /\
     h' (p ++ b ++ r) = G (length p + B + length r)%nat (A (st' (length p + B + length r)%nat p) b) r) ->
  steered B ok h h'.
Proof.
  intros HA HP HH p p' n Hp Hp' L M K. set (l := (length p + B + n)%nat) in *.
  destruct (onto_switch B Q (A (st l p)) (A (st' l p'))) as (f & F1 & F2).
  - apply HA. now apply HP.
  - apply HA. apply HP; auto. now rewrite <- L.
  - exists f. split; [exact F1|]. intros b r Hb Hr Lr.
    destruct (HH p b r) as [E _]; auto; [now rewrite Lr|]. rewrite Lr in E. fold l in E. rewrite E.
    assert (Hf : block B (f b)) by now apply F1.
    destruct (HH p' (f b) r) as [_ E']; auto; [now rewrite <- L|now rewrite <- L, Lr|]. rewrite Lr, <- L in E'. fold l in E'. rewrite E'.
    now rewrite F2.
Qed.
(** The state after whole blocks. *)
Lemma absorb_whole {S} B (f : S -> list N -> S) s p b r : (0 < B)%nat -> (length p mod B = 0)%nat -> length b = B ->
  absorb B f s (p ++ b ++ r) = absorb B f (f (fst (absorb B f s p)) b) r.
Proof.
  intros HB M L. rewrite (absorb_app B f HB). pose proof (absorb_rest_length B f HB s p) as R. rewrite M in R.
  destruct (absorb B f s p) as [s' q]. cbn [fst snd] in *. destruct q; [|discriminate]. cbn [app]. now apply absorb_block.
Qed.
Lemma absorb_P {S} B (f : S -> list N -> S) (P : S -> Prop) s p : (0 < B)%nat -> P s -> (forall s b, P s -> block B b -> P (f s b)) -> bytes_ok p -> P (fst (absorb B f s p)).
Proof.
  intros HB Hs Hf. revert s Hs. induction p as [p Hp|b p Hb IH] using (absorb_ind B HB); intros s Hs O.
  - now rewrite (absorb_short B f HB).
  - apply bytes_ok_app in O. rewrite (absorb_block B f HB) by exact Hb. apply IH; [apply Hf; [exact Hs|split; [exact Hb|apply O]]|apply O].
Qed.

(** ** The three Jenkins hashes *)
Lemma onto_tri w n s : w = 8 * N.of_nat n -> tri_ok w s -> onto (3 * n) (tri_ok w) (add_block w n s).
Proof.
  intros -> Hs. destruct (add3_bij _ s Hs) as [A1 (D & A2)]. split.
  - intros b [L O]. rewrite add_block_to3. apply (A1 (to3 n b)). now apply to3_ok.
  - exists (fun t => of3 n (D t)). split.
    + intros b [L O]. rewrite add_block_to3. cbv beta. destruct (A2 (to3 n b)) as (_ & E & _); [now apply to3_ok|]. transitivity (of3 n (to3 n b)); [f_equal; exact E|now apply of3_to3].
    + intros t Ht. destruct (A2 t Ht) as (K1 & _ & K2). split; [apply of3_ok|]. rewrite add_block_to3, to3_of3 by exact K1. exact K2.
Qed.
Definition l3_step (s : tri) (b : list N) : tri := l3_mix (add_block 32 4 s b).
Lemma l3_step_ok s b : tri_ok 32 (l3_step s b).
Proof. unfold l3_step. rewrite l3_mix_eq by apply add_block_ok32. apply mix12_bij. apply add_block_ok32. Qed.
Definition l3_rest (t : tri) (r : list N) : tri := match r with [] => l3_final t | _ => l3_run (length r) (l3_mix t) r end.
Lemma l3_whole p : forall fuel s b r, (length p mod 12 = 0)%nat -> length b = 12%nat -> (length p + 12 + length r <= fuel)%nat ->
  l3_run fuel s (p ++ b ++ r) = l3_rest (add_block 32 4 (fst (absorb 12 l3_step s p)) b) r.
Proof.
  induction p as [p Hp|c p Hc IH] using (absorb_ind 12 (Nat.lt_0_succ 11)); intros fuel s b r M L Hf.
  - rewrite Nat.mod_small in M by exact Hp. destruct p; [|discriminate]. rewrite (absorb_short 12 _ (Nat.lt_0_succ 11)) by exact Hp. cbn [fst app].
    destruct fuel as [|fuel]; [lia|]. cbn [l3_run]. rewrite app_length, L.
    destruct r as [|x r].
    + cbn [length Nat.add Nat.leb l3_rest]. rewrite app_nil_r. unfold pad0. rewrite L. cbn [Nat.sub repeat]. now rewrite app_nil_r.
    + replace (12 + length (x :: r) <=? 12)%nat with false by (symmetry; apply Nat.leb_gt; cbn [length]; lia).
      rewrite firstn_app_exact, skipn_app_exact by exact L. unfold l3_rest. apply l3_run_fuel; cbn [length] in *; lia.
  - rewrite app_length, Hc in M, Hf. rewrite <- app_assoc, (absorb_block 12 _ (Nat.lt_0_succ 11)) by exact Hc. destruct fuel as [|fuel]; [lia|]. cbn [l3_run].
    replace (length (c ++ p ++ b ++ r) <=? 12)%nat with false by (symmetry; apply Nat.leb_gt; rewrite !app_length; lia).
    rewrite firstn_app_exact, skipn_app_exact by exact Hc. apply IH; [|exact L|lia].
    replace (12 + length p)%nat with (length p + 1 * 12)%nat in M by lia. now rewrite Nat.mod_add in M by lia.
Qed.
Definition l3_init (n : nat) (pc pb : N) : tri :=
  let i := (0xdeadbeef + N.of_nat n + pc) mod 2 ^ 32 in (i, i, (i + pb) mod 2 ^ 32).
Lemma l3_init_ok n pc pb : tri_ok 32 (l3_init n pc pb).
Proof. repeat split; apply N.mod_lt; discriminate. Qed.
Lemma steered_lookup3 pc pb pc' pb' : steered 12 (fun _ => True) (fun k => Some (lookup3 k pc pb)) (fun k => Some (lookup3 k pc' pb')).
Proof.
  apply (steered_gen 12 _ (tri_ok 32) (tri_ok 32) _ _ (fun n p => fst (absorb 12 l3_step (l3_init n pc pb) p)) (fun n p => fst (absorb 12 l3_step (l3_init n pc' pb') p))
    (add_block 32 4) (fun _ t r => Some (let '(_, b, c) := l3_rest t r in (c, b)))).
  - intros s Hs. now apply (onto_tri 32 4).
  - intros n p Hp _ _. split; (apply absorb_P; [lia|apply l3_init_ok|intros; apply l3_step_ok|exact Hp]).
  - intros p b r Hp M [L Hb] Hr _.
    assert (G : forall pc pb, lookup3 (p ++ b ++ r) pc pb = (let '(_, b, c) := l3_rest (add_block 32 4 (fst (absorb 12 l3_step (l3_init (length p + 12 + length r) pc pb) p)) b) r in (c, b))).
    { intros a c. unfold lookup3. assert (E : length (p ++ b ++ r) = (length p + 12 + length r)%nat) by (rewrite !app_length; lia). rewrite E.
      destruct (p ++ b ++ r) eqn:K; [cbn in E; lia|]. rewrite <- K. cbv zeta. fold (l3_init (length p + 12 + length r) a c). now rewrite l3_whole by (assumption || lia). }
    now rewrite !G.
Qed.
Definition l2_step (s : tri) (b : list N) : tri := l2_mix (add_block 32 4 s b).
Lemma steered_lookup2 x y seed seed' : fits 32 seed -> fits 32 seed' ->
  steered 12 (fun _ => True) (fun k => Some (lookup2_gen x y k seed)) (fun k => Some (lookup2_gen x y k seed')).
Proof.
  intros F F'. set (i := fun seed => (0x9e3779b9, 0x9e3779b9, seed) : tri).
  apply (steered_gen 12 _ (tri_ok 32) (tri_ok 32) _ _ (fun n p => fst (absorb 12 l2_step (i seed) p)) (fun n p => fst (absorb 12 l2_step (i seed') p))
    (add_block 32 4) (fun n t r => Some (let '(s, q) := absorb 12 l2_step (l2_mix t) r in snd (l2_mix (l2_last y s (N.of_nat (if x then n else length q)) q))))).
  - intros s Hs. now apply (onto_tri 32 4).
  - intros n p Hp _ _. split; (apply absorb_P; [lia|repeat split; assumption|intros; unfold l2_step; rewrite l2_mix_eq; apply mix32_bij, add_block_ok32|exact Hp]).
  - intros p b r Hp M [L Hb] Hr _.
    assert (G : forall s, lookup2_gen x y (p ++ b ++ r) s =
      (let '(t, q) := absorb 12 l2_step (l2_mix (add_block 32 4 (fst (absorb 12 l2_step (i s) p)) b)) r in
       snd (l2_mix (l2_last y t (N.of_nat (if x then length p + 12 + length r else length q)%nat) q)))).
    { intros s. unfold lookup2_gen. pose proof (fold_blocks l2_step 12 (p ++ b ++ r) (i s) ltac:(lia)) as FB.
      rewrite absorb_whole in FB by (assumption || lia). unfold l2_step at 3 in FB. destruct (absorb 12 l2_step (l2_mix _) r) as [t q].
      destruct (blocks 12 (p ++ b ++ r)) as [bs q']. injection FB as <- <-. unfold i, l2_step. do 3 f_equal. destruct x; [|reflexivity]. rewrite !app_length. f_equal. lia. }
    now rewrite !G.
Qed.
Definition l8_step (s : tri) (b : list N) : tri := l8_mix (add_block 64 8 s b).
Lemma steered_lookup8 seed seed' : fits 64 seed -> fits 64 seed' ->
  steered 24 (fun _ => True) (fun k => Some (lookup8v k seed)) (fun k => Some (lookup8v k seed')).
Proof.
  intros F F'. set (i := fun seed => (0x9e3779b97f4a7c13, 0x9e3779b97f4a7c13, seed) : tri).
  apply (steered_gen 24 _ (tri_ok 64) (tri_ok 64) _ _ (fun n p => fst (absorb 24 l8_step (i seed) p)) (fun n p => fst (absorb 24 l8_step (i seed') p))
    (add_block 64 8) (fun n t r => Some (let '(s, q) := absorb 24 l8_step (l8_mix t) r in snd (l8_mix (l8_last s (N.of_nat (length q)) q))))).
  - intros s Hs. now apply (onto_tri 64 8).
  - intros n p Hp _ _. split; (apply absorb_P; [lia|repeat split; assumption|intros; unfold l8_step; rewrite l8_mix_eq; apply mix64alt_bij, add_block_ok64|exact Hp]).
  - intros p b r Hp M [L Hb] Hr _.
    assert (G : forall s, lookup8v (p ++ b ++ r) s =
      (let '(t, q) := absorb 24 l8_step (l8_mix (add_block 64 8 (fst (absorb 24 l8_step (i s) p)) b)) r in
       snd (l8_mix (l8_last t (N.of_nat (length q)) q)))).
    { intros s. unfold lookup8v. pose proof (fold_blocks l8_step 24 (p ++ b ++ r) (i s) ltac:(lia)) as FB.
      rewrite absorb_whole in FB by (assumption || lia). unfold l8_step at 3 in FB. destruct (absorb 24 l8_step (l8_mix _) r) as [t q].
      destruct (blocks 24 (p ++ b ++ r)) as [bs q']. injection FB as <- <-. reflexivity. }
    now rewrite !G.
Qed.
