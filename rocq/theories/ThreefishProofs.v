(** Proofs about package threefish: the unrolled encryption is the published one. *)
From Verif Require Import Words WordLemmas ListLemmas Mem SLP Mm3Spec Mm3Proofs ThreefishProg ThreefishModel ThreefishSpec.
Open Scope N_scope.

(** ** The specification on machine operations *)
Fixpoint mix_pairs' (rots v : list N) : list N :=
  match rots, v with
  | r :: rots, x0 :: x1 :: v => let y0 := addw 64 x0 x1 in y0 :: N.lxor (rotlw 64 x1 r) y0 :: mix_pairs' rots v
  | _, _ => []
  end.
Definition subkey' (P : params) (K T : list N) (s i : nat) : N :=
  let k := nth ((s + i) mod (Nw P + 1)) K 0 in
  if Nat.eqb i (Nw P - 3) then addw 64 k (nth (s mod 3) T 0)
  else if Nat.eqb i (Nw P - 2) then addw 64 k (nth ((s + 1) mod 3) T 0)
  else if Nat.eqb i (Nw P - 1) then addw 64 k (N.of_nat s)
  else k.
Definition add_subkey' (P : params) (K T : list N) (s : nat) (v : list N) : list N :=
  map (fun i => addw 64 (nth i v 0) (subkey' P K T s i)) (seq 0 (Nw P)).
Definition round' (P : params) (K T v : list N) (d : nat) : list N :=
  let e := if Nat.eqb (d mod 4) 0 then add_subkey' P K T (d / 4) v else v in
  let f := mix_pairs' (nth (d mod 8) (Rot P) []) e in
  map (fun i => nth i f 0) (Pi P).

Lemma add_addw a b : add a b = addw 64 a b.
Proof. symmetry. apply addw_mod. Qed.
Lemma subkey_eq P K T s i : subkey P K T s i = subkey' P K T s i.
Proof. unfold subkey, subkey'. now rewrite !add_addw. Qed.
Lemma add_subkey_eq P K T s v : add_subkey P K T s v = add_subkey' P K T s v.
Proof. unfold add_subkey, add_subkey'. apply map_ext. intros. now rewrite add_addw, subkey_eq. Qed.
Lemma addw_fits' w a b : fits w (addw w a b).
Proof. rewrite addw_mod. apply N.mod_lt. apply N.pow_nonzero. discriminate. Qed.
Lemma add_subkey_fits P K T s v : Forall (fits 64) (add_subkey' P K T s v).
Proof. unfold add_subkey'. apply Forall_forall. intros x Hx. apply in_map_iff in Hx. destruct Hx as (i & <- & _). apply addw_fits'. Qed.
Lemma mix_pairs_eq rots : Forall (fun r => r <= 64) rots -> forall v, Forall (fits 64) v ->
  mix_pairs rots v = mix_pairs' rots v /\ Forall (fits 64) (mix_pairs' rots v).
Proof.
  induction rots as [|r rots IH]; intros Hr v Hv; [split; [reflexivity|constructor]|].
  inversion Hr; subst. destruct v as [|x0 [|x1 v]]; try (split; [reflexivity|constructor]).
  inversion Hv as [|? ? F0 Hv1]; subst. inversion Hv1 as [|? ? F1 Hv2]; subst.
  destruct (IH H2 v Hv2) as [E F]. cbn [mix_pairs mix_pairs']. cbv zeta. rewrite E, add_addw, rol_rotl by assumption.
  split; [reflexivity|]. repeat constructor; auto; [apply addw_fits'|].
  apply xor_fits; [now apply rotlw_fits|apply addw_fits'].
Qed.
Definition rots_small (P : params) : Prop := Forall (Forall (fun r => r <= 64)) (Rot P).
Lemma round_eq P K T v d : rots_small P -> Forall (fits 64) v ->
  round P K T v d = round' P K T v d /\ Forall (fits 64) (round' P K T v d).
Proof.
  intros HR Hv. unfold round, round'. cbv zeta. rewrite add_subkey_eq.
  set (e := if Nat.eqb (d mod 4) 0 then add_subkey' P K T (d / 4) v else v).
  assert (He : Forall (fits 64) e) by (unfold e; destruct (Nat.eqb (d mod 4) 0); [apply add_subkey_fits|assumption]).
  destruct (mix_pairs_eq (nth (d mod 8) (Rot P) [])) with (v := e) as [E F]; auto.
  { destruct (nth_in_or_default (d mod 8) (Rot P) []) as [Hi| ->]; [|constructor].
    unfold rots_small in HR. rewrite Forall_forall in HR. auto. }
  rewrite E. split; [reflexivity|]. apply Forall_forall. intros x Hx. apply in_map_iff in Hx. destruct Hx as (i & <- & _). now apply nth_fits.
Qed.
Lemma rounds_eq P K T ds : rots_small P -> forall v, Forall (fits 64) v ->
  fold_left (round P K T) ds v = fold_left (round' P K T) ds v /\ Forall (fits 64) (fold_left (round' P K T) ds v).
Proof.
  intros HR. induction ds as [|d ds IH]; intros v Hv; [auto|]. cbn [fold_left].
  destruct (round_eq P K T v d HR Hv) as [E F]. rewrite E. now apply IH.
Qed.
Lemma p256_small : rots_small P256. Proof. repeat constructor; discriminate. Qed.
Lemma p512_small : rots_small P512. Proof. repeat constructor; discriminate. Qed.
Lemma p1024_small : rots_small P1024. Proof. repeat constructor; discriminate. Qed.

(** ** Reassociating the sums of the code *)
Definition canon (n : nat) (a : asg) : asg :=
  match a with
  | Set_ d (E2 BAdd (EV d') (E2 BAdd (EV b) k)) =>
      if Nat.ltb b n then Set_ d (E2 BAdd (E2 BAdd (EV d') k) (EV b)) else a
  | Set_ d (E2 BAdd (EV d') (E2 BAdd (E2 BAdd (EV b) k) t)) =>
      if Nat.ltb b n then Set_ d (E2 BAdd (E2 BAdd (EV d') (E2 BAdd k t)) (EV b)) else a
  | _ => a
  end.
Lemma addw_swap3 w a b c : addw w a (addw w b c) = addw w (addw w a c) b.
Proof.
  rewrite !addw_mod. assert (2 ^ w <> 0) by (apply N.pow_nonzero; discriminate).
  repeat (rewrite N.add_mod_idemp_l || rewrite N.add_mod_idemp_r); try assumption. f_equal. rewrite <- !N.add_assoc. f_equal. apply N.add_comm.
Qed.
Lemma addw_sum_l w x y z : addw w (addw w x y) z = addw w (x + y) z.
Proof. rewrite !addw_mod. apply N.add_mod_idemp_l. apply N.pow_nonzero. discriminate. Qed.
Lemma addw_sum_r w x y z : addw w z (addw w x y) = addw w z (x + y).
Proof. rewrite !addw_mod. apply N.add_mod_idemp_r. apply N.pow_nonzero. discriminate. Qed.
Lemma addw_sum w a b c d : a + b = c + d -> addw w a b = addw w c d.
Proof. intros H. unfold addw. now rewrite H. Qed.
Lemma addw_swap4 w a b k t : addw w a (addw w (addw w b k) t) = addw w (addw w a (addw w k t)) b.
Proof.
  rewrite (addw_sum_l w b k t), (addw_sum_r w (b + k) t a), (addw_sum_r w k t a), (addw_sum_l w a (k + t) b). apply addw_sum. lia.
Qed.
Lemma canon_step n w st a : step w st (canon n a) = step w st a.
Proof.
  destruct a as [d e]. unfold canon.
  destruct e as [| |[] [d'| | |] [| |[] [b| |[] [b| | |] k|] t|]|]; try reflexivity.
  - destruct (Nat.ltb b n); [|reflexivity]. cbn [step eval sem2]. f_equal. symmetry. apply addw_swap3.
  - destruct (Nat.ltb b n); [|reflexivity]. cbn [step eval sem2]. f_equal. symmetry. apply addw_swap4.
Qed.
Lemma canon_exec n w p : forall st, exec w (map (canon n) p) st = exec w p st.
Proof.
  induction p as [|a p IH]; intros st; [reflexivity|]. cbn [map exec fold_left]. rewrite canon_step. apply IH.
Qed.
Lemma addw_add0 w a b : addw w a (addw w b 0) = addw w a b.
Proof.
  rewrite !addw_mod. assert (2 ^ w <> 0) by (apply N.pow_nonzero; discriminate).
  rewrite N.add_mod_idemp_r by assumption. now rewrite N.add_0_r.
Qed.

(** ** Four rounds of the code are four rounds of the specification *)
Definition four (P : params) (K T : list N) (s : nat) (v : list N) : list N := fold_left (round' P K T) (seq (4 * s) 4) v.
Definition group_ok (P : params) (g : list prog) (s : nat) : Prop := forall v K T z,
  length v = Nw P -> length K = (Nw P + 1)%nat -> length T = 3%nat ->
  exec 64 (nth s g []) (v ++ K ++ T ++ [z]) = four P K T s v ++ K ++ T ++ [z].
Ltac expl l n :=
  lazymatch n with
  | O => destruct l; [|discriminate]
  | S ?m => destruct l as [|? l]; [discriminate|]; expl l m
  end.
Ltac group_tac n k :=
  intros v K T z Hv HK HT; rewrite <- (canon_exec n);
  expl v n; expl K k; expl T 3%nat; clear Hv HK HT;
  unfold four, exec, round'; 
  cbv -[addw rotlw N.lxor]; rewrite ?addw_add0; reflexivity.
Lemma enc256_group s : (s < 18)%nat -> group_ok P256 enc256_groups s.
Proof.
  intros H. do 18 (destruct s as [|s]; [group_tac 4%nat 5%nat|]). lia.
Qed.
Lemma enc512_group s : (s < 18)%nat -> group_ok P512 enc512_groups s.
Proof. intros H. do 18 (destruct s as [|s]; [group_tac 8%nat 9%nat|]). lia. Qed.
Lemma enc1024_group s : (s < 20)%nat -> group_ok P1024 enc1024_groups s.
Proof. intros H. do 20 (destruct s as [|s]; [group_tac 16%nat 17%nat|]). lia. Qed.
