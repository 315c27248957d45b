(** Bijections: composition, iteration, transfer along an encoding. *)
From Verif Require Import Words.

Section Bij.
  Context {A : Type} (P : A -> Prop).

  Lemma bij_id : bijection_on P (fun x => x).
  Proof. split; auto. exists (fun x => x). auto. Qed.
  Lemma bij_comp f g : bijection_on P f -> bijection_on P g -> bijection_on P (fun x => g (f x)).
  Proof.
    intros [F1 [f' F2]] [G1 [g' G2]]. split; auto.
    exists (fun y => f' (g' y)). intros x Hx.
    destruct (G2 x Hx) as (G3 & _ & G5). destruct (F2 _ G3) as (F3 & _ & F5).
    destruct (G2 _ (F1 x Hx)) as (_ & G6 & _). destruct (F2 x Hx) as (_ & F6 & _).
    rewrite G6, F6, F5, G5. auto.
  Qed.
  Lemma bij_iter f n : bijection_on P f -> bijection_on P (fun x => Nat.iter n f x).
  Proof.
    intros H. induction n as [|n IH]; [apply bij_id|].
    change (bijection_on P (fun x => f (Nat.iter n f x))). apply (bij_comp _ _ IH H).
  Qed.
  Lemma bij_involution f : (forall x, P x -> P (f x)) -> (forall x, P x -> f (f x) = x) -> bijection_on P f.
  Proof. intros H1 H2. split; auto. exists f. auto. Qed.
  Lemma bij_inverse f g : (forall x, P x -> P (f x)) -> (forall x, P x -> P (g x)) ->
    (forall x, P x -> g (f x) = x) -> (forall x, P x -> f (g x) = x) -> bijection_on P f.
  Proof. intros H1 H2 H3 H4. split; auto. exists g. auto. Qed.
  Lemma bij_ext f g : (forall x, P x -> f x = g x) -> bijection_on P f -> bijection_on P g.
  Proof.
    intros E [F1 [f' F2]]. split; [intros x Hx; rewrite <- E; auto|].
    exists f'. intros x Hx. destruct (F2 x Hx) as (F3 & F4 & F5). rewrite <- !E; auto.
  Qed.
  Lemma bij_inj f : bijection_on P f -> forall x y, P x -> P y -> f x = f y -> x = y.
  Proof.
    intros [F1 [f' F2]] x y Hx Hy E.
    destruct (F2 x Hx) as (_ & <- & _). destruct (F2 y Hy) as (_ & <- & _). now rewrite E.
  Qed.
  Lemma bij_surj f : bijection_on P f -> forall y, P y -> exists x, P x /\ f x = y.
  Proof. intros [F1 [f' F2]] y Hy. exists (f' y). destruct (F2 y Hy) as (? & _ & ?). auto. Qed.
End Bij.

Lemma bij_transfer {A B} (P : A -> Prop) (Q : B -> Prop) (enc : A -> B) (dec : B -> A) f g :
  (forall a, P a -> Q (enc a)) -> (forall b, Q b -> P (dec b) /\ enc (dec b) = b) ->
  (forall a, P a -> dec (enc a) = a) -> (forall a, P a -> enc (f a) = g (enc a)) ->
  (forall a, P a -> P (f a)) ->
  bijection_on Q g -> bijection_on P f.
Proof.
  intros E1 D1 DE H Hf [G1 [g' G2]]. split; auto.
  exists (fun a => dec (g' (enc a))). intros x Hx.
  destruct (G2 _ (E1 x Hx)) as (K1 & K2 & K3). destruct (D1 _ K1) as [D2 D3].
  repeat split; auto.
  - rewrite H, K2 by assumption. auto.
  - rewrite <- (DE (f (dec (g' (enc x))))) by auto. rewrite H, D3, K3 by auto. auto.
Qed.
