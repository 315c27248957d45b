From Coq Require Import NArith ZArith List Arith String Bool Lia.
From Verif Require Import Words WordLemmas ListLemmas HashTableModel HtModel HtSpec HtProofs HtKeys SmhModel SmhSpec SmhProofs SmhBits.
Import ListNotations.
Open Scope N_scope.
Open Scope list_scope.

Lemma NoDup_app' {A} (a b : list A) : NoDup a -> NoDup b -> (forall x, In x a -> ~ In x b) -> NoDup (a ++ b).
Proof.
  induction 1 as [|x a Hx Na IH]; intros Nb D; [exact Nb|]. cbn [app]. constructor.
  - rewrite in_app_iff. intros [Q|Q]; [exact (Hx Q)|]. exact (D x (or_introl eq_refl) Q).
  - apply IH; [exact Nb|]. intros z Hz. apply D. now right.
Qed.
Lemma cons_inj {A} (a b : A) u v : a :: u = b :: v -> a = b /\ u = v.
Proof. intros E. injection E. auto. Qed.

Lemma each_fst {A} (f : A -> list N -> list (list N) * list N) g (I : list N -> Prop) l b :
  (forall x b, In x l -> I b -> fst (f x b) = g x /\ I (snd (f x b))) -> I b -> fst (each f l b) = flat_map g l.
Proof. intros H Hb. now apply (each_eq f g I l H b). Qed.

(** ** Prefixes *)
Lemma appended_enum s : enumerates (appended_keys s) (fun k => exists t, s = k ++ t).
Proof.
  unfold appended_keys. split.
  - apply NoDup_map_in; [|apply seq_NoDup]. intros x y Hx Hy E. apply in_seq in Hx. apply in_seq in Hy.
    apply (f_equal (@List.length N)) in E. rewrite !firstn_length in E. lia.
  - intros k. rewrite in_map_iff. split.
    + intros (i & <- & _). exists (skipn i s). symmetry. apply firstn_skipn.
    + intros (t & ->). exists (List.length k). split; [apply firstn_app_exact; reflexivity|].
      apply in_seq. rewrite app_length. lia.
Qed.
Lemma zeros_enum n : enumerates (zeros_keys n) (fun k => exists m, (m <= n)%nat /\ k = repeat 0 m).
Proof.
  unfold zeros_keys. split.
  - apply NoDup_map_in; [|apply seq_NoDup]. intros x y Hx Hy E. apply in_seq in Hx. apply in_seq in Hy.
    apply (f_equal (@List.length N)) in E. rewrite !firstn_length, !repeat_length in E. lia.
  - assert (F : forall i m, (i <= m)%nat -> firstn i (repeat 0 m) = repeat 0 i).
    { induction i as [|i IH]; intros [|m] H; try lia; [reflexivity|reflexivity|]. cbn [repeat firstn]. rewrite IH by lia. reflexivity. }
    intros k. rewrite in_map_iff. split.
    + intros (i & <- & Hi). apply in_seq in Hi. exists i. split; [lia|]. apply F. lia.
    + intros (m & L & ->). exists m. split; [now apply F|]. apply in_seq. lia.
Qed.

(** ** All strings of one to three bytes *)
Definition small_list (n : nat) (short : bool) : list (list N) :=
  flat_map (fun i => [N.of_nat i] :: flat_map (fun j => [N.of_nat i; N.of_nat j] ::
    if short then [] else flat_map (fun k => [[N.of_nat i; N.of_nat j; N.of_nat k]]) (seq 0 n)) (seq 0 n)) (seq 0 n).
Lemma small_eq n short : (n <= 256)%nat -> small_keys n short = small_list n short.
Proof.
  intros L. unfold small_keys, small_list.
  assert (W : forall i, In i (seq 0 n) -> wrap 8 (N.of_nat i) = N.of_nat i).
  { intros i Hi. apply in_seq in Hi. apply wrap_small. red. change (2 ^ 8) with 256. lia. }
  match goal with |- fst (each ?f ?l ?bb) = flat_map ?g ?l => apply (each_fst f g (fun b => List.length b = 3%nat) l bb) end;
    [|reflexivity].
  intros i b Hi Hb. destruct b as [|x [|y [|z [|]]]]; try discriminate. cbn [set_nth firstn]. rewrite (W i Hi).
  match goal with |- context [each ?f ?l ?bb] =>
    destruct (each_eq f (fun j => [N.of_nat i; N.of_nat j] ::
      if short then [] else flat_map (fun k => [[N.of_nat i; N.of_nat j; N.of_nat k]]) (seq 0 n))
      (fun b => exists x y, b = [N.of_nat i; x; y]) l) with (b := bb) as [E1 E2]; [|eauto|] end.
  2:{ match goal with |- context [each ?f ?l ?bb] => destruct (each f l bb) as [ks b'] end. cbn [fst snd] in *. subst ks.
      destruct E2 as (x' & y' & ->). auto. }
  intros j b Hj (x' & y' & ->). cbn [set_nth firstn]. rewrite (W j Hj). destruct short; [cbn; eauto|].
  match goal with |- context [each ?f ?l ?bb] =>
    destruct (each_eq f (fun k => [[N.of_nat i; N.of_nat j; N.of_nat k]])
      (fun b => exists y, b = [N.of_nat i; N.of_nat j; y]) l) with (b := bb) as [E1 E2]; [|eauto|] end.
  2:{ match goal with |- context [each ?f ?l ?bb] => destruct (each f l bb) as [ks b'] end. cbn [fst snd] in *. subst ks.
      destruct E2 as (z' & ->). eauto. }
  intros k b Hk (z' & ->). cbn [set_nth firstn]. rewrite (W k Hk). cbn. eauto.
Qed.
Lemma small_enum : enumerates (small_keys 256 Short) (fun k => byte_string k /\ (1 <= List.length k <= 3)%nat).
Proof.
  rewrite small_eq by lia. unfold Short, small_list. remember 256%nat as n eqn:En. split.
  - apply NoDup_flat_map; [apply seq_NoDup| |].
    + intros i _. constructor.
      * intros I. apply in_flat_map in I. destruct I as (j & _ & [I|I]); [discriminate|].
        apply in_flat_map in I. destruct I as (k & _ & [I|[]]). discriminate.
      * apply NoDup_flat_map; [apply seq_NoDup| |].
        -- intros j _. constructor.
           ++ intros I. apply in_flat_map in I. destruct I as (k & _ & [I|[]]). discriminate.
           ++ apply NoDup_flat_map; [apply seq_NoDup|intros k _; constructor; [intros []|constructor]|].
              intros x y z _ _ [<-|[]] [E|[]]. apply Nat2N.inj. congruence.
        -- intros x y z _ _ Hx Hy. apply Nat2N.inj.
           assert (Q : forall t, In z ([N.of_nat i; N.of_nat t] :: flat_map (fun k => [[N.of_nat i; N.of_nat t; N.of_nat k]]) (seq 0 n)) ->
             nth 1 z 0 = N.of_nat t).
           { intros t [<-|I]; [reflexivity|]. apply in_flat_map in I. destruct I as (k & _ & [<-|[]]). reflexivity. }
           apply Q in Hx. apply Q in Hy. congruence.
    + intros x y z _ _ Hx Hy. apply Nat2N.inj.
      assert (Q : forall t, In z ([N.of_nat t] :: flat_map (fun j => [N.of_nat t; N.of_nat j] :: flat_map (fun k => [[N.of_nat t; N.of_nat j; N.of_nat k]]) (seq 0 n)) (seq 0 n)) ->
        nth 0 z 0 = N.of_nat t).
      { intros t [<-|I]; [reflexivity|]. apply in_flat_map in I. destruct I as (j & _ & [<-|I]); [reflexivity|].
        apply in_flat_map in I. destruct I as (k & _ & [<-|[]]). reflexivity. }
      apply Q in Hx. apply Q in Hy. congruence.
  - intros k. rewrite in_flat_map. split.
    + intros (i & Hi & I). apply in_seq in Hi. assert (Bi : N.of_nat i < 256) by lia.
      destruct I as [<-|I]; [split; [repeat constructor; assumption|cbn; lia]|].
      apply in_flat_map in I. destruct I as (j & Hj & I). apply in_seq in Hj. assert (Bj : N.of_nat j < 256) by lia.
      destruct I as [<-|I]; [split; [repeat constructor; assumption|cbn; lia]|].
      apply in_flat_map in I. destruct I as (l & Hl & [<-|[]]). apply in_seq in Hl. assert (N.of_nat l < 256) by lia.
      split; [repeat constructor; assumption|cbn; lia].
    + intros (B & L).
      assert (Q : forall x, x < 256 -> In (N.to_nat x) (seq 0 n)) by (intros x Hx; apply in_seq; lia).
      destruct k as [|a [|b [|c [|d k]]]]; cbn [List.length] in L; try lia;
        unfold byte_string in B; repeat (rewrite Forall_cons_iff in B; destruct B as [? B]);
        exists (N.to_nat a); rewrite N2Nat.id; (split; [auto|]).
      * now left.
      * right. apply in_flat_map. exists (N.to_nat b). rewrite N2Nat.id. split; [auto|]. now left.
      * right. apply in_flat_map. exists (N.to_nat b). rewrite N2Nat.id. split; [auto|]. right.
        apply in_flat_map. exists (N.to_nat c). rewrite N2Nat.id. split; [auto|]. now left.
Qed.
Lemma flat_map_len_N {A B} (f : A -> list B) l c : (forall x, In x l -> N.of_nat (List.length (f x)) = c) ->
  N.of_nat (List.length (flat_map f l)) = N.of_nat (List.length l) * c.
Proof.
  induction l as [|x l IH]; intros H; [reflexivity|]. cbn [flat_map List.length]. rewrite app_length, Nat2N.inj_add, Nat2N.inj_succ.
  rewrite (H x) by now left. rewrite IH by (intros; apply H; now right). lia.
Qed.
Lemma small_length : N.of_nat (List.length (small_keys 256 Short)) = 16843008.
Proof.
  rewrite small_eq by lia. unfold Short, small_list. rewrite flat_map_len_N with (c := 65793); [now rewrite seq_length|].
  intros i _. cbn [List.length]. rewrite Nat2N.inj_succ, flat_map_len_N with (c := 257); [now rewrite seq_length|].
  intros j _. cbn [List.length]. rewrite Nat2N.inj_succ, flat_map_len_N with (c := 1); [now rewrite seq_length|]. reflexivity.
Qed.

(** ** Text keys *)
Lemma set_nth_at {A} (p : list A) n x y r : n = List.length p -> set_nth n x (p ++ y :: r) = p ++ x :: r.
Proof. intros ->. apply HtProofs.set_nth_app. Qed.
Definition text_list (S0 p q : list N) : list (list N) :=
  flat_map (fun i => flat_map (fun j => flat_map (fun k => flat_map (fun x => [p ++ i :: j :: k :: x :: q]) S0) S0) S0) S0.
Lemma text_eq S0 p q : text_keys S0 p q = text_list S0 p q.
Proof.
  unfold text_keys, text_list.
  assert (E0 : copy_at (List.length p + 4) q (copy_at 0 p (repeat 0 (List.length p + 4 + List.length q))) = p ++ [0; 0; 0; 0] ++ q).
  { assert (E1 : copy_at 0 p (repeat 0 (List.length p + 4 + List.length q)) = p ++ repeat 0 (4 + List.length q)).
    { unfold copy_at. cbv zeta. cbn [firstn app Nat.add]. rewrite repeat_length, Nat.sub_0_r. rewrite (firstn_all2 p) by lia. f_equal.
      rewrite <- Nat.add_assoc, repeat_app, skipn_app_exact by apply repeat_length. reflexivity. }
    rewrite E1. unfold copy_at. cbv zeta. rewrite app_length, repeat_length.
    replace (List.length p + (4 + List.length q) - (List.length p + 4))%nat with (List.length q) by lia. rewrite firstn_all.
    rewrite repeat_app, (app_assoc p). rewrite firstn_app_exact by (rewrite app_length, repeat_length; reflexivity).
    rewrite skipn_all2 by (rewrite !app_length, !repeat_length; lia). rewrite app_nil_r, <- app_assoc. reflexivity. }
  rewrite E0. clear E0.
  match goal with |- fst (each ?f ?l ?bb) = flat_map ?g ?l =>
    apply (each_fst f g (fun b => exists x y z w, b = p ++ [x; y; z; w] ++ q) l bb) end; [|do 4 eexists; reflexivity].
  intros i b _ (x0 & y0 & z0 & w0 & ->). cbn [app]. rewrite set_nth_at by reflexivity.
  match goal with |- fst (each ?f ?l ?bb) = flat_map ?g ?l /\ _ =>
    destruct (each_eq f g (fun b => exists y z w, b = p ++ [i; y; z; w] ++ q) l) with (b := bb) as [A1 A2]; [|repeat eexists; reflexivity|] end.
  2:{ split; [exact A1|]. destruct A2 as (y & z & w & ->). repeat eexists; reflexivity. }
  intros j b _ (y1 & z1 & w1 & ->). cbn [app]. 
  assert (E : p ++ i :: y1 :: z1 :: w1 :: q = (p ++ [i]) ++ y1 :: z1 :: w1 :: q) by now rewrite <- app_assoc.
  rewrite E, set_nth_at by (rewrite app_length; reflexivity). clear E. rewrite <- app_assoc. cbn [app].
  match goal with |- fst (each ?f ?l ?bb) = flat_map ?g ?l /\ _ =>
    destruct (each_eq f g (fun b => exists z w, b = p ++ [i; j; z; w] ++ q) l) with (b := bb) as [A1 A2]; [|repeat eexists; reflexivity|] end.
  2:{ split; [exact A1|]. destruct A2 as (z & w & ->). repeat eexists; reflexivity. }
  intros k b _ (z2 & w2 & ->). cbn [app].
  assert (E : p ++ i :: j :: z2 :: w2 :: q = (p ++ [i; j]) ++ z2 :: w2 :: q) by now rewrite <- app_assoc.
  rewrite E, set_nth_at by (rewrite app_length; reflexivity). clear E. rewrite <- app_assoc. cbn [app].
  match goal with |- fst (each ?f ?l ?bb) = flat_map ?g ?l /\ _ =>
    destruct (each_eq f g (fun b => exists w, b = p ++ [i; j; k; w] ++ q) l) with (b := bb) as [A1 A2]; [|repeat eexists; reflexivity|] end.
  2:{ split; [exact A1|]. destruct A2 as (w & ->). repeat eexists; reflexivity. }
  intros x b _ (w3 & ->). cbn [app].
  assert (E : p ++ i :: j :: k :: w3 :: q = (p ++ [i; j; k]) ++ w3 :: q) by now rewrite <- app_assoc.
  rewrite E, set_nth_at by (rewrite app_length; reflexivity). clear E. rewrite <- app_assoc. cbn [app fst snd flat_map]. split; [reflexivity|eexists; reflexivity].
Qed.
Lemma text_enum S0 p q : NoDup S0 -> enumerates (text_keys S0 p q)
  (fun k => exists m, List.length m = 4%nat /\ incl m S0 /\ k = p ++ m ++ q).
Proof.
  intros N. rewrite text_eq. unfold text_list. split.
  - assert (K : forall i j k x i' j' k' x', p ++ i :: j :: k :: x :: q = p ++ i' :: j' :: k' :: x' :: q -> i = i' /\ j = j' /\ k = k' /\ x = x').
    { intros * E. apply app_inv_head in E. injection E. auto. }
    apply NoDup_flat_map; [exact N| |].
    + intros i _. apply NoDup_flat_map; [exact N| |].
      * intros j _. apply NoDup_flat_map; [exact N| |].
        -- intros k _. apply NoDup_flat_map; [exact N|intros x _; constructor; [intros []|constructor]|].
           intros x y z _ _ [<-|[]] [E|[]]. apply K in E. symmetry. tauto.
        -- intros x y z _ _ Hx Hy. apply in_flat_map in Hx. apply in_flat_map in Hy.
           destruct Hx as (a & _ & [<-|[]]). destruct Hy as (b & _ & [E|[]]). apply K in E. symmetry. tauto.
      * intros x y z _ _ Hx Hy. repeat (apply in_flat_map in Hx; destruct Hx as (? & _ & Hx)).
        repeat (apply in_flat_map in Hy; destruct Hy as (? & _ & Hy)). destruct Hx as [<-|[]]. destruct Hy as [E|[]]. apply K in E. symmetry. tauto.
    + intros x y z _ _ Hx Hy. repeat (apply in_flat_map in Hx; destruct Hx as (? & _ & Hx)).
      repeat (apply in_flat_map in Hy; destruct Hy as (? & _ & Hy)). destruct Hx as [<-|[]]. destruct Hy as [E|[]]. apply K in E. symmetry. tauto.
  - intros z. split.
    + intros H. repeat (apply in_flat_map in H; destruct H as (? & ? & H)). destruct H as [<-|[]].
      eexists [_; _; _; _]. split; [reflexivity|]. split; [|reflexivity]. intros t [<-|[<-|[<-|[<-|[]]]]]; assumption.
    + intros (m & L & I & ->). destruct m as [|a [|b [|c [|d [|]]]]]; try discriminate.
      apply in_flat_map. exists a. split; [apply I; cbn; tauto|].
      apply in_flat_map. exists b. split; [apply I; cbn; tauto|].
      apply in_flat_map. exists c. split; [apply I; cbn; tauto|].
      apply in_flat_map. exists d. split; [apply I; cbn; tauto|]. now left.
Qed.
Lemma text_length S0 p q : N.of_nat (List.length (text_keys S0 p q)) = N.of_nat (List.length S0) ^ 4.
Proof.
  rewrite text_eq. unfold text_list. set (n := N.of_nat (List.length S0)).
  rewrite flat_map_len_N with (c := n * (n * (n * 1))); [fold n; nia|].
  intros; rewrite flat_map_len_N with (c := n * (n * 1)); [reflexivity|].
  intros; rewrite flat_map_len_N with (c := n * 1); [reflexivity|].
  intros; rewrite flat_map_len_N with (c := 1); reflexivity.
Qed.
Fixpoint nodupb (l : list N) : bool := match l with [] => true | x :: r => negb (existsb (N.eqb x) r) && nodupb r end.
Lemma nodupb_ok l : nodupb l = true -> NoDup l.
Proof.
  induction l as [|x l IH]; intros H; constructor; cbn [nodupb] in H; apply andb_true_iff in H; destruct H as [H1 H2]; auto.
  intros I. apply negb_true_iff in H1. rewrite <- not_true_iff_false, existsb_exists in H1. apply H1. exists x. now rewrite N.eqb_refl.
Qed.
