(** Programs with several digests. *)
From Coq Require Import NArith ZArith List Arith Lia Bool.
From Verif Require Import Words WordLemmas ListLemmas Blocks Mem KeccakModel KeccakProofs3 KeccakProofs4 KeccakProofs5 SipModel
  JenkinsModel Mm3Model DigMemModel DigMemSpec DigMemProofs.
Import ListNotations.
Open Scope N_scope.

Lemma nth_error_upd {A} (l : list A) i x j : nth_error (upd l i x) j = if Nat.eqb j i then match nth_error l j with Some _ => Some x | None => None end else nth_error l j.
Proof.
  revert i j. induction l as [|y l IH]; intros [|i] [|j]; cbn; auto. now destruct (Nat.eqb j i).
Qed.
Lemma Forall2_nth {A B} (P : A -> B -> Prop) la lb i : Forall2 P la lb ->
  match nth_error la i with Some a => exists b, nth_error lb i = Some b /\ P a b | None => nth_error lb i = None end.
Proof. intros H. revert i. induction H as [|a b la lb Hp H IH]; intros [|i]; cbn; eauto. apply IH. Qed.
Lemma Forall2_upd {A B} (P : A -> B -> Prop) la lb i a b : Forall2 P la lb -> P a b -> Forall2 P (upd la i a) (upd lb i b).
Proof. intros H Hp. revert i. induction H; intros [|i]; cbn; constructor; auto. Qed.
Lemma Forall2_by {A B} (P Q : A -> B -> Prop) la lb : Forall2 P la lb ->
  (forall i a b, nth_error la i = Some a -> nth_error lb i = Some b -> P a b -> Q a b) -> Forall2 Q la lb.
Proof.
  intros H. induction H as [|a b la lb Hp H IH]; intros F; constructor; [now apply (F 0%nat)|].
  apply IH. intros i x y Hx Hy. now apply (F (S i)).
Qed.

(** The program's arrays. *)
Record mine (m : heap) (own : list nat) (ms : list (list N)) : Prop := {
  p_len : length own = length ms; p_nodup : NoDup own;
  p_arr : forall a, (a < length ms)%nat -> (nth a own 0 < length m)%nat /\ array m (nth a own 0%nat) = nth a ms [] }.
Lemma mine_lt m own ms a : mine m own ms -> In a own -> (a < length m)%nat.
Proof. intros [L _ A] H. apply (In_nth _ _ 0%nat) in H. destruct H as (i & Hi & <-). apply A. lia. Qed.
Lemma mine_in m own ms a : mine m own ms -> (a < length ms)%nat -> In (nth a own 0%nat) own.
Proof. intros [L _ _] H. apply nth_In. lia. Qed.
Lemma mine_only F m m' own ms : only F m m' -> (forall a, In a F -> ~ In a own) -> mine m own ms -> mine m' own ms.
Proof.
  intros [L H] D [L1 N1 A1]. constructor; auto. intros a Ha. destruct (A1 a Ha) as [P Q]. split; [lia|].
  rewrite <- Q. apply H; [exact P|]. intros I. apply (D _ I). apply nth_In. lia.
Qed.
Lemma mine_alloc m own ms bs : mine m own ms -> mine (m ++ [bs]) (own ++ [length m]) (ms ++ [bs]).
Proof.
  intros M. pose proof (fun a => mine_lt m own ms a M) as Lt. destruct M as [L1 N1 A1]. constructor.
  - rewrite !app_length. cbn [length]. lia.
  - apply NoDup_rev in N1. rewrite <- (rev_involutive (own ++ _)). apply NoDup_rev. rewrite rev_app_distr. cbn [rev app].
    constructor; [|exact N1]. rewrite <- in_rev. intros I. apply Lt in I. lia.
  - rewrite app_length. cbn [length]. intros a Ha. destruct (Nat.eq_dec a (length ms)) as [->|Hn].
    + rewrite (app_nth2 own) by lia. rewrite (app_nth2 ms) by lia. rewrite L1, !Nat.sub_diag. cbn [nth].
      split; [rewrite app_length; cbn [length]; lia|]. apply array_last.
    + rewrite !app_nth1 by lia. destruct (A1 a ltac:(lia)) as [P Q]. split; [rewrite app_length; lia|]. now rewrite array_app.
Qed.
Lemma mine_assign m own ms a o bs : mine m own ms -> (a < length ms)%nat -> mine (store m (nth a own 0%nat) o bs) own (store ms a o bs).
Proof.
  intros [L1 N1 A1] Ha. constructor; [now rewrite store_length|exact N1|]. rewrite store_length. intros b Hb.
  destruct (A1 b Hb) as (P & R). rewrite store_length. split; [exact P|].
  change (nth b (store ms a o bs) []) with (array (store ms a o bs) b). destruct (Nat.eq_dec b a) as [->|Hn].
  - rewrite (array_store_same m) by exact P. rewrite (array_store_same ms) by exact Ha. rewrite R. reflexivity.
  - rewrite (array_store_other ms) by exact Hn. rewrite array_store_other; [exact R|].
    intros E. apply Hn. apply (proj1 (NoDup_nth own 0%nat) N1); [lia|lia|exact E].
Qed.
Lemma cut_ok m own ms a o n : mine m own ms -> in_bounds ms a o n ->
  wf m (cut m (nth a own 0%nat) o n) /\ read m (cut m (nth a own 0%nat) o n) = firstn n (skipn o (nth a ms [])).
Proof.
  intros [_ _ A1] [Ha Hl]. destruct (A1 a Ha) as (P & R). unfold cut, read. cbn [len off arr]. rewrite R. split; [|reflexivity].
  repeat split; cbn [len cap off arr]; rewrite ?R; lia.
Qed.
Lemma mine_append grow m own ms a o n b : mine m own ms -> in_bounds ms a o n -> b <> [] ->
  let '(m', s) := append grow m (cut m (nth a own 0%nat) o n) b in
  let ms' := fst (append grow ms (cut ms a o n) b) in
  let own' := if Nat.ltb (length m) (length m') then own ++ [length m] else own in
  mine m' own' ms' /\ only own m m' /\ read m' s = firstn n (skipn o (nth a ms [])) ++ b /\
  (forall x, In x own' -> In x own \/ (length m <= x)%nat).
Proof.
  intros M B Hb. pose proof (cut_ok m own ms a o n M B) as [W R].
  destruct (append grow m (cut m (nth a own 0%nat) o n) b) as [m' s] eqn:E. cbv zeta.
  assert (Lb : (0 < length b)%nat) by (destruct b; [congruence|cbn; lia]).
  destruct (append_read grow m _ b m' s W E ltac:(lia)) as (Rd & _). rewrite R in Rd.
  pose proof (append_frame grow m _ b m' s W E) as (L & Fr & _). cbn [arr cut] in Fr.
  assert (On : only own m m').
  { split; [exact L|]. intros x Hx Hn. apply Fr; [exact Hx|]. intros ->. apply Hn. apply (mine_in m own ms); [exact M|apply B]. }
  pose proof (p_arr m own ms M a (proj1 B)) as [P Q].
  assert (Ec : cap (cut m (nth a own 0%nat) o n) = cap (cut ms a o n)). { unfold cut. cbn [cap]. rewrite Q. reflexivity. }
  unfold append in E |- *. rewrite Ec in E. replace (len (cut m (nth a own 0%nat) o n)) with n in E by reflexivity.
  replace (len (cut ms a o n)) with n by reflexivity.
  destruct (Nat.leb (n + length b) (cap (cut ms a o n))); inversion E; subst m' s; clear E; cbn [fst].
  - rewrite store_length, Nat.ltb_irrefl. split; [|split; [exact On|split; [exact Rd|auto]]].
    cbn [cut arr off]. apply mine_assign; [exact M|apply B].
  - rewrite app_length. cbn [length]. replace (Nat.ltb (length m) (length m + 1)) with true by (symmetry; apply Nat.ltb_lt; lia).
    split; [|split; [exact On|split; [exact Rd|]]].
    + rewrite R. replace (read ms (cut ms a o n)) with (firstn n (skipn o (nth a ms []))) by reflexivity. apply mine_alloc. exact M.
    + intros x Hx. apply in_app_or in Hx. destruct Hx as [Hx|[<-|[]]]; [now left|right; lia].
Qed.

(** The memory of a program with digests.  No array belongs to two digests that may be written
    to; one that may not be can share an array with one that may, whose tail is at least as long.
    [fl] marks those that may not. *)
Definition fz (fl : list bool) (i : nat) : bool := nth i fl false.
Record inv (m : heap) (own : list nat) (ms : list (list N)) (ds : list obj) (vs : list value) (fl : list bool) : Prop := {
  i_mine : mine m own ms;
  i_is : Forall2 (is m) ds vs;
  i_fl : length fl = length ds;
  i_own : forall i d x, nth_error ds i = Some d -> In x (foot d) -> ~ In x own;
  i_jen : forall i d, nth_error ds i = Some d -> fz fl i = true -> jen d = true;
  i_dis : forall i j d d' x, nth_error ds i = Some d -> nth_error ds j = Some d' -> In x (foot d) -> In x (foot d') ->
    fz fl i = false -> fz fl j = false -> i = j;
  i_pre : forall i j d d' x, nth_error ds i = Some d -> nth_error ds j = Some d' -> In x (foot d) -> In x (foot d') ->
    fz fl i = true -> fz fl j = false -> jen d' = true /\ (tlen d <= tlen d')%nat }.
Lemma inv_lt m own ms ds vs fl i d x : inv m own ms ds vs fl -> nth_error ds i = Some d -> In x (foot d) -> (x < length m)%nat.
Proof.
  intros I Hi Hx. pose proof (Forall2_nth _ _ _ i (i_is _ _ _ _ _ _ I)) as H. rewrite Hi in H. destruct H as (v & _ & Hv). now apply (is_lt m d v).
Qed.
(** A step of the program's own. *)
Lemma inv_own_step F m m' own own' ms ms' ds vs fl : inv m own ms ds vs fl -> mine m' own' ms' -> only F m m' ->
  (forall x, In x F -> In x own) -> (forall x, In x own' -> In x own \/ (length m <= x)%nat) -> inv m' own' ms' ds vs fl.
Proof.
  intros I M [L H] HF HO. pose proof (fun i d x => inv_lt m own ms ds vs fl i d x I) as Lt. destruct I as [_ Is Lf Ow Je Di Pr].
  constructor; [exact M| |exact Lf| |exact Je|exact Di|exact Pr].
  - apply (Forall2_by _ _ _ _ Is). intros i d v Hd Hv Hi. apply (is_frame m m' d v Hi L). intros x Hx. apply H; [now apply (Lt i d)|].
    intros X. apply (Ow i d x Hd Hx). now apply HF.
  - intros i d x Hd Hx X. destruct (HO x X) as [X1|X1]; [now apply (Ow i d x)|]. pose proof (Lt i d x Hd Hx). lia.
Qed.
Lemma upd_at {A} (l : list A) i d d' j e : nth_error l i = Some d -> nth_error (upd l i d') j = Some e -> j = i /\ e = d' \/ j <> i /\ nth_error l j = Some e.
Proof.
  intros Hi. rewrite nth_error_upd. destruct (Nat.eqb_spec j i) as [->|Hn]; [rewrite Hi; intros X; left; split; congruence|auto].
Qed.
Lemma Forall2_upd_by {A B} (P Q : A -> B -> Prop) la lb i a b : Forall2 P la lb -> Q a b ->
  (forall j x y, nth_error la j = Some x -> nth_error lb j = Some y -> P x y -> j <> i -> Q x y) -> Forall2 Q (upd la i a) (upd lb i b).
Proof.
  intros H Hq. revert i. induction H as [|e w ds vs He Is IH]; intros [|i] G; cbn [upd]; constructor; auto.
  - apply (Forall2_by _ _ _ _ Is). intros j x y Hx Hy Hxy. apply (G (S j) x y Hx Hy Hxy). discriminate.
  - apply (G 0%nat e w eq_refl eq_refl He). discriminate.
  - apply IH. intros j x y Hx Hy Hxy Hn. apply (G (S j) x y Hx Hy Hxy). congruence.
Qed.
(** A step of one digest that may be written to. *)
Lemma inv_dig_step m m' own ms ds vs fl i d d' v' : inv m own ms ds vs fl -> nth_error ds i = Some d -> fz fl i = false -> is m' d' v' -> only (foot d) m m' ->
  (forall x, In x (foot d') -> In x (foot d) \/ (length m <= x)%nat) -> jen d' = jen d ->
  (jen d = true -> (forall a, In a (foot d) -> prefix_same (tlen d) m m' a) /\ forall x, In x (foot d) -> In x (foot d') -> (tlen d <= tlen d')%nat) ->
  inv m' own ms (upd ds i d') (upd vs i v') fl.
Proof.
  intros I Hi Hf Hd' [L H] HF Hj HP. pose proof (fun i d x => inv_lt m own ms ds vs fl i d x I) as Lt. destruct I as [M Is Lf Ow Je Di Pr].
  constructor.
  - apply (mine_only (foot d) m); [split; assumption| |exact M]. intros x Hx. now apply (Ow i d).
  - apply (Forall2_upd_by _ _ _ _ _ _ _ Is Hd'). intros j e w He Hw Hej Hn. apply (is_frame_pre m m' e w Hej L). intros x Hx.
    destruct (in_dec Nat.eq_dec x (foot d)) as [X|X]; [|left; apply H; [now apply (Lt j e)|exact X]].
    destruct (fz fl j) eqn:Fj; [|exfalso; apply Hn; now apply (Di j i e d x)].
    right. split; [now apply (Je j)|]. destruct (Pr j i e d x He Hi Hx X Fj Hf) as [J T]. destruct (HP J) as [P _].
    destruct (P x X) as [P1 P2]. split; [exact P1|]. rewrite <- (Nat.min_l (tlen e) (tlen d)) by exact T. rewrite <- !firstn_firstn. now rewrite P2.
  - now rewrite upd_length.
  - intros j e x He Hx X. destruct (upd_at ds i d d' j e Hi He) as [[-> ->]|[Hn He']].
    + destruct (HF x Hx) as [X1|X1]; [now apply (Ow i d x)|]. pose proof (mine_lt m own ms x M X). lia.
    + now apply (Ow j e x).
  - intros j e He Fj. destruct (upd_at ds i d d' j e Hi He) as [[-> ->]|[Hn He']]; [congruence|now apply (Je j)].
  - assert (Half : forall j e x, j <> i -> nth_error ds j = Some e -> In x (foot e) -> In x (foot d') -> fz fl j = false -> False).
    { intros j e x Hn He Hx X Fj. destruct (HF x X) as [X1|X1]; [apply Hn; now apply (Di j i e d x)|]. pose proof (Lt j e x He Hx). lia. }
    intros j k e e' x He He' Hx Hx' Fj Fk. destruct (upd_at ds i d d' j e Hi He) as [[-> ->]|[Hn Hej]], (upd_at ds i d d' k e' Hi He') as [[-> ->]|[Hn' Hek]]; auto.
    + exfalso. now apply (Half k e' x).
    + exfalso. now apply (Half j e x).
    + now apply (Di j k e e' x).
  - intros j k e e' x He He' Hx Hx' Fj Fk. destruct (upd_at ds i d d' j e Hi He) as [[-> ->]|[Hn Hej]]; [congruence|].
    destruct (upd_at ds i d d' k e' Hi He') as [[-> ->]|[Hn' Hek]]; [|now apply (Pr j k e e' x)].
    destruct (HF x Hx') as [X1|X1]; [|exfalso; pose proof (Lt j e x Hej Hx); lia].
    destruct (Pr j i e d x Hej Hi Hx X1 Fj Hf) as [J T]. destruct (HP J) as [_ P]. split; [congruence|]. specialize (P x X1 Hx'). lia.
Qed.
(** A step of one digest that leaves the memory alone. *)
Lemma inv_still m own ms ds vs fl i d d' v' f' : inv m own ms ds vs fl -> nth_error ds i = Some d -> is m d' v' ->
  (forall x, In x (foot d') -> In x (foot d)) -> jen d' = jen d -> (forall x, In x (foot d') -> jen d = true -> tlen d' = tlen d) ->
  (f' = fz fl i \/ f' = false /\ (foot d' = [] \/ fz fl i = false)) -> inv m own ms (upd ds i d') (upd vs i v') (upd fl i f').
Proof.
  intros I Hi Hd' HF Hj HT Hf. pose proof (fun i d x => inv_lt m own ms ds vs fl i d x I) as Lt. destruct I as [M Is Lf Ow Je Di Pr].
  assert (Li : (i < length fl)%nat). { rewrite Lf. apply nth_error_Some. congruence. }
  assert (Fi : fz (upd fl i f') i = f') by (unfold fz; now apply upd_same).
  assert (Fo : forall j, j <> i -> fz (upd fl i f') j = fz fl j) by (intros j Hn; unfold fz; now apply upd_other).
  assert (Ff : forall x, In x (foot d') -> f' = fz fl i). { intros x Hx. destruct Hf as [Hf|[Hf [Hf'|Hf']]]; [exact Hf|rewrite Hf' in Hx; destruct Hx|congruence]. }
  assert (Ft : f' = true -> fz fl i = true) by (intros ->; destruct Hf as [<-|[X _]]; [reflexivity|discriminate]).
  constructor; [exact M| |now rewrite !upd_length| | | |].
  - apply (Forall2_upd_by _ _ _ _ _ _ _ Is Hd'). auto.
  - intros j e x He Hx X. destruct (upd_at ds i d d' j e Hi He) as [[-> ->]|[Hn He']]; [now apply (Ow i d x Hi (HF x Hx))|now apply (Ow j e x)].
  - intros j e He Fj. destruct (upd_at ds i d d' j e Hi He) as [[-> ->]|[Hn He']].
    + rewrite Fi in Fj. rewrite Hj. apply (Je i d Hi). auto.
    + rewrite Fo in Fj by exact Hn. now apply (Je j).
  - intros j k e e' x He He' Hx Hx' Fj Fk. destruct (upd_at ds i d d' j e Hi He) as [[-> ->]|[Hn Hej]], (upd_at ds i d d' k e' Hi He') as [[-> ->]|[Hn' Hek]]; auto.
    + rewrite Fi in Fj. rewrite Fo in Fk by exact Hn'. rewrite (Ff x Hx) in Fj. now apply (Di i k d e' x Hi Hek (HF x Hx)).
    + rewrite Fi in Fk. rewrite Fo in Fj by exact Hn. rewrite (Ff x Hx') in Fk. now apply (Di j i e d x Hej Hi Hx (HF x Hx')).
    + rewrite Fo in Fj, Fk by assumption. now apply (Di j k e e' x).
  - intros j k e e' x He He' Hx Hx' Fj Fk. destruct (upd_at ds i d d' j e Hi He) as [[-> ->]|[Hn Hej]], (upd_at ds i d d' k e' Hi He') as [[-> ->]|[Hn' Hek]].
    + congruence.
    + rewrite Fi in Fj. rewrite Fo in Fk by exact Hn'. rewrite (Ff x Hx) in Fj.
      destruct (Pr i k d e' x Hi Hek (HF x Hx) Hx' Fj Fk) as [J T]. split; [exact J|]. rewrite (HT x Hx); [exact T|now apply (Je i)].
    + rewrite Fi in Fk. rewrite Fo in Fj by exact Hn. rewrite (Ff x Hx') in Fk.
      destruct (Pr j i e d x Hej Hi Hx (HF x Hx') Fj Fk) as [J T]. split; [congruence|]. now rewrite (HT x Hx' J).
    + rewrite Fo in Fj, Fk by assumption. now apply (Pr j k e e' x).
Qed.
Lemma app_at {A} (l : list A) d j e : nth_error (l ++ [d]) j = Some e -> j = length l /\ e = d \/ (j < length l)%nat /\ nth_error l j = Some e.
Proof.
  intros He. destruct (Nat.lt_ge_cases j (length l)) as [Hj|Hj].
  - right. split; [exact Hj|]. now rewrite nth_error_app1 in He.
  - left. rewrite nth_error_app2 in He by exact Hj. destruct (j - length l)%nat as [|k] eqn:Ek; cbn in He; [split; [lia|congruence]|].
    destruct k; discriminate.
Qed.
Lemma fz_last fl b : fz (fl ++ [b]) (length fl) = b.
Proof. unfold fz. rewrite app_nth2 by lia. now rewrite Nat.sub_diag. Qed.
Lemma fz_app fl b i : (i < length fl)%nat -> fz (fl ++ [b]) i = fz fl i.
Proof. intros H. unfold fz. now rewrite app_nth1. Qed.
Lemma inv_new_dig m m' own ms ds vs fl d v : inv m own ms ds vs fl -> is m' d v -> only [] m m' -> (forall x, In x (foot d) -> (length m <= x)%nat) ->
  inv m' own ms (ds ++ [d]) (vs ++ [v]) (fl ++ [false]).
Proof.
  intros I Hd [L H] HF. pose proof (fun i d x => inv_lt m own ms ds vs fl i d x I) as Lt. destruct I as [M Is Lf Ow Je Di Pr].
  constructor.
  - apply (mine_only [] m); [split; assumption|intros x []|exact M].
  - apply Forall2_app; [|constructor; [exact Hd|constructor]].
    apply (Forall2_by _ _ _ _ Is). intros j e w He Hw Hej. apply (is_frame m m' e w Hej L). intros x Hx. apply H; [now apply (Lt j e)|auto].
  - rewrite !app_length. cbn [length]. lia.
  - intros j e x He Hx X. destruct (app_at ds d j e He) as [[-> ->]|[Hn He']]; [|now apply (Ow j e x)].
    pose proof (HF x Hx). pose proof (mine_lt m own ms x M X). lia.
  - intros j e He Fj. destruct (app_at ds d j e He) as [[-> ->]|[Hn He']]; [rewrite <- Lf, fz_last in Fj; discriminate|].
    rewrite fz_app in Fj by lia. now apply (Je j).
  - intros j k e e' x He He' Hx Hx' Fj Fk. destruct (app_at ds d j e He) as [[-> ->]|[Hn Hj]], (app_at ds d k e' He') as [[-> ->]|[Hn' Hk]]; auto.
    + exfalso. pose proof (HF x Hx). pose proof (Lt k e' x Hk Hx'). lia.
    + exfalso. pose proof (HF x Hx'). pose proof (Lt j e x Hj Hx). lia.
    + rewrite fz_app in Fj, Fk by lia. now apply (Di j k e e' x).
  - intros j k e e' x He He' Hx Hx' Fj Fk. destruct (app_at ds d j e He) as [[-> ->]|[Hn Hj]]; [rewrite <- Lf, fz_last in Fj; discriminate|].
    destruct (app_at ds d k e' He') as [[-> ->]|[Hn' Hk]]; [exfalso; pose proof (HF x Hx'); pose proof (Lt j e x Hj Hx); lia|].
    rewrite fz_app in Fj, Fk by lia. now apply (Pr j k e e' x).
Qed.
(** A copy: one of the two may not be written to. *)
Lemma inv_copy m own ms ds vs fl i d v : inv m own ms ds vs fl -> nth_error ds i = Some d -> nth_error vs i = Some v -> jen d = true ->
  inv m own ms (ds ++ [d]) (vs ++ [v]) (fl ++ [true]) /\
  (fz fl i = false -> inv m own ms (ds ++ [d]) (vs ++ [v]) (upd fl i true ++ [false])).
Proof.
  intros I Hi Hv J. destruct I as [M Is Lf Ow Je Di Pr].
  assert (Li : (i < length fl)%nat). { rewrite Lf. apply nth_error_Some. congruence. }
  assert (Isd : is m d v). { pose proof (Forall2_nth _ _ _ i Is) as X. rewrite Hi in X. destruct X as (v0 & X1 & X2). congruence. }
  assert (F2 : Forall2 (is m) (ds ++ [d]) (vs ++ [v])) by (apply Forall2_app; [exact Is|constructor; [exact Isd|constructor]]).
  assert (O2 : forall j e x, nth_error (ds ++ [d]) j = Some e -> In x (foot e) -> ~ In x own).
  { intros j e x He. destruct (app_at ds d j e He) as [[-> ->]|[Hn He']]; [now apply (Ow i)|now apply (Ow j)]. }
  split; [|intros Fi].
  - constructor; [exact M|exact F2|rewrite !app_length; cbn [length]; lia|exact O2| | |].
    + intros j e He Fj. destruct (app_at ds d j e He) as [[-> ->]|[Hn He']]; [exact J|]. rewrite fz_app in Fj by lia. now apply (Je j).
    + intros j k e e' x He He' Hx Hx' Fj Fk. destruct (app_at ds d j e He) as [[-> ->]|[Hn Hj]]; [rewrite <- Lf, fz_last in Fj; discriminate|].
      destruct (app_at ds d k e' He') as [[-> ->]|[Hn' Hk]]; [rewrite <- Lf, fz_last in Fk; discriminate|].
      rewrite fz_app in Fj, Fk by lia. now apply (Di j k e e' x).
    + intros j k e e' x He He' Hx Hx' Fj Fk. destruct (app_at ds d k e' He') as [[-> ->]|[Hn' Hk]]; [rewrite <- Lf, fz_last in Fk; discriminate|].
      rewrite fz_app in Fk by lia. destruct (app_at ds d j e He) as [[-> ->]|[Hn Hj]].
      * destruct (fz fl i) eqn:Fi; [now apply (Pr i k d e' x)|]. pose proof (Di i k d e' x Hi Hk Hx Hx' Fi Fk). subst k. replace e' with d by congruence. auto.
      * rewrite fz_app in Fj by lia. now apply (Pr j k e e' x).
  - assert (Fo : forall j, (j < length ds)%nat -> fz (upd fl i true ++ [false]) j = if Nat.eqb j i then true else fz fl j).
    { intros j Hj. rewrite fz_app by (rewrite upd_length; lia). unfold fz. destruct (Nat.eqb_spec j i) as [->|Hn]; [now apply upd_same|now apply upd_other]. }
    assert (Fl : fz (upd fl i true ++ [false]) (length ds) = false). { rewrite <- Lf, <- (upd_length fl i true). apply fz_last. }
    constructor; [exact M|exact F2|rewrite !app_length, upd_length; cbn [length]; lia|exact O2| | |].
    + intros j e He Fj. destruct (app_at ds d j e He) as [[-> ->]|[Hn He']]; [congruence|]. rewrite Fo in Fj by lia.
      destruct (Nat.eqb_spec j i) as [->|Hn']; [congruence|now apply (Je j)].
    + assert (Half : forall j e x, (j < length ds)%nat -> nth_error ds j = Some e -> In x (foot e) -> In x (foot d) -> fz (upd fl i true ++ [false]) j = false -> False).
      { intros j e x Hn Hj Hx Hx' Fj. rewrite Fo in Fj by lia. destruct (Nat.eqb_spec j i) as [->|Hn']; [discriminate|].
        apply Hn'. now apply (Di j i e d x). }
      intros j k e e' x He He' Hx Hx' Fj Fk. destruct (app_at ds d j e He) as [[-> ->]|[Hn Hj]], (app_at ds d k e' He') as [[-> ->]|[Hn' Hk]]; auto.
      * exfalso. now apply (Half k e' x).
      * exfalso. now apply (Half j e x).
      * rewrite Fo in Fj, Fk by lia. destruct (Nat.eqb j i); [discriminate|]. destruct (Nat.eqb k i); [discriminate|]. now apply (Di j k e e' x).
    + intros j k e e' x He He' Hx Hx' Fj Fk. destruct (app_at ds d j e He) as [[-> ->]|[Hn Hj]]; [congruence|]. rewrite Fo in Fj by lia.
      destruct (app_at ds d k e' He') as [[-> ->]|[Hn' Hk]].
      * destruct (Nat.eqb_spec j i) as [->|Hn']; [replace e with d by congruence; auto|]. now apply (Pr j i e d x).
      * rewrite Fo in Fk by lia. destruct (Nat.eqb_spec k i) as [->|Hk']; [discriminate|].
        destruct (Nat.eqb_spec j i) as [->|Hj']; [|now apply (Pr j k e e' x)].
        exfalso. apply Hk'. symmetry. replace e with d in * by congruence. now apply (Di i k d e' x).
Qed.
Lemma only_refl F m : only F m m.
Proof. split; auto. Qed.
Lemma v_sum_nonempty v v' b : v_sum v = Ok (v', b) -> b <> [].
Proof.
  destruct v; cbn [v_sum]; unfold sum_332, sum32_332, sum_364, sum_232, sum32_232;
    repeat (match goal with |- context [rbind ?x _] => lazymatch x with rbind _ _ => fail | _ => idtac end; destruct x as [y| | |]; cbn [rbind]; try discriminate; try (destruct y as [y1 y2]; cbn [rbind]) end);
    intros E; injection E as _ <-; unfold mm_sum_bytes32, mm_sum_bytes64, mm_sum_bytes128, sip_sum; try destruct (mh d);
    try destruct (Nat.eqb _ _); try destruct (sip_sum128 d); discriminate.
Qed.
Lemma map_mine m own ms : mine m own ms -> map (array m) own = ms.
Proof.
  intros [L N A]. apply (nth_ext _ _ [] []); [now rewrite map_length|]. rewrite map_length. intros i Hi.
  rewrite (nth_indep _ [] (array m 0%nat)) by now rewrite map_length. rewrite map_nth. apply A. lia.
Qed.
Lemma upd_fz fl i : upd fl i (fz fl i) = fl.
Proof. apply upd_nth. Qed.
Lemma v_copyable_is m d v : is m d v -> v_copyable v = jen d.
Proof. destruct d, v; cbn; tauto. Qed.
Lemma mem_run_ok grow : forall ops m own ms ds vs fl, inv m own ms ds vs fl -> mops_ok grow ms vs ops -> one_writer fl ops ->
  mem_run grow m own ds ops = val_run grow ms vs ops.
Proof.
  induction ops as [|op ops IH]; intros m own ms ds vs fl I Hok Hn.
  - cbn. now rewrite (map_mine m own ms (i_mine _ _ _ _ _ _ I)).
  - destruct op as [bs|a o bs|k|size a o n|i a o n|i a o n|i|i|i]; cbn [mem_run val_run mops_ok one_writer] in *.
    + apply (IH _ _ _ _ _ fl); auto. apply (inv_own_step [] m _ own _ ms _ ds vs fl I); [apply mine_alloc; apply I| |intros x []|].
      * split; [rewrite app_length; lia|]. intros x Hx _. now apply array_app.
      * intros x Hx. apply in_app_or in Hx. destruct Hx as [Hx|[<-|[]]]; [now left|right; lia].
    + destruct Hok as [B Hok]. apply (IH _ _ _ _ _ fl); auto. apply (inv_own_step own m _ own _ ms _ ds vs fl I); [apply mine_assign; [apply I|apply B]| |auto|auto].
      split; [rewrite store_length; lia|]. intros x Hx Hi. apply array_store_other. intros ->. apply Hi. apply (mine_in m own ms); [apply I|apply B].
    + destruct (obj_new m k) as [m' d] eqn:E. destruct (is_new m k m' d E) as (D & O & F). apply (IH _ _ _ _ _ (fl ++ [false])); auto. now apply (inv_new_dig m).
    + destruct Hok as [B Hok]. destruct (cut_ok m own ms a o n (i_mine _ _ _ _ _ _ I) B) as [_ R]. rewrite R.
      destruct (sip_new_digest size (firstn n (skipn o (nth a ms [])))) as [d|]; [|reflexivity].
      apply (IH _ _ _ _ _ (fl ++ [false])); auto. apply (inv_new_dig m); [exact I|now split|split; auto|intros x []].
    + destruct Hok as [B Hok]. destruct Hn as [Hf Hn]. pose proof (Forall2_nth _ _ _ i (i_is _ _ _ _ _ _ I)) as Hi. destruct (nth_error ds i) as [d|] eqn:Ed; [|now rewrite Hi].
      destruct Hi as (v & Ev & Hv). rewrite Ev in *. destruct (cut_ok m own ms a o n (i_mine _ _ _ _ _ _ I) B) as [W R].
      destruct (obj_write grow m d (cut m (nth a own 0%nat) o n)) as [m' d'] eqn:E.
      assert (Nf : ~ In (arr (cut m (nth a own 0%nat) o n)) (foot d)).
      { cbn [arr cut]. intros X. apply (i_own _ _ _ _ _ _ I i d _ Ed X). apply (mine_in m own ms); [apply I|apply B]. }
      destruct (is_write grow m d v _ m' d' Hv W Nf E) as (D & O & F). rewrite R in D. destruct (write_prefix grow m d v _ m' d' Hv E) as [J P].
      apply (IH _ _ _ _ _ fl); auto. now apply (inv_dig_step m m' own ms ds vs fl i d).
    + destruct Hok as [B Hok]. pose proof (Forall2_nth _ _ _ i (i_is _ _ _ _ _ _ I)) as Hi. destruct (nth_error ds i) as [d|] eqn:Ed; [|now rewrite Hi].
      destruct Hi as (v & Ev & Hv). rewrite Ev in *. pose proof (is_sum m d v Hv) as S.
      destruct (v_sum v) as [[v' b]| | |] eqn:Es; [|rewrite S; reflexivity|rewrite S; reflexivity|rewrite S; reflexivity].
      destruct S as (d' & So & D & F). rewrite So. destruct (sum_tl m d d' b So) as [J T]. cbn [rbind].
      pose proof (mine_append grow m own ms a o n b (i_mine _ _ _ _ _ _ I) B (v_sum_nonempty v v' b Es)) as A.
      destruct (append grow m (cut m (nth a own 0%nat) o n) b) as [m' s]. cbv zeta in A. destruct A as (A1 & A2 & A3 & A4). rewrite A3.
      assert (I2 : inv m own ms (upd ds i d') (upd vs i v') fl).
      { rewrite <- (upd_fz fl i). apply (inv_still m own ms ds vs fl i d d' v' (fz fl i) I Ed D); auto. now rewrite F. }
      destruct (append grow ms (cut ms a o n) b) as [ms' s']. cbn [fst] in *.
      rewrite (IH m' (if Nat.ltb (length m) (length m') then own ++ [length m] else own) ms' (upd ds i d') (upd vs i v') fl); auto. apply (inv_own_step own m m' own _ ms ms' _ _ _ I2 A1 A2); auto.
    + pose proof (Forall2_nth _ _ _ i (i_is _ _ _ _ _ _ I)) as Hi. destruct (nth_error ds i) as [d|] eqn:Ed; [|now rewrite Hi].
      destruct Hi as (v & Ev & Hv). rewrite Ev in *. pose proof (is_num m d v Hv) as S.
      destruct (v_num v) as [[v' b]| | |] eqn:Es; [|rewrite S; reflexivity|rewrite S; reflexivity|rewrite S; reflexivity].
      destruct S as (d' & So & D & F). rewrite So. destruct (num_tl m d d' b So) as [J T]. cbn [rbind].
      rewrite (IH m own ms (upd ds i d') (upd vs i v') fl); auto.
      rewrite <- (upd_fz fl i). apply (inv_still m own ms ds vs fl i d d' v' (fz fl i) I Ed D); auto. now rewrite F.
    + pose proof (Forall2_nth _ _ _ i (i_is _ _ _ _ _ _ I)) as Hi. destruct (nth_error ds i) as [d|] eqn:Ed; [|now rewrite Hi].
      destruct Hi as (v & Ev & Hv). rewrite Ev in *. destruct (is_reset m d v Hv) as [D F]. destruct (reset_jen d) as [J T].
      apply (IH _ _ _ _ _ (upd fl i false)); auto. apply (inv_still m own ms ds vs fl i d _ _ false I Ed D); auto.
      * intros x Hx Jd. rewrite (T Jd) in Hx. destruct Hx.
      * right. split; [reflexivity|]. destruct (jen d) eqn:Jd; [left; now apply T|]. right.
        destruct (fz fl i) eqn:Fi; [|reflexivity]. pose proof (i_jen _ _ _ _ _ _ I i d Ed Fi). congruence.
    + pose proof (Forall2_nth _ _ _ i (i_is _ _ _ _ _ _ I)) as Hi. destruct (nth_error ds i) as [d|] eqn:Ed; [|now rewrite Hi].
      destruct Hi as (v & Ev & Hv). rewrite Ev in *. rewrite (v_copyable_is m d v Hv).
      assert (Step : jen d = true -> mem_run grow m own (ds ++ [d]) ops = val_run grow ms (vs ++ [v]) ops).
      { intros J. destruct (inv_copy m own ms ds vs fl i d v I Ed Ev J) as [C1 C2].
        destruct Hn as [Hn|[Hf Hn]]; [apply (IH _ _ _ _ _ (fl ++ [true])); auto|apply (IH _ _ _ _ _ (upd fl i true ++ [false])); auto]. }
      destruct d; cbn [jen] in *; try reflexivity; now apply Step.
Qed.
Lemma no_copy_one ops : forall fl, Forall no_copy ops -> (forall i, nth i fl false = false) -> one_writer fl ops.
Proof.
  induction ops as [|op ops IH]; intros fl H F; [exact I|]. inversion H as [|x l H1 H2]; subst. destruct op; cbn [one_writer]; auto.
  - apply IH; [exact H2|]. intros i. destruct (Nat.lt_trichotomy i (length fl)) as [L|[->|L]]; [rewrite app_nth1 by exact L; auto|apply fz_last|].
    apply nth_overflow. rewrite app_length. cbn [length]. lia.
  - apply IH; [exact H2|]. intros i. destruct (Nat.lt_trichotomy i (length fl)) as [L|[->|L]]; [rewrite app_nth1 by exact L; auto|apply fz_last|].
    apply nth_overflow. rewrite app_length. cbn [length]. lia.
  - apply IH; [exact H2|]. intros i. destruct (Nat.eq_dec i d) as [->|Hn]; [|rewrite upd_other by exact Hn; auto].
    destruct (Nat.lt_ge_cases d (length fl)) as [L|L]; [now apply upd_same|apply nth_overflow; now rewrite upd_length].
  - destruct H1.
Qed.
Lemma inv_start : inv [] [] [] [] [] [].
Proof.
  constructor; [constructor; [reflexivity|constructor|intros a Ha; cbn in Ha; lia]|constructor|reflexivity| | | |].
  all: intros i; intros; destruct i; discriminate.
Qed.
