(** Proofs about package spooky: the mixers and the two hashing paths. *)
From Verif Require Import Words WordLemmas ListLemmas Blocks Mem SLP Bij Mm3Spec Mm3Proofs SpookyModel SpookySpec.
From Verif Require Import JenkinsProofs JenkinsProofs2 JenkinsProofs3.
Open Scope N_scope.

(** ** Programs that write only the first registers *)
Definition writes_below (n : nat) (p : prog) : bool := forallb (fun a => Nat.ltb (asg_dst a) n) p.
Lemma skipn_upd {A} n (l : list A) i x : (i < n)%nat -> skipn n (upd l i x) = skipn n l.
Proof.
  revert l i. induction n as [|n IH]; intros l i H; [lia|]. destruct l as [|y l]; [reflexivity|].
  destruct i; cbn; auto. apply IH. lia.
Qed.
Lemma exec_frame w n p st : writes_below n p = true -> skipn n (exec w p st) = skipn n st.
Proof.
  revert st. induction p as [|[d e] p IH]; intros st H; [reflexivity|]. cbn in H. apply andb_prop in H. destruct H as [H1 H2].
  change (exec w (Set_ d e :: p) st) with (exec w p (upd st d (eval w st e))).
  rewrite IH by assumption. apply skipn_upd. now apply Nat.ltb_lt.
Qed.
Lemma regs_app w n k s d : regs_ok w n s -> regs_ok w k d -> regs_ok w (n + k) (s ++ d).
Proof. intros [Hl Hf] [Hl' Hf']. split; [rewrite app_length; lia|now apply Forall_app]. Qed.
Lemma regs_firstn w n k s : regs_ok w (n + k) s -> regs_ok w n (firstn n s).
Proof.
  intros [Hl Hf]. split; [apply firstn_length_le; lia|].
  rewrite <- (firstn_skipn n s) in Hf. now apply Forall_app in Hf.
Qed.
Lemma firstn_app_n {A} n (s d : list A) : length s = n -> firstn n (s ++ d) = s.
Proof. intros <-. rewrite firstn_app, Nat.sub_diag, firstn_all. cbn. apply app_nil_r. Qed.
Lemma skipn_app_n {A} n (s d : list A) : length s = n -> skipn n (s ++ d) = d.
Proof. intros <-. rewrite skipn_app, Nat.sub_diag, skipn_all. reflexivity. Qed.
Lemma exec_bijection_frame w n k p d : reversible w (n + k) p = true -> writes_below n p = true -> regs_ok w k d ->
  bijection_on (regs_ok w n) (fun s => firstn n (exec w p (s ++ d))).
Proof.
  intros R W D. destruct (exec_bijection w (n + k) p R) as [B1 [g B2]].
  assert (F : forall s, regs_ok w n s -> exec w p (s ++ d) = firstn n (exec w p (s ++ d)) ++ d).
  { intros s Hs. rewrite <- (firstn_skipn n (exec w p (s ++ d))) at 1. f_equal.
    rewrite exec_frame by assumption. apply skipn_app_n, Hs. }
  assert (G : forall s, regs_ok w n s -> g (s ++ d) = firstn n (g (s ++ d)) ++ d).
  { intros s Hs. rewrite <- (firstn_skipn n (g (s ++ d))) at 1. f_equal.
    rewrite <- (exec_frame w n p _ W). destruct (B2 (s ++ d) (regs_app _ _ _ _ _ Hs D)) as (_ & _ & ->).
    apply skipn_app_n, Hs. }
  split.
  - intros s Hs. eapply regs_firstn, B1, regs_app; eassumption.
  - exists (fun s => firstn n (g (s ++ d))). intros s Hs. pose proof (regs_app _ _ _ _ _ Hs D) as Hs'.
    destruct (B2 _ Hs') as (C1 & C2 & C3). repeat split.
    + eapply regs_firstn, C1.
    + eapply regs_firstn, C1.
    + rewrite <- F by assumption. rewrite C2. apply firstn_app_n, Hs.
    + rewrite <- G by assumption. rewrite C3. apply firstn_app_n, Hs.
Qed.

(** ** The language of the specification *)
Definition tr (o : arx) : asg :=
  match o with
  | Add_ d s => Set_ d (E2 BAdd (EV d) (EV s))
  | Xor_ d s => Set_ d (E2 BXor (EV d) (EV s))
  | Rot_ d k => Set_ d (E1 (URotl k) (EV d))
  end.
Definition rots_ok (p : list arx) : bool := forallb (fun o => match o with Rot_ _ k => k <=? 64 | _ => true end) p.
Lemma set_nth_upd l i x : set_nth l i x = upd l i x.
Proof. revert i. induction l as [|y l IH]; intros [|i]; cbn; auto. now rewrite IH. Qed.
Lemma tr_step st o : Forall (fits 64) st -> rots_ok [o] = true -> arx_step st o = step 64 st (tr o).
Proof.
  intros H R. destruct o; cbn [arx_step step tr eval sem2 sem1]; rewrite set_nth_upd; f_equal.
  - now rewrite addw_mod.
  - cbn in R. rewrite andb_true_r in R. apply N.leb_le in R. apply rol_rotl; auto. now apply nth_fits.
Qed.
Lemma step_fits w st a : Forall (fits w) st -> (match a with Set_ _ e => consts_ok w e end) = true -> Forall (fits w) (step w st a).
Proof. intros H C. destruct a as [d e]. cbn. apply upd_Forall; auto. now apply eval_fits. Qed.
Lemma tr_run p st : Forall (fits 64) st -> rots_ok p = true -> arx_run p st = exec 64 (map tr p) st.
Proof.
  revert st. induction p as [|o p IH]; intros st H R; [reflexivity|].
  cbn [rots_ok forallb] in R. apply andb_prop in R. destruct R as [R1 R2].
  cbn [arx_run exec fold_left map]. fold (arx_run p (arx_step st o)). fold (exec 64 (map tr p) (step 64 st (tr o))).
  rewrite tr_step; auto; [|cbn; now rewrite R1]. apply IH; auto. apply step_fits; auto. now destruct o.
Qed.

Lemma mix_prog_rows : mix_prog = map tr (rows mix_row [11; 32; 43; 31; 17; 28; 39; 57; 55; 54; 22; 46]).
Proof. reflexivity. Qed.
Lemma end_prog_rows : end_partial_prog = map tr (rows end_row [44; 15; 34; 21; 38; 33; 10; 13; 38; 53; 42; 54]).
Proof. reflexivity. Qed.
Lemma short_mix_prog_rows : short_mix_prog = map tr (rows short_row [50; 52; 30; 41; 54; 48; 38; 37; 62; 34; 5; 36]).
Proof. reflexivity. Qed.
Lemma short_end_prog_rows : short_end_prog = map tr (rows short_end_row [15; 52; 26; 51; 28; 9; 47; 54; 32; 25; 63]).
Proof. reflexivity. Qed.

Lemma end_partial_bij : bijection_on (regs_ok 64 12) EndPartial.
Proof. apply exec_bijection. reflexivity. Qed.
Lemma short_mix_bij : bijection_on (regs_ok 64 4) ShortMix.
Proof. apply exec_bijection. reflexivity. Qed.
Lemma short_end_bij : bijection_on (regs_ok 64 4) ShortEnd.
Proof. apply exec_bijection. reflexivity. Qed.
Lemma mix_bij d : regs_ok 64 12 d -> bijection_on (regs_ok 64 12) (fun s => firstn 12 (exec 64 mix_prog (s ++ d))).
Proof. apply (exec_bijection_frame 64 12 12); reflexivity. Qed.
Lemma end_bij d : regs_ok 64 12 d ->
  bijection_on (regs_ok 64 12) (fun s => EndPartial (EndPartial (EndPartial (firstn 12 (exec 64 end_add_prog (s ++ d)))))).
Proof.
  intros H. pose proof (exec_bijection_frame 64 12 12 end_add_prog d eq_refl eq_refl H) as B.
  exact (bij_comp _ _ _ (bij_comp _ _ _ (bij_comp _ _ _ B end_partial_bij) end_partial_bij) end_partial_bij).
Qed.

Lemma spec_end_partial_ok h : regs_ok 64 12 h -> spec_end_partial h = EndPartial h.
Proof. intros [_ H]. unfold spec_end_partial, EndPartial. rewrite end_prog_rows. now apply tr_run. Qed.
Lemma spec_short_mix_ok h : regs_ok 64 4 h -> spec_short_mix h = ShortMix h.
Proof. intros [_ H]. unfold spec_short_mix, ShortMix. rewrite short_mix_prog_rows. now apply tr_run. Qed.
Lemma spec_short_end_ok h : regs_ok 64 4 h -> spec_short_end h = ShortEnd h.
Proof. intros [_ H]. unfold spec_short_end, ShortEnd. rewrite short_end_prog_rows. now apply tr_run. Qed.
Lemma spec_mix_ok d s : regs_ok 64 12 d -> regs_ok 64 12 s -> spec_mix d s = firstn 12 (exec 64 mix_prog (s ++ d)).
Proof.
  intros [_ Hd] [_ Hs]. unfold spec_mix. rewrite mix_prog_rows. f_equal. apply tr_run; [now apply Forall_app|reflexivity].
Qed.
Lemma list12 (l : list N) : length l = 12%nat -> exists a b c d e f g h i j k m, l = [a;b;c;d;e;f;g;h;i;j;k;m].
Proof.
  intros H. do 12 (destruct l as [|? l]; [discriminate|]). destruct l; [|discriminate]. now repeat eexists.
Qed.
Lemma spec_end_eq d s : regs_ok 64 12 d -> regs_ok 64 12 s ->
  spec_end d s = EndPartial (EndPartial (EndPartial (firstn 12 (exec 64 end_add_prog (s ++ d))))).
Proof.
  intros Hd Hs. unfold spec_end.
  assert (E : map (fun x => (fst x + snd x) mod 2 ^ 64) (combine s d) = firstn 12 (exec 64 end_add_prog (s ++ d))).
  { destruct Hd as [Ld _], Hs as [Ls _].
    destruct (list12 d Ld) as (d0&d1&d2&d3&d4&d5&d6&d7&d8&d9&d10&d11&->).
    destruct (list12 s Ls) as (s0&s1&s2&s3&s4&s5&s6&s7&s8&s9&s10&s11&->).
    cbn -[N.pow N.modulo]. now rewrite !addw_mod. }
  rewrite E. destruct (exec_bijection_frame 64 12 12 end_add_prog d eq_refl eq_refl Hd) as [B _]. specialize (B s Hs). cbn beta in B.
  pose proof (proj1 end_partial_bij _ B) as B1. pose proof (proj1 end_partial_bij _ B1) as B2.
  rewrite (spec_end_partial_ok _ B), (spec_end_partial_ok _ B1). now rewrite spec_end_partial_ok.
Qed.
