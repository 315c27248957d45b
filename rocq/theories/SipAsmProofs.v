(** The amd64 routines compute the same values as the portable Go code. *)
From Verif Require Import Words WordLemmas ListLemmas Blocks SLP SipModel SipAsmModel SipAsmProg SipProofs.
Open Scope N_scope.

(** ** Execution *)
Definition steps (c : call) (p : list instr) (st st' : mstate) : Prop :=
  exists n, forall f, mrun (n + f) c p st = mrun f c p st'.
Lemma steps_refl c p st : steps c p st st. Proof. exists 0%nat. reflexivity. Qed.
Lemma steps_trans c p a b d : steps c p a b -> steps c p b d -> steps c p a d.
Proof. intros [n H] [m H']. exists (n + m)%nat. intros f. rewrite <- Nat.add_assoc, H. apply H'. Qed.
Lemma steps_one c p a b : mstep c p a = Next b -> steps c p a b.
Proof. intros H. exists 1%nat. intros f. cbn. now rewrite H. Qed.
Lemma steps_halt c p a b o : steps c p a b -> mstep c p b = Halt o ->
  exists n, forall f, (n <= f)%nat -> mrun f c p a = Some o.
Proof.
  intros [n H] Hh. exists (S n). intros f Hf. replace f with (n + (S (f - S n)))%nat by lia.
  rewrite H. cbn. now rewrite Hh.
Qed.

(** ** Straight-line segments *)
Definition slp_of (c : call) (i : instr) : option prog :=
  let v r := EV (ridx r) in
  match i with
  | IMovArg a d => Some [Set_ (ridx d) (EC (arg_val c a))]
  | IMovImm x d => Some [Set_ (ridx d) (EC x)]
  | IMov s d => Some [Set_ (ridx d) (v s)]
  | ILea b i d => Some [Set_ (ridx d) (E2 BAdd (v b) (v i))]
  | IAdd s d => Some [Set_ (ridx d) (E2 BAdd (v d) (v s))]
  | IXor s d => Some [Set_ (ridx d) (E2 BXor (v d) (v s))]
  | ISub s d => Some [Set_ (ridx d) (E2 BSub (v d) (v s))]
  | IOr s d => Some [Set_ (ridx d) (E2 BOr (v d) (v s))]
  | IAddImm x d => Some [Set_ (ridx d) (E2 BAdd (v d) (EC x))]
  | IXorImm x d => Some [Set_ (ridx d) (E2 BXor (v d) (EC x))]
  | IXorbImm x d => if x <? 256 then Some [Set_ (ridx d) (E2 BXor (v d) (EC x))] else None
  | IShlImm k d => Some [Set_ (ridx d) (E1 (UShl k) (v d))]
  | IRorImm k d => Some [Set_ (ridx d) (E1 (URotr k) (v d))]
  | ILabel _ => Some []
  | _ => None
  end.
Fixpoint slp_seg (c : call) (l : list instr) : option prog :=
  match l with
  | [] => Some []
  | i :: r => match slp_of c i, slp_seg c r with Some a, Some b => Some (a ++ b) | _, _ => None end
  end.

Lemma xorb_xor a x : x < 256 -> N.lor (N.ldiff a 255) (xor (N.land a 255) x) = xor a x.
Proof.
  intros Hx. change 255 with (N.ones 8). apply N.bits_inj. intro i. unfold xor.
  rewrite N.lor_spec, N.ldiff_spec, !N.lxor_spec, N.land_spec.
  destruct (N.lt_ge_cases i 8).
  - rewrite N.ones_spec_low by assumption. now rewrite andb_true_r, andb_false_r.
  - rewrite N.ones_spec_high by assumption.
    assert (E : N.testbit x i = false) by (apply (fits_high 8); [exact Hx|lia]).
    rewrite E, andb_false_r, andb_true_r, !xorb_false_r, orb_false_r. reflexivity.
Qed.

Lemma slp_of_step c p i pr st : nth_error p (pc st) = Some i -> slp_of c i = Some pr ->
  exists f', mstep c p st = Next (MS (S (pc st)) (exec 64 pr (rs st)) f' (out st)).
Proof.
  intros Hi Hs. unfold mstep. rewrite Hi.
  destruct i; cbn in Hs; try discriminate; try (injection Hs as <-; eexists; reflexivity).
  destruct (N.ltb_spec c0 256); [|discriminate]. injection Hs as <-. eexists. unfold put, get.
  rewrite xorb_xor by assumption. reflexivity.
Qed.
Lemma slp_seg_steps c p l : forall st pr,
  (forall k, (k < length l)%nat -> nth_error p (pc st + k) = nth_error l k) ->
  slp_seg c l = Some pr ->
  exists f', steps c p st (MS (pc st + length l) (exec 64 pr (rs st)) f' (out st)).
Proof.
  induction l as [|i l IH]; intros st pr Hp Hs; cbn in Hs.
  - injection Hs as <-. exists (fl st). destruct st as [k r f o]; cbn.
    rewrite Nat.add_0_r. apply steps_refl.
  - destruct (slp_of c i) as [a|] eqn:Ea; [|discriminate].
    destruct (slp_seg c l) as [b|] eqn:Eb; [|discriminate]. injection Hs as <-.
    assert (H0 : nth_error p (pc st) = Some i).
    { specialize (Hp 0%nat). cbn in Hp. rewrite Nat.add_0_r in Hp. apply Hp. lia. }
    destruct (slp_of_step c p i a st H0 Ea) as [f1 H1].
    destruct (IH (MS (S (pc st)) (exec 64 a (rs st)) f1 (out st)) b) as [f2 H2]; auto.
    { intros k Hk. cbn [pc]. specialize (Hp (S k)). cbn [nth_error length] in Hp.
      rewrite <- Hp by lia. f_equal. lia. }
    exists f2. eapply steps_trans; [apply steps_one; exact H1|].
    cbn [pc rs out] in H2. unfold exec in *. rewrite fold_left_app.
    replace (pc st + length (i :: l))%nat with (S (pc st) + length l)%nat by (cbn; lia). exact H2.
Qed.
Lemma seg_steps c p k n st pr :
  pc st = k -> slp_seg c (firstn n (skipn k p)) = Some pr -> (k + n <= length p)%nat ->
  exists f', steps c p st (MS (k + n) (exec 64 pr (rs st)) f' (out st)).
Proof.
  intros Hk Hs Hn.
  assert (HL : length (firstn n (skipn k p)) = n) by (rewrite firstn_length, skipn_length; lia).
  destruct (slp_seg_steps c p (firstn n (skipn k p)) st pr) as [f' H]; auto.
  - rewrite HL. intros j Hj. rewrite nth_error_firstn, nth_error_skipn by assumption. now rewrite Hk.
  - exists f'. now rewrite HL, Hk in H.
Qed.

(** ** The round in the registers SI, AX, CX, DX and R9, AX, BX, CX *)
Definition round_prog (v0 v1 v2 v3 : nat) : prog :=
  let add d s := Set_ d (E2 BAdd (EV d) (EV s)) in
  let xr d s := Set_ d (E2 BXor (EV d) (EV s)) in
  let rot d k := Set_ d (E1 (URotl k) (EV d)) in
  [add v0 v1; rot v1 13; xr v1 v0; rot v0 32;
   add v2 v3; rot v3 16; xr v3 v2;
   add v0 v3; rot v3 21; xr v3 v0;
   add v2 v1; rot v1 17; xr v1 v2; rot v2 32].

Lemma round_exec_loop ax bx cx dx si di r8 r9 r10 r11 :
  exec 64 (round_prog 7 0 1 2) [ax; bx; cx; dx; si; di; r8; r9; r10; r11] =
  (let '(v0, v1, v2, v3) := sip_round (r9, ax, bx, cx) in [v1; v2; v3; dx; si; di; r8; v0; r10; r11]).
Proof. reflexivity. Qed.
Lemma round_exec_tail ax bx cx dx si di r8 r9 r10 r11 :
  exec 64 (round_prog 4 0 2 3) [ax; bx; cx; dx; si; di; r8; r9; r10; r11] =
  (let '(v0, v1, v2, v3) := sip_round (si, ax, cx, dx) in [v1; bx; v2; v3; v0; di; r8; r9; r10; r11]).
Proof. reflexivity. Qed.
Lemma exec_app w p q st : exec w (p ++ q) st = exec w q (exec w p st).
Proof. apply fold_left_app. Qed.
Lemma exec_nil w st : exec w [] st = st. Proof. reflexivity. Qed.
Lemma exec_cons w a p st : exec w (a :: p) st = exec w p (step w st a).
Proof. reflexivity. Qed.

(** The loop body after the load, and what it should be. *)
Definition loop_spec : prog :=
  [Set_ 2 (E2 BXor (EV 2) (EV 6))] ++ round_prog 7 0 1 2 ++ round_prog 7 0 1 2 ++
  [Set_ 7 (E2 BXor (EV 7) (EV 6)); Set_ 5 (E2 BAdd (EV 5) (EC 8))].
Lemma loop_spec_exec ax bx cx dx si di r8 r9 r10 r11 :
  exec 64 loop_spec [ax; bx; cx; dx; si; di; r8; r9; r10; r11] =
  (let '(v0, v1, v2, v3) := sip_compress (r9, ax, bx, cx) r8 in
   [v1; v2; v3; dx; si; add64 di 8; r8; v0; r10; r11]).
Proof.
  unfold loop_spec. rewrite !exec_app.
  replace (exec 64 [Set_ 2 (E2 BXor (EV 2) (EV 6))] [ax; bx; cx; dx; si; di; r8; r9; r10; r11])
    with [ax; bx; xor cx r8; dx; si; di; r8; r9; r10; r11] by reflexivity.
  rewrite round_exec_loop. unfold sip_compress.
  destruct (sip_round (r9, ax, bx, xor cx r8)) as [[[a b] c] d].
  rewrite round_exec_loop. destruct (sip_round (a, b, c, d)) as [[[a' b'] c'] d']. reflexivity.
Qed.

Definition all_regs : list (nat * nat) := map (fun i => (i, i)) (seq 0 10).
Lemma exec_length w p st : length (exec w p st) = length st.
Proof.
  unfold exec. revert st; induction p as [|[d e] p IH]; intros st; cbn [fold_left]; auto.
  rewrite IH. apply upd_length.
Qed.
Lemma vn_regs p q st : length st = 10%nat -> vn_check 64 10 p q all_regs = true -> exec 64 p st = exec 64 q st.
Proof.
  intros Hl H. apply nth_ext with (d := 0) (d' := 0); [now rewrite !exec_length|].
  intros i Hi. rewrite exec_length, Hl in Hi.
  apply (vn_check_sound _ _ _ _ _ H st Hl); auto.
  unfold all_regs. apply in_map_iff. exists i. split; auto. apply in_seq. lia.
Qed.

(** ** The two routines *)
Definition the_prog (h : bool) : list instr := if h then asm_hash128_prog else asm_hash_prog.
Definition off (h : bool) : nat := if h then 1 else 0.

(** Hypotheses about the call: the slice lies in a 64-bit address space and has
    a length a Go slice can have. *)
Definition call_ok (c : call) : Prop :=
  c_base c + N.of_nat (length (c_mem c)) <= 2 ^ 64 /\
  N.of_nat (length (c_mem c)) < 2 ^ 63 /\ bytes_ok (c_mem c).

Ltac stp := eapply steps_trans; [apply steps_one; cbv [mstep nth_error the_prog off pc asm_hash_prog asm_hash128_prog
   put get jump find_label label_eqb rs out fl ridx nth upd skip Nat.add]; reflexivity|].

Lemma add64_small a b : a + b < 2 ^ 64 -> add64 a b = a + b.
Proof. intros H. apply wrap_small. exact H. Qed.
Lemma sub64_small a b : b <= a -> a < 2 ^ 64 -> sub64 a b = a - b.
Proof.
  intros H1 H2. unfold sub64. rewrite subw_mod. rewrite (N.mod_small b) by lia.
  replace (a + (2 ^ 64 - b)) with ((a - b) + 1 * 2 ^ 64) by lia.
  rewrite N.mod_add by lia. apply N.mod_small. lia.
Qed.

Ltac stq L0 L1 L2 L3 L4 L5 L6 := eapply steps_trans; [apply steps_one;
   unfold mstep; cbv [nth_error the_prog off pc asm_hash_prog asm_hash128_prog
   put get jump find_label label_eqb rs out fl ridx nth upd skip Nat.add N.eqb N.ltb N.compare Pos.eqb Pos.compare Pos.compare_cont negb andb];
   lazymatch goal with
   | |- context [load_mem] =>
       first [rewrite L0 by lia | rewrite L1 by lia | rewrite L2 by lia | rewrite L3 by lia
             |rewrite L4 by lia | rewrite L5 by lia | rewrite L6 by lia]
   | _ => idtac
   end; reflexivity|].

Ltac run tac :=
  lazymatch goal with
  | |- steps _ _ (MS ?k _ _ _) (MS ?k' _ _ _) =>
      let k1 := eval cbv in k in let k2 := eval cbv in k' in
      tryif constr_eq k1 k2 then apply steps_refl else (tac; run tac)
  end.

Section Mid.
  Variable c : call.
  Hypothesis Hc : call_ok c.
  Let mem := c_mem c.
  Let len := N.of_nat (length mem).
  Let nb := (length mem / 8)%nat.
  Let n8 := N.of_nat (8 * nb).

  Lemma n8_le : (8 * nb <= length mem)%nat.
  Proof. unfold nb. pose proof (Nat.div_mod (length mem) 8). lia. Qed.

  Lemma hc1 : c_base c + N.of_nat (length mem) <= 2 ^ 64. Proof. apply Hc. Qed.
  Lemma hc2 : N.of_nat (length mem) < 2 ^ 63. Proof. apply Hc. Qed.

  Lemma load_ok i n : (0 < n)%nat -> (i + n <= length mem)%nat ->
    load_mem c (c_base c + N.of_nat i) n = Some (le_load (firstn n (skipn i mem))).
  Proof.
    intros Hn Hi. unfold load_mem. destruct (N.leb_spec (c_base c) (c_base c + N.of_nat i)); [|lia].
    replace (N.to_nat (c_base c + N.of_nat i - c_base c)) with i by lia.
    change (c_mem c) with mem. rewrite slice_some by assumption. reflexivity.
  Qed.
  Lemma addr_ok i d : (i + d < length mem)%nat ->
    add64 (add64 (c_base c) (N.of_nat i)) (N.of_nat d) = c_base c + N.of_nat (i + d).
  Proof.
    intros Hi. pose proof hc1 as H1; pose proof hc2 as H2.
    rewrite (add64_small (c_base c)) by lia. rewrite add64_small by lia. lia.
  Qed.
  Lemma load64_ok i : (8 * i + 8 <= length mem)%nat ->
    load_mem c (add64 (add64 (c_base c) (N.of_nat (8 * i))) 0) 8 = Some (le_load (firstn 8 (skipn (8 * i) mem))).
  Proof.
    intros Hi. change 0 with (N.of_nat 0). rewrite addr_ok by lia. rewrite Nat.add_0_r. apply load_ok; lia.
  Qed.
  Lemma load8_ok i d : (i + d < length mem)%nat ->
    load_mem c (add64 (add64 (c_base c) (N.of_nat i)) (N.of_nat d)) 1 = Some (nth d (skipn i mem) 0).
  Proof.
    intros Hi. rewrite addr_ok by lia. rewrite load_ok by lia. f_equal.
    rewrite skipn_add. rewrite (ListLemmas.skipn_nth_cons d (skipn i mem) (nth d (skipn i mem) 0)).
    - cbn. now rewrite N.lor_0_r.
    - apply nth_error_nth'. rewrite skipn_length. lia.
  Qed.

  (** One iteration of the loop, from [loopBody:] to the comparison. *)
  Lemma body h i v0 v1 v2 v3 r8 t f o : (i < nb)%nat ->
    let '(w0, w1, w2, w3) := sip_block (v0, v1, v2, v3) (firstn 8 (skipn (8 * i) mem)) in
    exists r8' f', steps c (the_prog h)
      (MS (19 + off h) [v1; v2; v3; len; c_base c; N.of_nat (8 * i); r8; v0; n8; t] f o)
      (MS (52 + off h) [w1; w2; w3; len; c_base c; N.of_nat (8 * (i + 1)); r8'; w0; n8; t] f' o).
  Proof.
    intros Hi. pose proof n8_le. unfold sip_block.
    set (m := le_load (firstn 8 (skipn (8 * i) mem))).
    pose proof (loop_spec_exec v1 v2 v3 len (c_base c) (N.of_nat (8 * i)) m v0 n8 t) as E.
    destruct (sip_compress (v0, v1, v2, v3) m) as [[[w0 w1] w2] w3].
    assert (HD : add64 (N.of_nat (8 * i)) 8 = N.of_nat (8 * (i + 1))).
    { pose proof hc2 as H2. rewrite add64_small by lia. lia. }
    rewrite HD in E. exists m.
    assert (S1 : steps c (the_prog h)
      (MS (19 + off h) [v1; v2; v3; len; c_base c; N.of_nat (8 * i); r8; v0; n8; t] f o)
      (MS (21 + off h) [v1; v2; v3; len; c_base c; N.of_nat (8 * i); m; v0; n8; t] f o)).
    { destruct h; stp; (eapply steps_trans; [apply steps_one|apply steps_refl]);
      unfold mstep; cbn [the_prog off pc nth_error asm_hash_prog asm_hash128_prog Nat.add get rs ridx nth];
      rewrite load64_ok by lia; reflexivity. }
    set (st := MS (21 + off h) [v1; v2; v3; len; c_base c; N.of_nat (8 * i); m; v0; n8; t] f o) in *.
    assert (S2 : exists pr, slp_seg c (firstn 31 (skipn (21 + off h) (the_prog h))) = Some pr /\
                            vn_check 64 10 pr loop_spec all_regs = true /\ (21 + off h + 31 <= length (the_prog h))%nat).
    { destruct h; eexists; (split; [reflexivity|]); (split; [vm_compute; reflexivity|cbn; lia]). }
    destruct S2 as (pr & P1 & P2 & P3).
    destruct (seg_steps c (the_prog h) (21 + off h) 31 st pr eq_refl P1 P3) as [f' S3].
    exists f'. eapply steps_trans; [exact S1|]. subst st. cbn [rs out] in S3.
    rewrite (vn_regs _ _ _ (eq_refl : length [v1; v2; v3; len; c_base c; N.of_nat (8 * i); m; v0; n8; t] = 10%nat) P2), E in S3.
    destruct h; exact S3.
  Qed.

  Lemma loop h k : forall i v0 v1 v2 v3 r8 t f o, (i + S k = nb)%nat ->
    let '(w0, w1, w2, w3) := fst (absorb 8 sip_block (v0, v1, v2, v3) (skipn (8 * i) mem)) in
    exists r8' f', steps c (the_prog h)
      (MS (19 + off h) [v1; v2; v3; len; c_base c; N.of_nat (8 * i); r8; v0; n8; t] f o)
      (MS (54 + off h) [w1; w2; w3; len; c_base c; n8; r8'; w0; n8; t] f' o).
  Proof.
    pose proof n8_le as HL.
    induction k as [|k IH]; intros i v0 v1 v2 v3 r8 t f o Hi;
      rewrite (absorb_step 8 _ pos8) by (rewrite skipn_length; lia);
      rewrite <- skipn_add; replace (8 * i + 8)%nat with (8 * (i + 1))%nat by lia;
      pose proof (body h i v0 v1 v2 v3 r8 t f o ltac:(lia)) as B;
      destruct (sip_block (v0, v1, v2, v3) (firstn 8 (skipn (8 * i) mem))) as [[[u0 u1] u2] u3];
      destruct B as (r8' & f' & B).
    - rewrite (absorb_short 8 _ pos8).
      2:{ rewrite skipn_length. pose proof (Nat.div_mod (length mem) 8 ltac:(lia)).
          pose proof (Nat.mod_upper_bound (length mem) 8 ltac:(lia)). fold nb in H. lia. }
      cbn [fst]. replace (N.of_nat (8 * (i + 1))) with n8 in B by (unfold n8; f_equal; lia).
      eexists r8', _. eapply steps_trans; [exact B|].
      destruct h; stp; (eapply steps_trans; [apply steps_one|apply steps_refl]);
        unfold mstep; cbn [the_prog off pc nth_error asm_hash_prog asm_hash128_prog Nat.add fl];
        rewrite N.eqb_refl; reflexivity.
    - specialize (IH (i + 1)%nat u0 u1 u2 u3 r8' t
        (Some (n8 =? N.of_nat (8 * (i + 1)), n8 <? N.of_nat (8 * (i + 1)))) o ltac:(lia)).
      destruct (fst (absorb 8 sip_block (u0, u1, u2, u3) (skipn (8 * (i + 1)) mem))) as [[[w0 w1] w2] w3].
      destruct IH as (r8'' & f'' & IH). exists r8'', f''.
      eapply steps_trans; [exact B|].
      assert (Z : negb (n8 =? N.of_nat (8 * (i + 1))) && negb (n8 <? N.of_nat (8 * (i + 1))) = true).
      { unfold n8. destruct (N.eqb_spec (N.of_nat (8 * nb)) (N.of_nat (8 * (i + 1)))); [lia|].
        destruct (N.ltb_spec (N.of_nat (8 * nb)) (N.of_nat (8 * (i + 1)))); [lia|reflexivity]. }
      remember (N.of_nat (8 * (i + 1))) as q.
      destruct h; stp; (eapply steps_trans; [apply steps_one|exact IH]);
        unfold mstep; cbn [the_prog off pc nth_error asm_hash_prog asm_hash128_prog Nat.add fl];
        rewrite Z; reflexivity.
  Qed.

  (** From the test before the loop to the end of the switch. *)
  Lemma len_n8 : sub64 len n8 = N.of_nat (length mem mod 8).
  Proof.
    pose proof n8_le. pose proof hc2 as H2. unfold len, n8.
    rewrite sub64_small by lia. unfold nb. pose proof (Nat.div_mod (length mem) 8). lia.
  Qed.

  Lemma switch h v0 v1 v2 v3 r8 t f o :
    exists dx' f', steps c (the_prog h)
      (MS (54 + off h) [v1; v2; v3; len; c_base c; n8; r8; v0; n8; t] f o)
      (MS (101 + off h) [v1; v2; v3; dx'; c_base c; n8; r8; v0; n8; sip_tail t (skipn (8 * nb) mem)] f' o).
  Proof.
    pose proof len_n8 as HD. pose proof n8_le.
    pose proof (Nat.mod_upper_bound (length mem) 8 ltac:(lia)) as Hr.
    assert (HL : length (skipn (8 * nb) mem) = (length mem mod 8)%nat).
    { rewrite skipn_length. unfold nb. pose proof (Nat.div_mod (length mem) 8). lia. }
    assert (HB : (length mem = 8 * nb + length mem mod 8)%nat).
    { unfold nb. pose proof (Nat.div_mod (length mem) 8). lia. }
    unfold sip_tail. rewrite HL.
    pose proof (fun d H => load8_ok (8 * nb) d H) as Hld. change (N.of_nat (8 * nb)) with n8 in Hld.
    remember (skipn (8 * nb) mem) as rest eqn:Er. clear Er.
    remember (length mem mod 8)%nat as r eqn:Er. clear HL Er.
    assert (Hl : forall d, (d < r)%nat -> load_mem c (add64 (add64 (c_base c) n8) (N.of_nat d)) 1 = Some (nth d rest 0))
      by (intros; apply Hld; lia).
    clear Hld. clearbody n8. clear HB.
    assert (S1 : steps c (the_prog h)
      (MS (54 + off h) [v1; v2; v3; len; c_base c; n8; r8; v0; n8; t] f o)
      (MS (56 + off h) [v1; v2; v3; sub64 len n8; c_base c; n8; r8; v0; n8; t] None o))
      by (destruct h; run stp).
    rewrite HD in S1. 
    destruct r as [|[|[|[|[|[|[|[|r]]]]]]]]; [..|lia];
    pose proof (Hl 0%nat) as L0; pose proof (Hl 1%nat) as L1; pose proof (Hl 2%nat) as L2;
    pose proof (Hl 3%nat) as L3; pose proof (Hl 4%nat) as L4; pose proof (Hl 5%nat) as L5;
    pose proof (Hl 6%nat) as L6; clear Hl; cbn [N.of_nat Pos.of_succ_nat Pos.succ] in L0, L1, L2, L3, L4, L5, L6, S1;
    destruct h; eexists _, _; (eapply steps_trans; [exact S1|]); clear S1;
    run ltac:(stq L0 L1 L2 L3 L4 L5 L6).
  Qed.

  (** From the entry point to [afterSwitch]. *)
  Lemma land_n8 : N.land len 18446744073709551608 = n8.
  Proof.
    pose proof hc2 as H2. fold len in H2.
    assert (F : fits 64 len) by (unfold fits; fold len in H2; lia).
    replace 18446744073709551608 with (N.ldiff (N.ones 64) 7) by reflexivity.
    replace (N.land len (N.ldiff (N.ones 64) 7)) with (N.ldiff len 7).
    - unfold len, n8, nb. rewrite <- ldiff7. lia.
    - apply N.bits_inj. intro i. rewrite N.land_spec, !N.ldiff_spec.
      destruct (N.lt_ge_cases i 64).
      + rewrite N.ones_spec_low by assumption. now rewrite andb_true_l.
      + rewrite (fits_high 64 len i F) by assumption. reflexivity.
  Qed.

  Definition start_of (h : bool) : sst :=
    let s := sip_iv (c_k0 c) (c_k1 c) in if h then xor_v1_ee s else s.

  Lemma setup h r z : length r = 10%nat -> z = xor (c_k1 c) (c_k1 c) ->
    let '(v0, v1, v2, v3) := start_of h in
    exists r8, steps c (the_prog h) (entry r)
      (MS (17 + off h) [v1; v2; v3; len; c_base c; z; r8; v0; n8; shl64 (len64 mem) 56]
          (Some (n8 =? 0, false)) [0; 0]).
  Proof.
    intros Hr ->. unfold start_of, sip_iv.
    do 10 (destruct r as [|? r]; [discriminate|]). destruct r; [|discriminate].
    replace (len64 mem) with len.
    2:{ symmetry. apply wrap_small. pose proof hc2. unfold fits. lia. }
    rewrite <- land_n8.
    destruct h; cbn [xor_v1_ee].
    - replace (xor (xor (c_k1 c) 7237128888997146477) 238) with (xor (xor 7237128888997146477 238) (c_k1 c)).
      2:{ unfold xor. now rewrite (N.lxor_comm _ (c_k1 c)), N.lxor_assoc. }
      rewrite (N.lxor_comm (c_k0 c) 8317987319222330741 : xor _ _ = xor _ _).
      rewrite (N.lxor_comm (c_k0 c) 7816392313619706465 : xor _ _ = xor _ _).
      rewrite (N.lxor_comm (c_k1 c) 8387220255154660723 : xor _ _ = xor _ _).
      eexists. unfold entry. run stp.
    - rewrite (N.lxor_comm (c_k0 c) 8317987319222330741 : xor _ _ = xor _ _).
      rewrite (N.lxor_comm (c_k1 c) 7237128888997146477 : xor _ _ = xor _ _).
      rewrite (N.lxor_comm (c_k0 c) 7816392313619706465 : xor _ _ = xor _ _).
      rewrite (N.lxor_comm (c_k1 c) 8387220255154660723 : xor _ _ = xor _ _).
      eexists. unfold entry. run stp.
  Qed.

  (** From the entry point to the end of the switch. *)
  Lemma to_switch h r : length r = 10%nat ->
    let '(s, rest) := absorb 8 sip_block (start_of h) mem in
    let '(v0, v1, v2, v3) := s in
    exists dx di r8 r10 f, steps c (the_prog h) (entry r)
      (MS (101 + off h) [v1; v2; v3; dx; c_base c; di; r8; v0; r10; sip_tail (shl64 (len64 mem) 56) rest] f [0; 0]).
  Proof.
    intros Hr. pose proof (setup h r 0 Hr ltac:(unfold xor; now rewrite N.lxor_nilpotent)) as S1.
    pose proof (absorb_rest 8 sip_block pos8 (start_of h) mem) as HR. fold nb in HR.
    destruct (start_of h) as [[[v0 v1] v2] v3] eqn:Es. destruct S1 as [r8 S1].
    destruct (absorb 8 sip_block (v0, v1, v2, v3) mem) as [s rest] eqn:Ea. cbn [snd] in HR. subst rest.
    assert (S2 : let '(w0, w1, w2, w3) := s in exists r8' f', steps c (the_prog h)
      (MS (17 + off h) [v1; v2; v3; len; c_base c; 0; r8; v0; n8; shl64 (len64 mem) 56] (Some (n8 =? 0, false)) [0; 0])
      (MS (54 + off h) [w1; w2; w3; len; c_base c; n8; r8'; w0; n8; shl64 (len64 mem) 56] f' [0; 0])).
    { assert (Hnb : nb = 0%nat \/ exists k, nb = S k) by (destruct nb; eauto).
      destruct Hnb as [Enb|[k Enb]].
      - assert (Hn8 : n8 = 0) by (unfold n8; rewrite Enb; reflexivity).
        rewrite (absorb_short 8 _ pos8) in Ea.
        2:{ unfold nb in Enb. pose proof (Nat.div_mod (length mem) 8 ltac:(lia)).
            pose proof (Nat.mod_upper_bound (length mem) 8 ltac:(lia)). lia. }
        injection Ea as <- _. rewrite Hn8. change (0 =? 0) with true.
        destruct h; eexists _, _; run stp.
      - pose proof (loop h k 0 v0 v1 v2 v3 r8 (shl64 (len64 mem) 56) (Some (n8 =? 0, false)) [0; 0]) as L.
        cbn [Nat.add Nat.mul skipn] in L. change (c_mem c) with mem in L. rewrite Ea in L. cbn [fst] in L.
        specialize (L (eq_sym Enb)).
        destruct s as [[[w0 w1] w2] w3]. destruct L as (r8' & f' & L). exists r8', f'.
        eapply steps_trans; [|exact L].
        replace (n8 =? 0) with false.
        2:{ symmetry. apply N.eqb_neq. unfold n8. rewrite Enb. lia. }
        clear L. destruct h; run stp. }
    destruct s as [[[w0 w1] w2] w3]. destruct S2 as (r8' & f' & S2).
    destruct (switch h w0 w1 w2 w3 r8' (shl64 (len64 mem) 56) f' [0; 0]) as (dx & f'' & S3).
    eexists dx, _, _, _, f''.
    eapply steps_trans; [exact S1|]. eapply steps_trans; [exact S2|]. exact S3.
  Qed.
End Mid.

(** ** Finalisation *)
Definition fold_prog (d : nat) : prog :=
  [Set_ d (E2 BXor (E2 BXor (E2 BXor (EV 4) (EV 0)) (EV 2)) (EV 3))].
(** The last word [R11] and the first four finalisation rounds, in the registers
    SI, AX, CX, DX. *)
Definition final_spec (x : N) : prog :=
  [Set_ 4 (EV 7); Set_ 3 (E2 BXor (EV 2) (EV 9)); Set_ 2 (EV 1)] ++
  (round_prog 4 0 2 3 ++ round_prog 4 0 2 3) ++
  [Set_ 4 (E2 BXor (EV 4) (EV 9)); Set_ 2 (E2 BXor (EV 2) (EC x))] ++
  (round_prog 4 0 2 3 ++ round_prog 4 0 2 3 ++ round_prog 4 0 2 3 ++ round_prog 4 0 2 3).
Definition final_spec2 : prog :=
  [Set_ 0 (E2 BXor (EV 0) (EC 0xdd))] ++
  (round_prog 4 0 2 3 ++ round_prog 4 0 2 3 ++ round_prog 4 0 2 3 ++ round_prog 4 0 2 3).

Lemma four_rounds ax bx cx dx si di r8 r9 r10 r11 :
  exec 64 (round_prog 4 0 2 3 ++ round_prog 4 0 2 3 ++ round_prog 4 0 2 3 ++ round_prog 4 0 2 3)
    [ax; bx; cx; dx; si; di; r8; r9; r10; r11] =
  (let '(v0, v1, v2, v3) := sip_round (sip_round (sip_round (sip_round (si, ax, cx, dx)))) in
   [v1; bx; v2; v3; v0; di; r8; r9; r10; r11]).
Proof.
  rewrite !exec_app.
  rewrite round_exec_tail. destruct (sip_round (si, ax, cx, dx)) as [[[a1 b1] c1] d1].
  rewrite round_exec_tail. destruct (sip_round (a1, b1, c1, d1)) as [[[a2 b2] c2] d2].
  rewrite round_exec_tail. destruct (sip_round (a2, b2, c2, d2)) as [[[a3 b3] c3] d3].
  rewrite round_exec_tail. destruct (sip_round (a3, b3, c3, d3)) as [[[a4 b4] c4] d4].
  reflexivity.
Qed.
Lemma final_spec_exec x ax bx cx dx si di r8 r9 r10 r11 :
  exec 64 (final_spec x) [ax; bx; cx; dx; si; di; r8; r9; r10; r11] =
  (let '(u0, u1, u2, u3) := sip_compress (r9, ax, bx, cx) r11 in
   let '(v0, v1, v2, v3) := sip_round (sip_round (sip_round (sip_round (u0, u1, xor u2 x, u3)))) in
   [v1; bx; v2; v3; v0; di; r8; r9; r10; r11]).
Proof.
  unfold final_spec. rewrite (exec_app _ [_; _; _]).
  replace (exec 64 [Set_ 4 (EV 7); Set_ 3 (E2 BXor (EV 2) (EV 9)); Set_ 2 (EV 1)]
                   [ax; bx; cx; dx; si; di; r8; r9; r10; r11])
    with [ax; bx; bx; xor cx r11; r9; di; r8; r9; r10; r11] by reflexivity.
  rewrite (exec_app _ (_ ++ _)), (exec_app _ (round_prog _ _ _ _)).
  unfold sip_compress. rewrite round_exec_tail.
  destruct (sip_round (r9, ax, bx, xor cx r11)) as [[[a b] c] d]. rewrite round_exec_tail.
  destruct (sip_round (a, b, c, d)) as [[[a' b'] c'] d'].
  rewrite (exec_app _ [_; _]).
  replace (exec 64 [Set_ 4 (E2 BXor (EV 4) (EV 9)); Set_ 2 (E2 BXor (EV 2) (EC x))]
             [b'; bx; c'; d'; a'; di; r8; r9; r10; r11])
    with [b'; bx; xor c' x; d'; xor a' r11; di; r8; r9; r10; r11] by reflexivity.
  apply four_rounds.
Qed.

Lemma final64 c v0 v1 v2 v3 dx si di r8 r10 t f :
  exists st, steps c asm_hash_prog
    (MS 101 [v1; v2; v3; dx; si; di; r8; v0; r10; t] f [0; 0]) st /\
  mstep c asm_hash_prog st = Halt [sip_final64 (sip_compress (v0, v1, v2, v3) t); 0].
Proof.
  set (st0 := [v1; v2; v3; dx; si; di; r8; v0; r10; t]).
  assert (S2 : exists pr, slp_seg c (firstn 87 (skipn 101 asm_hash_prog)) = Some pr /\
     vn_check 64 10 pr (final_spec 0xff ++ fold_prog 0) [(0, 0)]%nat = true /\ (101 + 87 <= length asm_hash_prog)%nat).
  { eexists. split; [reflexivity|]. split; [vm_compute; reflexivity|cbn; lia]. }
  destruct S2 as (pr & P1 & P2 & P3).
  destruct (seg_steps c asm_hash_prog 101 87 (MS 101 st0 f [0; 0]) pr eq_refl P1 P3) as [f' S3].
  pose proof (vn_check_sound _ _ _ _ _ P2 st0 eq_refl 0 0 (or_introl eq_refl)) as E.
  rewrite exec_app in E. unfold st0 in E at 2. rewrite final_spec_exec in E. unfold sip_final64.
  destruct (sip_compress (v0, v1, v2, v3) t) as [[[u0 u1] u2] u3].
  destruct (sip_round (sip_round (sip_round (sip_round (u0, u1, xor u2 0xff, u3))))) as [[[w0 w1] w2] w3].
  change (nth 0 (exec 64 (fold_prog 0) [w1; v2; w2; w3; w0; di; r8; v0; r10; t]) 0)
    with (sip_fold (w0, w1, w2, w3)) in E.
  cbn [rs out] in S3. change (101 + 87)%nat with 188%nat in S3.
  exists (MS 189 (exec 64 pr st0) f' [nth 0 (exec 64 pr st0) 0; 0]). split.
  - eapply steps_trans; [exact S3|]. apply steps_one. reflexivity.
  - rewrite E. reflexivity.
Qed.

Lemma final128 c v0 v1 v2 v3 dx si di r8 r10 t f :
  exists st, steps c asm_hash128_prog
    (MS 102 [v1; v2; v3; dx; si; di; r8; v0; r10; t] f [0; 0]) st /\
  mstep c asm_hash128_prog st =
    Halt (let '(a, b) := sip_final128 (sip_compress (v0, v1, v2, v3) t) in [a; b]).
Proof.
  set (st0 := [v1; v2; v3; dx; si; di; r8; v0; r10; t]).
  assert (S2 : exists pr pr2, slp_seg c (firstn 92 (skipn 102 asm_hash128_prog)) = Some pr /\
     slp_seg c (firstn 61 (skipn 195 asm_hash128_prog)) = Some pr2 /\
     vn_check 64 10 pr (final_spec 0xee ++ fold_prog 1) [(1, 1)]%nat = true /\
     vn_check 64 10 (pr ++ pr2) (final_spec 0xee ++ final_spec2 ++ fold_prog 1) [(1, 1)]%nat = true /\
     (102 + 92 <= length asm_hash128_prog)%nat /\ (195 + 61 <= length asm_hash128_prog)%nat).
  { eexists _, _. split; [reflexivity|]. split; [reflexivity|]. split; [vm_compute; reflexivity|].
    split; [vm_compute; reflexivity|cbn; lia]. }
  destruct S2 as (pr & pr2 & P1 & P1' & P2 & P2' & P3 & P3').
  destruct (seg_steps c asm_hash128_prog 102 92 (MS 102 st0 f [0; 0]) pr eq_refl P1 P3) as [f' S3].
  pose proof (vn_check_sound _ _ _ _ _ P2 st0 eq_refl 1 1 (or_introl eq_refl))%nat as E.
  pose proof (vn_check_sound _ _ _ _ _ P2' st0 eq_refl 1 1 (or_introl eq_refl))%nat as E'.
  rewrite (exec_app 64 (final_spec 0xee)) in E. unfold st0 in E at 2. rewrite final_spec_exec in E.
  rewrite (exec_app 64 pr pr2), (exec_app 64 (final_spec 0xee)), (exec_app 64 final_spec2) in E'.
  unfold st0 in E' at 2. rewrite final_spec_exec in E'. unfold sip_final128.
  destruct (sip_compress (v0, v1, v2, v3) t) as [[[u0 u1] u2] u3].
  destruct (sip_round (sip_round (sip_round (sip_round (u0, u1, xor u2 0xee, u3))))) as [[[w0 w1] w2] w3].
  change (nth 1 (exec 64 (fold_prog 1) [w1; v2; w2; w3; w0; di; r8; v0; r10; t]) 0)
    with (sip_fold (w0, w1, w2, w3)) in E.
  unfold final_spec2 in E'. rewrite (exec_app _ [_]) in E'.
  replace (exec 64 [Set_ 0 (E2 BXor (EV 0) (EC 0xdd))] [w1; v2; w2; w3; w0; di; r8; v0; r10; t])
    with [xor w1 0xdd; v2; w2; w3; w0; di; r8; v0; r10; t] in E' by reflexivity.
  rewrite four_rounds in E'.
  destruct (sip_round (sip_round (sip_round (sip_round (w0, xor w1 0xdd, w2, w3))))) as [[[x0 x1] x2] x3].
  change (nth 1 (exec 64 (fold_prog 1) [x1; v2; x2; x3; x0; di; r8; v0; r10; t]) 0)
    with (sip_fold (x0, x1, x2, x3)) in E'.
  cbn [rs out] in S3. change (102 + 92)%nat with 194%nat in S3.
  destruct (seg_steps c asm_hash128_prog 195 61
    (MS 195 (exec 64 pr st0) f' (upd [0; 0] 0 (nth 1 (exec 64 pr st0) 0))) pr2 eq_refl P1' P3') as [f'' S4].
  cbn [rs out] in S4. change (195 + 61)%nat with 256%nat in S4.
  exists (MS 257 (exec 64 pr2 (exec 64 pr st0)) f''
             [nth 1 (exec 64 pr st0) 0; nth 1 (exec 64 pr2 (exec 64 pr st0)) 0]). split.
  - eapply steps_trans; [exact S3|]. eapply steps_trans; [apply steps_one; reflexivity|].
    eapply steps_trans; [exact S4|]. apply steps_one. reflexivity.
  - rewrite E, E'. reflexivity.
Qed.

(** ** Main statements *)
Theorem asm_hash_correct c r : call_ok c -> length r = 10%nat ->
  exists n, forall fuel, (n <= fuel)%nat ->
  mrun fuel c asm_hash_prog (entry r) = Some [sip_hash (c_k0 c) (c_k1 c) (c_mem c); 0].
Proof.
  intros Hc Hr. pose proof (to_switch c Hc false r Hr) as S1. unfold sip_hash.
  unfold start_of in S1.
  destruct (absorb 8 sip_block (sip_iv (c_k0 c) (c_k1 c)) (c_mem c)) as [[[[v0 v1] v2] v3] rest].
  destruct S1 as (dx & di & r8 & r10 & f & S1).
  destruct (final64 c v0 v1 v2 v3 dx (c_base c) di r8 r10 (sip_tail (shl64 (len64 (c_mem c)) 56) rest) f) as (st & S2 & S3).
  eapply steps_halt; [|exact S3]. eapply steps_trans; [exact S1|exact S2].
Qed.

Theorem asm_hash128_correct c r : call_ok c -> length r = 10%nat ->
  exists n, forall fuel, (n <= fuel)%nat ->
  mrun fuel c asm_hash128_prog (entry r) =
    Some (let '(r0, r1) := sip_hash128 (c_k0 c) (c_k1 c) (c_mem c) in [r0; r1]).
Proof.
  intros Hc Hr. pose proof (to_switch c Hc true r Hr) as S1. unfold sip_hash128.
  unfold start_of in S1.
  destruct (absorb 8 sip_block (xor_v1_ee (sip_iv (c_k0 c) (c_k1 c))) (c_mem c)) as [[[[v0 v1] v2] v3] rest].
  destruct S1 as (dx & di & r8 & r10 & f & S1).
  destruct (final128 c v0 v1 v2 v3 dx (c_base c) di r8 r10 (sip_tail (shl64 (len64 (c_mem c)) 56) rest) f) as (st & S2 & S3).
  eapply steps_halt; [|exact S3]. eapply steps_trans; [exact S1|exact S2].
Qed.
