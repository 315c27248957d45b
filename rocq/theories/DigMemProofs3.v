(** Two copies of a digest that are both written to. *)
From Coq Require Import NArith ZArith List Arith Lia Bool.
From Verif Require Import Words WordLemmas ListLemmas Blocks Mem KeccakModel KeccakProofs3 KeccakProofs4 KeccakProofs5 SipModel
  JenkinsModel Mm3Model DigMemModel DigMemSpec DigMemProofs DigMemProofs2.
Import ListNotations.
Open Scope N_scope.

Section Alias.
  Variables (grow : nat -> nat -> nat) (x p q : list N).
  Hypothesis x0 : x <> [].
  Hypothesis pq : length p = length q.
  Hypothesis room : (length x + length q <= grow 0 (length x))%nat.
  Let D := x ++ p ++ q.
  Let c := grow 0%nat (length x).
  Let z := repeat 0 (c - length x).
  Let m1 := [D; x ++ z].
  Let m2 := [D; x ++ p ++ skipn (length p) z].
  Let m3 := [D; x ++ q ++ skipn (length q) z].
  Let t1 := mkSlice 1 0 (length x) c.
  Let t2 := mkSlice 1 0 (length x + length q) c.
  Lemma xpos : (0 < length x)%nat.
  Proof. destruct x; [congruence|cbn; lia]. Qed.
  Lemma app1 : append grow [D] nil_slice x = (m1, t1).
  Proof.
    unfold append. pose proof xpos. cbn [len nil_slice cap Nat.add]. replace (Nat.leb (length x) 0) with false by (symmetry; apply Nat.leb_gt; lia).
    rewrite Nat.max_r by (fold c; unfold c; lia). reflexivity.
  Qed.
  Lemma put b : length b = length q -> forall b0, length b0 = length q ->
    append grow [D; x ++ b0 ++ skipn (length q) z] t1 b = ([D; x ++ b ++ skipn (length q) z], t2).
  Proof.
    intros Lb b0 Lb0. unfold append, t1. cbn [len cap arr off]. rewrite Lb. replace (Nat.leb (length x + length q) c) with true by (symmetry; apply Nat.leb_le; exact room).
    f_equal. unfold store. cbn [array nth upd Nat.add]. rewrite firstn_app_exact by reflexivity. rewrite skipn_add, skipn_app_exact by reflexivity. rewrite Lb.
    rewrite (skipn_app_exact (length q)) by exact Lb0. reflexivity.
  Qed.
  Lemma app2 : append grow m1 t1 p = (m2, t2).
  Proof.
    unfold m1, m2. rewrite pq. rewrite <- (put p pq (firstn (length q) z)); [now rewrite firstn_skipn|].
    rewrite firstn_length. unfold z. rewrite repeat_length. unfold c. lia.
  Qed.
  Lemma app3 : append grow m2 t1 q = (m3, t2).
  Proof. unfold m2. rewrite pq. apply put; auto. Qed.
  Lemma cut1 : read [D] (cut [D] 0 0 (length x)) = x.
  Proof. unfold read, cut. cbn [len off arr array nth skipn]. unfold D. now apply firstn_app_exact. Qed.
  Lemma cut2 r : read (D :: r) (cut (D :: r) 0 (length x) (length p)) = p.
  Proof. unfold read, cut. cbn [len off arr array nth]. unfold D. rewrite skipn_app_exact by reflexivity. now apply firstn_app_exact. Qed.
  Lemma cut3 r : read (D :: r) (cut (D :: r) 0 (length x + length p) (length q)) = q.
  Proof. unfold read, cut. cbn [len off arr array nth]. unfold D. rewrite skipn_add, !skipn_app_exact by reflexivity. apply firstn_all. Qed.
  Lemma tok3 : tok m3 t2 /\ read m3 t2 = x ++ q.
  Proof.
    split.
    - split; [|reflexivity]. unfold wf, t2, m3. cbn [len cap off arr array nth length Nat.add]. rewrite !app_length, skipn_length. unfold z. rewrite repeat_length.
      pose proof xpos. fold c in room. unfold c in *. lia.
    - unfold read, t2, m3. cbn [len off arr array nth skipn]. rewrite app_assoc. apply firstn_app_exact. now rewrite app_length.
  Qed.
  Definition pre (k : kind) (second : nat) : list mop :=
    [DAlloc (x ++ p ++ q); DNew k; DWrite 0 0 0 (length x); DCopy 0; DWrite 0 0 second (length p); DWrite 1 0 (length x + length p) (length q)].
  Lemma inv3 (d : obj) v : is m3 d v -> foot d = [1%nat] -> jen d = true -> inv m3 [0%nat] [D] [d; d] [v; v] [true; true].
  Proof.
    intros Hd Hf J. constructor.
    - constructor; [reflexivity|constructor; [intros []|constructor]|]. intros a Ha. cbn in Ha. replace a with 0%nat by lia. cbn. split; [lia|reflexivity].
    - repeat constructor; exact Hd.
    - reflexivity.
    - intros i e a He Hx. assert (e = d) by (destruct i as [|[|i]]; cbn in He; [congruence|congruence|destruct i; discriminate]). subst e.
      rewrite Hf in Hx. destruct Hx as [<-|[]]. intros [X|[]]. discriminate.
    - intros i e He _. assert (e = d) by (destruct i as [|[|i]]; cbn in He; [congruence|congruence|destruct i; discriminate]). now subst e.
    - intros i j e e' a He He' _ _ Fi _. exfalso. destruct i as [|[|i]]; cbn in He, Fi; [discriminate|discriminate|destruct i; discriminate].
    - intros i j e e' a He He' _ _ _ Fj. exfalso. destruct j as [|[|j]]; cbn in He', Fj; [discriminate|discriminate|destruct j; discriminate].
  Qed.
  Lemma foot3 : tfoot t2 = [1%nat].
  Proof. unfold tfoot, t2. cbn [cap arr]. pose proof xpos. destruct (Nat.eqb_spec c 0) as [E|E]; [unfold c in E; lia|reflexivity]. Qed.
  Lemma alias k rest : (exists s, k = K332 s \/ k = K364 s \/ k = K232 s) ->
    one_writer [true; true] rest -> mops_ok grow [D] [v_write (v_write (v_new k) x) q; v_write (v_write (v_new k) x) q] rest ->
    mem_run grow [] [] [] (pre k (length x) ++ rest) = val_run grow [] [] (pre k (length x + length p) ++ rest).
  Proof.
    intros Hk Ow Ok. pose proof tok3 as [T R].
    assert (Sp : val_run grow [] [] (pre k (length x + length p) ++ rest) =
                 val_run grow [D] [v_write (v_write (v_new k) x) q; v_write (v_write (v_new k) x) q] rest).
    { unfold pre. cbn [app val_run nth_error upd]. change (nth 0 [x ++ p ++ q] []) with D. replace (firstn (length x) (skipn 0 D)) with x by (symmetry; exact cut1).
      replace (v_copyable (v_write (v_new k) x)) with true by (destruct Hk as (s & [-> |[-> | ->]]); reflexivity).
      cbn [app nth_error upd]. replace (firstn (length p) (skipn (length x + length p) D)) with q by (rewrite pq; symmetry; rewrite <- pq at 2; exact (cut3 [])).
      replace (firstn (length q) (skipn (length x + length p) D)) with q by (symmetry; exact (cut3 [])). reflexivity. }
    rewrite Sp. clear Sp. rewrite <- (mem_run_ok grow rest m3 [0%nat] [D]
      (let o := match k with K332 s => J3 (mkJ3 0 s s s t2) | K364 s => J6 (mkJ6 0 s (wrap 32 s) (wrap 32 (shr s 32)) t2) | _ => J2 (mkJ2 0 0 t2) end in [o; o])
      [v_write (v_write (v_new k) x) q; v_write (v_write (v_new k) x) q] [true; true]); [|destruct Hk as (s & [-> |[-> | ->]]); apply inv3; cbn [is foot]; try exact foot3; try reflexivity|exact Ok|exact Ow].
    - destruct Hk as (s & [-> |[-> | ->]]); unfold pre; cbn [app mem_run obj_new length nth nth_error obj_write upd j3_tail j6_tail j2_tail];
        change ([x ++ p ++ q]) with [D]; rewrite cut1, app1; cbn [app upd nth_error obj_write j3_tail j6_tail j2_tail j3_hash j3_seed j3_pc j3_pb j6_hash j6_seed j6_pc j6_pb j2_hash j2_seed];
        unfold m1; rewrite cut2; fold m1; rewrite app2; cbn [app upd nth_error obj_write j3_tail j6_tail j2_tail j3_hash j3_seed j3_pc j3_pb j6_hash j6_seed j6_pc j6_pb j2_hash j2_seed];
        unfold m2; rewrite cut3; fold m2; rewrite app3; reflexivity.
    - cbn [v_new v_write]. split; [|exact T]. unfold load3, new332, reset332, write332. cbn [fst s332_hash s332_seed s332_pc s332_pb s332_tail j3_hash j3_seed j3_pc j3_pb j3_tail app]. now rewrite R.
    - cbn [v_new v_write]. split; [|exact T]. unfold load6, new364, reset364, write364. cbn [fst s364_hash s364_seed s364_pc s364_pb s364_tail j6_hash j6_seed j6_pc j6_pb j6_tail app]. now rewrite R.
    - cbn [v_new v_write]. split; [|exact T]. unfold load2, new232, reset232, write232. cbn [fst s232_hash s232_seed s232_tail j2_hash j2_seed j2_tail app]. now rewrite R.
  Qed.
End Alias.
