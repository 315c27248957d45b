(** Properties C34-C36 of package threefish. *)
From Verif Require Import Words WordLemmas ListLemmas Mem SLP Mm3Spec Mm3Proofs ThreefishProg ThreefishModel ThreefishSpec ThreefishProofs ThreefishProofs2 ThreefishProofs3 ThreefishProofs4.
Open Scope N_scope.

(** All the ciphers a program can hold: from one of the constructors, through any
    calls that returned.  The flag tells whether New or NewSize made it. *)
Inductive obtained : bool -> cipher -> Prop :=
| ob_new key t c : bytes_ok key -> tweak_ok t -> New key t = Ok (Made c) -> obtained true c
| ob_size n c : NewSize n = Ok (Made c) -> obtained true c
| ob_new64 key t c : Forall (fun x => x < 2 ^ 64) key -> tweak_ok t -> New64 key t = Ok (Made c) -> obtained false c
| ob_call b c a c' m : obtained b c -> call_ok a -> perform c a = Ok (c', m) -> obtained b c'.

Lemma New_val key t : bytes_ok key -> tweak_ok t ->
  match New key t with
  | Ok (Made c) => exists n t0 t1, good_size n /\ length key = (8 * n)%nat /\ tweak_words t = Some (t0, t1) /\
                     sound c (to_words n key, t0, t1) /\ stateSize c = (64 * n)%nat
  | Ok (KeySizeError n) => n = length key /\ length key <> 32%nat /\ length key <> 64%nat /\ length key <> 128%nat
  | Panics => (exists n, good_size n /\ length key = (8 * n)%nat) /\ tweak_words t = None
  | _ => False
  end.
Proof.
  intros Hk Ht. unfold New.
  assert (G : forall n, good_size n -> length key = (8 * n)%nat ->
    match made_of (newThreefish n (length key * 8) (Some key) t) with
    | Ok (Made c) => exists n t0 t1, good_size n /\ length key = (8 * n)%nat /\ tweak_words t = Some (t0, t1) /\
                     sound c (to_words n key, t0, t1) /\ stateSize c = (64 * n)%nat
    | Ok (KeySizeError n) => n = length key /\ length key <> 32%nat /\ length key <> 64%nat /\ length key <> 128%nat
    | Panics => (exists n, good_size n /\ length key = (8 * n)%nat) /\ tweak_words t = None
    | _ => False
    end).
  { intros n Hn L. pose proof (newThreefish_val n (length key * 8) key t Hn Hk L Ht) as R. unfold made_of.
    destruct (tweak_words t) as [[t0 t1]|].
    - destruct R as (c & -> & S & Z). cbn [rbind]. exists n, t0, t1. repeat split; auto; try apply S. lia.
    - rewrite R. cbn [rbind]. split; [now exists n|reflexivity]. }
  destruct (Nat.eqb_spec (length key) 32) as [E|E1]; [apply (G 4%nat); [now left|assumption]|].
  destruct (Nat.eqb_spec (length key) 64) as [E|E2]; [apply (G 8%nat); [now right; left|assumption]|].
  destruct (Nat.eqb_spec (length key) 128) as [E|E3]; [apply (G 16%nat); [now right; right|assumption]|].
  auto.
Qed.
Lemma New64_val key t : Forall (fun x => x < 2 ^ 64) key -> tweak_ok t ->
  match New64 key t with
  | Ok (Made c) => exists t0 t1, good_size (length key) /\ tweak_words t = Some (t0, t1) /\
                     sound c (key, t0, t1) /\ stateSize c = (8 * length key)%nat /\ tmpData1 c = repeat 0 (length key)
  | Ok (KeySizeError n) => n = length key /\ ~ good_size (length key)
  | Panics => good_size (length key) /\ tweak_words t = None
  | _ => False
  end.
Proof.
  intros Hk Ht. unfold New64.
  assert (G : forall n, good_size n -> length key = n ->
    match made_of (newThreefish_64 n (length key * 8) key t) with
    | Ok (Made c) => exists t0 t1, good_size (length key) /\ tweak_words t = Some (t0, t1) /\
                     sound c (key, t0, t1) /\ stateSize c = (8 * length key)%nat /\ tmpData1 c = repeat 0 (length key)
    | Ok (KeySizeError n) => n = length key /\ ~ good_size (length key)
    | Panics => good_size (length key) /\ tweak_words t = None
    | _ => False
    end).
  { intros n Hn L. pose proof (newThreefish_64_val n (length key * 8) key t Hn (conj L Hk) Ht) as R. unfold made_of.
    destruct (tweak_words t) as [[t0 t1]|].
    - destruct R as (c & -> & S & Z & T). cbn [rbind]. exists t0, t1. subst n. repeat split; auto; try apply S. lia.
    - rewrite R. cbn [rbind]. rewrite L. auto. }
  unfold good_size in *.
  destruct (Nat.eqb_spec (length key) 4) as [E|E1]; [apply (G 4%nat); auto|].
  destruct (Nat.eqb_spec (length key) 8) as [E|E2]; [apply (G 8%nat); auto|].
  destruct (Nat.eqb_spec (length key) 16) as [E|E3]; [apply (G 16%nat); auto|].
  split; [reflexivity|lia].
Qed.
Lemma NewSize_val s :
  match NewSize s with
  | Ok (Made c) => exists n, good_size n /\ s = (64 * n)%nat /\ sound c (repeat 0 n, 0, 0) /\ stateSize c = s
  | Ok (KeySizeError k) => k = s /\ s <> 256%nat /\ s <> 512%nat /\ s <> 1024%nat
  | _ => False
  end.
Proof.
  unfold NewSize, made_of.
  destruct (Nat.eqb_spec s 256) as [E|E1].
  { destruct (newThreefish_zero 4 s ltac:(now left)) as (c & -> & S & Z). cbn [rbind]. exists 4%nat. split; [now left|auto]. }
  destruct (Nat.eqb_spec s 512) as [E|E2].
  { destruct (newThreefish_zero 8 s ltac:(now right; left)) as (c & -> & S & Z). cbn [rbind]. exists 8%nat. split; [now right; left|auto]. }
  destruct (Nat.eqb_spec s 1024) as [E|E3].
  { destruct (newThreefish_zero 16 s ltac:(now right; right)) as (c & -> & S & Z). cbn [rbind]. exists 16%nat. split; [now right; right|auto]. }
  auto.
Qed.
Lemma obtained_sound b c : obtained b c -> exists st, sound c st /\ stateSize c = ((if b then 64 else 8) * size st)%nat.
Proof.
  induction 1 as [key t c Hk Ht H|n c H|key t c Hk Ht H|b c a c' m _ (st & S & Z) Ha H].
  - pose proof (New_val key t Hk Ht) as R. rewrite H in R. destruct R as (n & t0 & t1 & _ & _ & _ & S & Z).
    eexists. split; [exact S|]. rewrite Z. cbn [size]. now rewrite (proj1 (to_words_block n key Hk)).
  - pose proof (NewSize_val n) as R. rewrite H in R. destruct R as (k & _ & E & S & Z). eexists. split; [exact S|]. rewrite Z. cbn [size]. now rewrite repeat_length.
  - pose proof (New64_val key t Hk Ht) as R. rewrite H in R. destruct R as (t0 & t1 & _ & _ & S & Z & _). eexists. split; [exact S|exact Z].
  - destruct (step_sound c st a c' m S Ha H) as ((st' & S' & E) & Z'). exists st'. split; [assumption|]. now rewrite Z', E.
Qed.

(** ** C34 *)
(** Threefish itself permutes the blocks, for every key and tweak. *)
Theorem c34_threefish_permutation n key t0 t1 :
  n = 4%nat \/ n = 8%nat \/ n = 16%nat -> is_block n key -> t0 < 2 ^ 64 -> t1 < 2 ^ 64 ->
  bijection_on (is_block n) (threefish (params_for n) key t0 t1).
Proof.
  intros Hn [Lk Fk] H0 H1.
  destruct (newThreefish_64_val n 0 key (Some [t0; t1]) Hn (conj Lk Fk)) as (c & _ & S & _).
  { repeat constructor; assumption. }
  destruct (crypt_facts c _ S) as (Ef & Df & A & B & _ & _). cbn [size enc] in A, B. rewrite Lk in A, B.
  split; [intros v Hv; apply (A v Hv)|]. exists Df. intros v Hv. split; [apply (B v Hv)|]. split; [apply (A v Hv)|apply (B v Hv)].
Qed.
Lemma in_mem_take mem s n : in_mem mem s -> (n <= snd s)%nat -> Forall (fits 64) mem -> is_block n (firstn n (skipn (fst s) mem)).
Proof.
  intros Hs L Hm. split; [rewrite firstn_length, skipn_length; unfold in_mem in *; lia|].
  rewrite <- (firstn_skipn (fst s) mem) in Hm. apply Forall_app in Hm. destruct Hm as [_ Hm].
  rewrite <- (firstn_skipn n (skipn (fst s) mem)) in Hm. apply Forall_app in Hm. apply Hm.
Qed.
Lemma Forall_splice (P : N -> Prop) mem off bs : Forall P mem -> Forall P bs -> Forall P (splice mem off bs).
Proof.
  intros H1 H2. unfold splice. rewrite !Forall_app. split; [|split; [assumption|]].
  - rewrite <- (firstn_skipn off mem) in H1. apply Forall_app in H1. apply H1.
  - rewrite <- (firstn_skipn (off + length bs) mem) in H1. apply Forall_app in H1. apply H1.
Qed.
(** On words: a block of n words encrypted from src to dst and decrypted from there to
    back is the block that was in src, whatever overlaps; and the other way round. *)
Theorem c34_words_round_trip b c mem dst src back :
  obtained b c -> Forall (fun x => x < 2 ^ 64) mem -> in_mem mem dst -> in_mem mem src -> in_mem mem back ->
  exists n, (n = 4 \/ n = 8 \/ n = 16)%nat /\
  ((n <= snd dst)%nat -> (n <= snd src)%nat -> (n <= snd back)%nat ->
   let block := firstn n (skipn (fst src) mem) in
   (exists m1 m2, Encrypt64 c mem dst src = Ok m1 /\ Decrypt64 c m1 back dst = Ok m2 /\
                  m2 = splice m1 (fst back) block) /\
   (exists m1 m2, Decrypt64 c mem dst src = Ok m1 /\ Encrypt64 c m1 back dst = Ok m2 /\
                  m2 = splice m1 (fst back) block)).
Proof.
  intros O Hm Hd Hs Hb. destruct (obtained_sound b c O) as (st & S & _). exists (size st). split; [exact (s_size _ _ S)|].
  intros Ld Ls Lb. cbv zeta. destruct (crypt_facts c st S) as (Ef & Df & A & B & HE & HD). set (n := size st) in *.
  assert (HEf : forall v, is_block n v -> is_block n (Ef v)) by (intros v Hv; destruct (A v Hv) as (-> & Hx & _); exact Hx).
  assert (HDf : forall v, is_block n v -> is_block n (Df v)) by (intros v Hv; apply (B v Hv)).
  pose proof (in_mem_take mem src n Hs Ls Hm) as Bs.
  assert (Two : forall f F g G, (forall l, f c l = b <~ take_n n l ;; Ok (F b)) -> (forall l, g c l = b <~ take_n n l ;; Ok (G b)) ->
    (forall v, is_block n v -> is_block n (F v)) -> (forall v, is_block n v -> is_block n (G v)) -> (forall v, is_block n v -> G (F v) = v) ->
    exists m1 m2, crypt64 f c mem dst src = Ok m1 /\ crypt64 g c m1 back dst = Ok m2 /\ m2 = splice m1 (fst back) (firstn n (skipn (fst src) mem))).
  { intros f F g G Hf Hg HF HG HGF. set (v := firstn n (skipn (fst src) mem)) in *. exists (splice mem (fst dst) (F v)). eexists.
    rewrite (crypt64_val f F c st mem dst src S Hf HF Hm Hd Hs). fold n.
    rewrite (proj2 (Nat.leb_le n (snd dst)) Ld), (proj2 (Nat.leb_le n (snd src)) Ls). cbn [andb].
    split; [reflexivity|]. pose proof (HF v Bs) as BF.
    assert (Lm : length (splice mem (fst dst) (F v)) = length mem) by (apply splice_length; rewrite (proj1 BF); unfold in_mem in *; lia).
    rewrite (crypt64_val g G c st _ back dst S Hg HG); [|apply Forall_splice; [assumption|apply BF]|unfold in_mem in *; lia|unfold in_mem in *; lia].
    fold n. rewrite (proj2 (Nat.leb_le n (snd dst)) Ld), (proj2 (Nat.leb_le n (snd back)) Lb). cbn [andb].
    split; [reflexivity|]. f_equal.
    replace (firstn n (skipn (fst dst) (splice mem (fst dst) (F v)))) with (F v); [now apply HGF|].
    symmetry. rewrite <- (proj1 BF). apply splice_get. rewrite (proj1 BF). unfold in_mem in *. lia. }
  split.
  - apply (Two encrypt Ef decrypt Df); auto. intros v Hv. destruct (A v Hv) as (-> & _ & Hx). exact Hx.
  - apply (Two decrypt Df encrypt Ef); auto. intros v Hv. destruct (B v Hv) as (Hb' & Hx). destruct (A _ Hb') as (-> & _). exact Hx.
Qed.
(** The same on bytes, for ciphers made by New or NewSize; the bytes outside of the
    destination are not touched. *)
Theorem c34_bytes_round_trip c mem dst src back :
  obtained true c -> bytes_ok mem -> in_mem mem dst -> in_mem mem src -> in_mem mem back ->
  (BlockSize c <= snd dst)%nat -> (BlockSize c <= snd src)%nat -> (BlockSize c <= snd back)%nat ->
  let block := firstn (BlockSize c) (skipn (fst src) mem) in
  (exists c1 m1 c2 m2, Encrypt c mem dst src = Ok (c1, m1) /\ Decrypt c1 m1 back dst = Ok (c2, m2) /\
     m2 = splice m1 (fst back) block /\ exists out, length out = BlockSize c /\ m1 = splice mem (fst dst) out) /\
  (exists c1 m1 c2 m2, Decrypt c mem dst src = Ok (c1, m1) /\ Encrypt c1 m1 back dst = Ok (c2, m2) /\
     m2 = splice m1 (fst back) block /\ exists out, length out = BlockSize c /\ m1 = splice mem (fst dst) out).
Proof.
  intros O Hm Hd Hs Hb. destruct (obtained_sound true c O) as (st & S & Z). set (n := size st) in *.
  assert (BS : BlockSize c = (8 * n)%nat).
  { unfold BlockSize. rewrite Z. replace (64 * n)%nat with (8 * n * 8)%nat by lia. now apply Nat.div_mul. }
  rewrite BS. intros Ld Ls Lb. cbv zeta.
  assert (Two : forall (A1 A2 : list N -> nat * nat -> nat * nat -> call),
    (A1 = CEncrypt /\ A2 = CDecrypt) \/ (A1 = CDecrypt /\ A2 = CEncrypt) ->
    exists c1 m1 c2 m2, perform c (A1 mem dst src) = Ok (c1, m1) /\ perform c1 (A2 m1 back dst) = Ok (c2, m2) /\
     m2 = splice m1 (fst back) (firstn (8 * n) (skipn (fst src) mem)) /\ exists out, length out = (8 * n)%nat /\ m1 = splice mem (fst dst) out).
  { intros A1 A2 HA.
    assert (Bin : is_block n (to_words n (skipn (fst src) mem))) by (apply to_words_block; now apply bytes_ok_skipn).
    destruct (crypt_facts c st S) as (Ef & Df & FA & FB & _ & _). fold n in FA, FB.
    assert (Inj : forall u v, is_block n u -> is_block n v -> enc st u = enc st v -> u = v).
    { intros u v Hu Hv E. destruct (FA u Hu) as (_ & _ & <-). destruct (FA v Hv) as (_ & _ & <-). now rewrite E. }
    assert (Mid : exists x, is_block n x /\ (exists c1, perform c (A1 mem dst src) = Ok (c1, splice mem (fst dst) (to_bytes x)) /\ sound c1 st /\ stateSize c1 = stateSize c) /\
      (A1 = CEncrypt -> x = enc st (to_words n (skipn (fst src) mem))) /\ (A1 = CDecrypt -> enc st x = to_words n (skipn (fst src) mem))).
    { destruct (step_sim c st (A1 mem dst src) S) as (r & D1 & D2); [intros _; exact Z|destruct HA as [[-> _]|[-> _]]; cbn; auto|].
      destruct HA as [[E1 _]|[E1 _]]; rewrite E1 in *; cbn [does] in D1; fold n in D1;
        rewrite (proj2 (Nat.leb_le _ _) Ld), (proj2 (Nat.leb_le _ _) Ls) in D1; cbn [andb] in D1.
      - subst r. destruct D2 as (c1 & P1 & S1 & _ & Z1). eexists. split; [apply (FA _ Bin)|]. split; [exists c1; auto|]. split; [reflexivity|].
        intros E. exfalso. assert (X : CEncrypt [] (0, 0)%nat (0, 0)%nat = CDecrypt [] (0, 0)%nat (0, 0)%nat) by now rewrite E. discriminate.
      - destruct D1 as (v & Bv & Ev & ->). destruct D2 as (c1 & P1 & S1 & _ & Z1). exists v. split; [assumption|]. split; [exists c1; auto|]. split; [|auto].
        intros E. exfalso. assert (X : CEncrypt [] (0, 0)%nat (0, 0)%nat = CDecrypt [] (0, 0)%nat (0, 0)%nat) by now rewrite <- E. discriminate. }
    destruct Mid as (x & Bx & (c1 & P1 & S1 & Z1) & Xe & Xd).
    assert (Lx : length (to_bytes x) = (8 * n)%nat) by (rewrite to_bytes_length, (proj1 Bx); reflexivity).
    set (m1 := splice mem (fst dst) (to_bytes x)) in *.
    assert (Lm : length m1 = length mem) by (apply splice_length; rewrite Lx; unfold in_mem in *; lia).
    assert (Hm1 : bytes_ok m1) by (apply Forall_splice; [assumption|apply to_bytes_ok]).
    assert (Rd : to_words n (skipn (fst dst) m1) = x).
    { rewrite <- (to_words_firstn n _ (8 * n) (le_n _)).
      replace (firstn (8 * n) (skipn (fst dst) m1)) with (to_bytes x).
      - rewrite <- (proj1 Bx). rewrite <- (app_nil_r (to_bytes x)). apply to_words_bytes. apply Bx.
      - symmetry. rewrite <- Lx. apply splice_get. rewrite Lx. unfold in_mem in *. lia. }
    exists c1, m1.
    destruct (step_sim c1 st (A2 m1 back dst) S1) as (r & D1 & D2);
      [intros _; rewrite Z1; exact Z|destruct HA as [[_ ->]|[_ ->]]; cbn; unfold in_mem in *; rewrite Lm; auto|].
    assert (Fin : forall v, v = to_words n (skipn (fst src) mem) -> to_bytes v = firstn (8 * n) (skipn (fst src) mem)).
    { intros v ->. apply to_bytes_words; [now apply bytes_ok_skipn|]. rewrite skipn_length. unfold in_mem in *. lia. }
    destruct HA as [[E1 E2]|[E1 E2]]; rewrite E2 in *; cbn [does] in D1; fold n in D1;
      rewrite (proj2 (Nat.leb_le _ _) Ld), (proj2 (Nat.leb_le _ _) Lb) in D1; cbn [andb] in D1; rewrite Rd in D1.
    - destruct D1 as (v & Bv & Ev & ->). destruct D2 as (c2 & P2 & _). eexists c2, _. split; [exact P1|]. split; [exact P2|]. split; [|now exists (to_bytes x)].
      f_equal. apply Fin. rewrite (Xe E1) in Ev. now apply Inj.
    - subst r. destruct D2 as (c2 & P2 & _). eexists c2, _. split; [exact P1|]. split; [exact P2|]. split; [|now exists (to_bytes x)].
      f_equal. apply Fin. exact (Xd E1). }
  split; [apply (Two CEncrypt CDecrypt); auto|apply (Two CDecrypt CEncrypt); auto].
Qed.

Definition key32 : list N := map (fun i => N.of_nat (7 * i + 1)) (seq 0 32).
Definition mem96 : list N := map (fun i => N.of_nat (2 * i)) (seq 0 96).
Lemma small_bytes (f : nat -> nat) n : (forall i, (i < n)%nat -> (f i < 256)%nat) -> bytes_ok (map (fun i => N.of_nat (f i)) (seq 0 n)).
Proof.
  intros H. apply Forall_forall. intros x Hx. apply in_map_iff in Hx. destruct Hx as (i & <- & Hi). apply in_seq in Hi.
  specialize (H i ltac:(lia)). unfold byte_ok. lia.
Qed.
(** A 256-bit cipher; source and destination overlap by 24 bytes. *)
Example c34_nonvacuous :
  exists c, New key32 (Some [5; 6]) = Ok (Made c) /\ obtained true c /\ bytes_ok mem96 /\
    in_mem mem96 (8, 32)%nat /\ in_mem mem96 (0, 32)%nat /\ in_mem mem96 (40, 56)%nat /\ BlockSize c = 32%nat /\
    exists c1 m1, Encrypt c mem96 (8, 32)%nat (0, 32)%nat = Ok (c1, m1) /\
      firstn 32 (skipn 8 m1) <> firstn 32 mem96 /\ nth 8 m1 0 <> nth 8 mem96 0.
Proof.
  eexists. split; [vm_compute; reflexivity|]. split.
  { eapply (ob_new key32 (Some [5; 6])); [apply (small_bytes (fun i => 7 * i + 1)%nat); lia|repeat constructor|vm_compute; reflexivity]. }
  split; [apply (small_bytes (fun i => 2 * i)%nat); lia|]. unfold in_mem.
  split; [cbn; lia|]. split; [cbn; lia|]. split; [cbn; lia|]. split; [reflexivity|].
  eexists _, _. split; [vm_compute; reflexivity|]. split; vm_compute; discriminate.
Qed.
Example c34_words_nonvacuous : let mem := [1; 2; 3; 4; 5; 6; 7; 8; 9; 10; 11; 12] in
  exists c, New64 [9; 8; 7; 2 ^ 64 - 1] (Some [5; 6]) = Ok (Made c) /\ exists m1, Encrypt64 c mem (2, 4)%nat (0, 4)%nat = Ok m1 /\ exists m2, Decrypt64 c m1 (8, 4)%nat (2, 4)%nat = Ok m2 /\
    skipn 8 m2 = [1; 2; 3; 4] /\ firstn 2 m2 = [1; 2] /\ nth 2 m1 0 <> 3.
Proof. eexists. split; [vm_compute; reflexivity|]. eexists. split; [vm_compute; reflexivity|]. eexists. split; [vm_compute; reflexivity|]. split; [vm_compute; reflexivity|]. split; [vm_compute; reflexivity|vm_compute; discriminate]. Qed.

(** ** C35 *)
(** The memories left by a sequence of calls, up to the first panic. *)
Fixpoint perform_all (c : cipher) (l : list call) : list (option (list N)) :=
  match l with
  | [] => []
  | a :: l => match perform c a with Ok (c', m) => Some m :: perform_all c' l | _ => [None] end
  end.
Lemma history_sim l : forall c st, sound c st -> (stateSize c = (64 * size st)%nat \/ Forall (fun a => byte_call a = false) l) ->
  Forall call_ok l -> runs_as st l (perform_all c l).
Proof.
  induction l as [|a l IH]; intros c st S HB Hl; [reflexivity|]. inversion Hl; subst. cbn [runs_as perform_all].
  destruct (step_sim c st a S) as (r & D1 & D2); [intros E; destruct HB as [HB|HB]; [exact HB|inversion HB; congruence]|assumption|].
  exists r. split; [exact D1|]. destruct r as [[st' m]|].
  - destruct D2 as (c' & -> & S' & Es & Z). eexists. split; [reflexivity|]. apply IH; auto.
    destruct HB as [HB|HB]; [left; now rewrite Z, Es|right; now inversion HB].
  - now rewrite D2.
Qed.
(** What New accepts. *)
Theorem c35_new_accepts key t : bytes_ok key -> tweak_ok t ->
  let sized := (length key = 32 \/ length key = 64 \/ length key = 128)%nat in
  (~ sized -> New key t = Ok (KeySizeError (length key))) /\
  (sized -> (t = None \/ exists t0 t1 r, t = Some (t0 :: t1 :: r)) -> exists c, New key t = Ok (Made c) /\ BlockSize c = length key) /\
  (sized -> (exists x, t = Some x /\ (length x < 2)%nat) -> New key t = Panics).
Proof.
  intros Hk Ht. cbv zeta. pose proof (New_val key t Hk Ht) as R.
  destruct (New key t) as [[c|n]| | |] eqn:E; try contradiction.
  - destruct R as (n & t0 & t1 & Hn & L & Tw & S & Z). split; [|split].
    + intros H. exfalso. apply H. unfold good_size in Hn. lia.
    + intros _ _. exists c. split; [reflexivity|]. unfold BlockSize. rewrite Z, L. replace (64 * n)%nat with (8 * n * 8)%nat by lia. now apply Nat.div_mul.
    + intros _ (x & -> & Lx). exfalso. destruct x as [|? [|? ?]]; cbn in *; try discriminate. lia.
  - destruct R as (-> & N1 & N2 & N3). split; [reflexivity|]. split; intros; exfalso; lia.
  - destruct R as ((n & Hn & L) & Tw). unfold good_size in Hn. split; [intros H; exfalso; apply H; lia|]. split; [|reflexivity].
    intros _ [->|(t0 & t1 & r & ->)]; discriminate.
Qed.
(** From then on, for every sequence of SetKey, SetTweak, Encrypt, Decrypt, Encrypt64 and
    Decrypt64 on overlapping or separate buffers, every memory is the one given by the
    published cipher with the current key and tweak, and the calls panic just when a
    buffer, key or tweak is too short. *)
Theorem c35_new_is_threefish key t c t0 t1 l :
  bytes_ok key -> tweak_ok t -> New key t = Ok (Made c) ->
  (t = None /\ t0 = 0 /\ t1 = 0) \/ (exists r, t = Some (t0 :: t1 :: r)) -> Forall call_ok l ->
  runs_as (to_words (length key / 8) key, t0, t1) l (perform_all c l).
Proof.
  intros Hk Ht H T Hl. pose proof (New_val key t Hk Ht) as R. rewrite H in R. destruct R as (n & u0 & u1 & Hn & L & Tw & S & Z).
  assert (E : (u0 = t0 /\ u1 = t1)) by (destruct T as [(-> & -> & ->)|(r & ->)]; inversion Tw; auto).
  destruct E as [-> ->]. rewrite L. rewrite (Nat.mul_comm 8), Nat.div_mul by discriminate.
  apply history_sim; auto. left. rewrite Z. cbn [size]. now rewrite (proj1 (to_words_block n key Hk)).
Qed.
(** NewSize gives the all-zero key and tweak. *)
Theorem c35_newsize_is_zero_key s :
  ((s <> 256 /\ s <> 512 /\ s <> 1024)%nat /\ NewSize s = Ok (KeySizeError s)) \/
  (exists c, (s = 256 \/ s = 512 \/ s = 1024)%nat /\ NewSize s = Ok (Made c) /\ BlockSize c = (s / 8)%nat /\
     forall l, Forall call_ok l -> runs_as (repeat 0 (s / 64), 0, 0) l (perform_all c l)).
Proof.
  pose proof (NewSize_val s) as R. destruct (NewSize s) as [[c|n]| | |] eqn:E; try contradiction.
  - right. destruct R as (n & Hn & L & S & Z). exists c. split; [unfold good_size in Hn; lia|]. split; [reflexivity|].
    split; [unfold BlockSize; now rewrite Z|]. intros l Hl. rewrite L, (Nat.mul_comm 64), Nat.div_mul by discriminate.
    apply history_sim; auto. left. rewrite Z, L. cbn [size]. now rewrite repeat_length.
  - left. destruct R as (-> & N). split; [exact N|reflexivity].
Qed.
(** New64, as long as only the calls on words are used. *)
Theorem c35_new64_words key t : Forall (fun x => x < 2 ^ 64) key -> tweak_ok t ->
  let sized := (length key = 4 \/ length key = 8 \/ length key = 16)%nat in
  (~ sized -> New64 key t = Ok (KeySizeError (length key))) /\
  (sized -> forall t0 t1, (t = None /\ t0 = 0 /\ t1 = 0) \/ (exists r, t = Some (t0 :: t1 :: r)) ->
     exists c, New64 key t = Ok (Made c) /\
       forall l, Forall call_ok l -> Forall (fun a => byte_call a = false) l -> runs_as (key, t0, t1) l (perform_all c l)).
Proof.
  intros Hk Ht. cbv zeta. pose proof (New64_val key t Hk Ht) as R. unfold good_size in R.
  destruct (New64 key t) as [[c|n]| | |] eqn:E; try contradiction.
  - destruct R as (u0 & u1 & Hn & Tw & S & Z & _). split; [tauto|]. intros _ t0 t1 T. exists c. split; [reflexivity|].
    intros l Hl Hb. assert (X : u0 = t0 /\ u1 = t1) by (destruct T as [(-> & -> & ->)|(r & ->)]; inversion Tw; auto).
    destruct X as [-> ->]. apply history_sim; auto.
  - destruct R as (-> & Hn). split; [reflexivity|tauto].
  - destruct R as (Hn & Tw). split; [tauto|]. intros _ t0 t1 [(-> & _)|(r & ->)]; discriminate.
Qed.

(** A cipher is made, encrypts, changes its key and tweak and panics on a short key. *)
Example c35_nonvacuous :
  exists c m1 m2, New key32 None = Ok (Made c) /\
    let l := [CEncrypt mem96 (8, 32)%nat (0, 32)%nat; CSetKey [1; 2; 3; 4; 5]; CSetTweak (Some [9; 8]);
              CDecrypt mem96 (0, 40)%nat (50, 40)%nat; CSetKey [1]; CSetTweak None] in
    Forall call_ok l /\ perform_all c l = [Some m1; Some []; Some []; Some m2; None] /\ m1 <> mem96 /\ m2 <> mem96.
Proof.
  eexists _, _, _. split; [vm_compute; reflexivity|]. cbv zeta. split.
  { assert (bytes_ok mem96) by (apply (small_bytes (fun i => 2 * i)%nat); lia).
    repeat constructor; auto; unfold in_mem; cbn; lia. }
  split; [vm_compute; reflexivity|]. split; vm_compute; discriminate.
Qed.

(** ** C36 *)
(** A cipher made by New64 reports a block size of as many bytes as its key has words... *)
Theorem c36_new64_block_size key t c : Forall (fun x => x < 2 ^ 64) key -> tweak_ok t -> New64 key t = Ok (Made c) ->
  BlockSize c = length key.
Proof.
  intros Hk Ht H. pose proof (New64_val key t Hk Ht) as R. rewrite H in R. destruct R as (t0 & t1 & _ & _ & _ & Z & _).
  unfold BlockSize. rewrite Z, Nat.mul_comm. now apply Nat.div_mul.
Qed.
(** ... and its Encrypt on bytes reads and writes n/8 words only: the rest of the block
    is taken to be zero and the rest of the result is lost. *)
Theorem c36_new64_encrypt key t t0 t1 c mem dst src :
  Forall (fun x => x < 2 ^ 64) key -> tweak_ok t -> New64 key t = Ok (Made c) ->
  (t = None /\ t0 = 0 /\ t1 = 0) \/ (exists r, t = Some (t0 :: t1 :: r)) ->
  bytes_ok mem -> in_mem mem dst -> in_mem mem src -> (length key <= snd dst)%nat -> (length key <= snd src)%nat ->
  let n := length key in
  let k := (n / 8)%nat in
  exists c', Encrypt c mem dst src = Ok (c', splice mem (fst dst) (to_bytes (firstn k
               (threefish (params_for n) key t0 t1 (to_words k (skipn (fst src) mem) ++ repeat 0 (n - k)))))).
Proof.
  intros Hk Ht H T Hm Hd Hs Ld Ls n k. pose proof (New64_val key t Hk Ht) as R. rewrite H in R.
  destruct R as (u0 & u1 & Hn & Tw & S & Z & T1).
  assert (X : u0 = t0 /\ u1 = t1) by (destruct T as [(-> & -> & ->)|(r & ->)]; inversion Tw; auto). destruct X as [-> ->].
  assert (Lkn : (k <= n /\ 8 * k <= n)%nat) by (unfold k; pose proof (Nat.mul_div_le n 8); split; [|lia]; pose proof (Nat.mul_div_le n 8); lia).
  destruct Lkn as [Lkn L8].
  destruct (crypt_facts c _ S) as (Ef & Df & A & B & HE & HD). cbn [size] in *. fold n in A, B, HE, HD.
  unfold Encrypt, crypt. rewrite Z. fold n. replace (8 * n / 64)%nat with k.
  2:{ unfold k. change 64%nat with (8 * 8)%nat. rewrite Nat.div_mul_cancel_l by discriminate. reflexivity. }
  pose proof (slice_get_length mem src Hs) as Lsl.
  assert (Lt : length (tmpData1 c) = n) by (rewrite T1; apply repeat_length).
  rewrite load_loop_ok by (unfold slice_get; try lia; try (now apply bytes_ok_firstn, bytes_ok_skipn); fold (slice_get mem src); lia).
  cbn [rbind]. change (8 * 0)%nat with 0%nat. change (skipn 0 (slice_get mem src)) with (slice_get mem src).
  assert (Hv : to_words k (slice_get mem src) = to_words k (skipn (fst src) mem)) by (unfold slice_get; apply to_words_firstn; lia).
  rewrite Hv. assert (Bv : is_block k (to_words k (skipn (fst src) mem))) by (apply to_words_block; now apply bytes_ok_skipn).
  set (v := to_words k (skipn (fst src) mem)) in *.
  assert (Sp : splice (tmpData1 c) 0 v = v ++ repeat 0 (n - k)).
  { unfold splice. cbn [firstn app Nat.add]. rewrite T1, (proj1 Bv). fold n. f_equal.
    replace n with (k + (n - k))%nat at 1 by lia. rewrite repeat_app. apply SpookyProofs.skipn_app_n. apply repeat_length. }
  rewrite Sp. set (w := v ++ repeat 0 (n - k)) in *.
  assert (Bw : is_block n w).
  { split; [unfold w; rewrite app_length, repeat_length, (proj1 Bv); lia|]. apply Forall_app. split; [apply Bv|apply zero_block]. }
  rewrite HE. unfold take_n. rewrite (proj1 Bw), Nat.leb_refl. cbn [rbind]. rewrite firstn_all2 by (rewrite (proj1 Bw); lia).
  destruct (A w Bw) as (-> & BE & _). cbn [enc] in *. fold n in BE |- *.
  rewrite store_loop_ok by (try lia; rewrite (proj1 BE); lia). cbn [rbind]. eexists. f_equal. f_equal.
  rewrite Nat.add_0_r. apply write_at_splice. rewrite to_bytes_length, firstn_length. unfold in_mem in Hd. lia.
Qed.
(** For a 256-bit key nothing at all is encrypted: the destination keeps its contents. *)
Theorem c36_new64_256_no_encryption key t c mem dst src :
  Forall (fun x => x < 2 ^ 64) key -> tweak_ok t -> length key = 4%nat -> New64 key t = Ok (Made c) ->
  exists c', Encrypt c mem dst src = Ok (c', mem).
Proof.
  intros Hk Ht L H. pose proof (New64_val key t Hk Ht) as R. rewrite H in R. destruct R as (t0 & t1 & Hn & _ & S & Z & T1).
  destruct (crypt_facts c _ S) as (Ef & Df & A & B & HE & HD). cbn [size] in *.
  unfold Encrypt, crypt. rewrite Z, L. change (8 * 4 / 64)%nat with 0%nat. cbn [load_loop rbind]. rewrite HE.
  unfold take_n. rewrite T1, repeat_length, Nat.leb_refl. cbn [rbind store_loop]. now eexists.
Qed.
(** So New64 on the words of a key is not the cipher that New makes of its bytes. *)
Theorem c36_new64_same_cipher_refuted :
  exists key mem dst src c1 c2 d1 d2 m1 m2,
    bytes_ok key /\ length key = 32%nat /\ New key None = Ok (Made c1) /\ New64 (to_words 4 key) None = Ok (Made c2) /\
    bytes_ok mem /\ in_mem mem dst /\ in_mem mem src /\ snd dst = 32%nat /\ snd src = 32%nat /\
    Encrypt c1 mem dst src = Ok (d1, m1) /\ Encrypt c2 mem dst src = Ok (d2, m2) /\ BlockSize c1 <> BlockSize c2 /\
    m1 <> m2 /\ m2 = mem.
Proof.
  exists key32, mem96, (32, 32)%nat, (0, 32)%nat. eexists _, _, _, _, _, _.
  split; [apply (small_bytes (fun i => 7 * i + 1)%nat); lia|]. split; [reflexivity|].
  split; [vm_compute; reflexivity|]. split; [vm_compute; reflexivity|].
  split; [apply (small_bytes (fun i => 2 * i)%nat); lia|]. split; [unfold in_mem; cbn; lia|]. split; [unfold in_mem; cbn; lia|].
  split; [reflexivity|]. split; [reflexivity|]. split; [vm_compute; reflexivity|]. split; [vm_compute; reflexivity|].
  split; [vm_compute; discriminate|]. split; [vm_compute; discriminate|reflexivity].
Qed.
Example c36_nonvacuous :
  exists c, New64 [1; 2; 3; 4; 5; 6; 7; 8] None = Ok (Made c) /\ BlockSize c = 8%nat /\
    exists c' m, Encrypt c mem96 (0, 64)%nat (0, 64)%nat = Ok (c', m) /\ skipn 8 m = skipn 8 mem96 /\ firstn 8 m <> firstn 8 mem96.
Proof.
  eexists. split; [vm_compute; reflexivity|]. split; [reflexivity|]. eexists _, _. split; [vm_compute; reflexivity|].
  split; [vm_compute; reflexivity|vm_compute; discriminate].
Qed.
Example c36_256_nonvacuous : exists c, New64 [1; 2; 3; 4] (Some [5; 6]) = Ok (Made c) /\ exists c', Encrypt c mem96 (0, 32)%nat (40, 32)%nat = Ok (c', mem96).
Proof. eexists. split; [vm_compute; reflexivity|]. eexists. vm_compute. reflexivity. Qed.

Print Assumptions c34_threefish_permutation.
Print Assumptions c34_words_round_trip.
Print Assumptions c34_bytes_round_trip.
Print Assumptions c35_new_accepts.
Print Assumptions c35_new_is_threefish.
Print Assumptions c35_newsize_is_zero_key.
Print Assumptions c35_new64_words.
Print Assumptions c36_new64_block_size.
Print Assumptions c36_new64_encrypt.
Print Assumptions c36_new64_256_no_encryption.
Print Assumptions c36_new64_same_cipher_refuted.
