(** Proofs about package threefish: the key schedule, buffers and whole calls. *)
From Verif Require Import Words WordLemmas ListLemmas Mem SLP Mm3Spec Mm3Proofs ThreefishProg ThreefishModel ThreefishSpec ThreefishProofs ThreefishProofs2 ThreefishProofs3.
Open Scope N_scope.

Lemma is_block_iff n v : is_block n v <-> regs_ok 64 n v.
Proof. reflexivity. Qed.

(** ** Lists *)
Lemma splice_nil mem off : splice mem off [] = mem.
Proof. unfold splice. cbn [length app]. rewrite Nat.add_0_r. apply firstn_skipn. Qed.
Lemma write_at_splice bs : forall mem off, (off + length bs <= length mem)%nat -> write_at mem off bs = splice mem off bs.
Proof.
  induction bs as [|b bs IH]; intros mem off H; [now rewrite splice_nil|]. cbn [write_at length] in *.
  rewrite IH by (rewrite upd_length; lia). unfold splice. cbn [length].
  replace (S off + length bs)%nat with (off + S (length bs))%nat by lia.
  rewrite SpookyProofs.skipn_upd by lia. cbn [app].
  rewrite (firstn_S_nth (upd mem off b) off 0) by (rewrite upd_length; lia). rewrite upd_same by lia.
  rewrite <- app_assoc. cbn [app]. f_equal.
  clear. revert off. induction mem as [|x mem IH]; intros [|off]; cbn; auto. f_equal. apply IH.
Qed.
Lemma write_at_app a b : forall mem off, write_at mem off (a ++ b) = write_at (write_at mem off a) (off + length a) b.
Proof.
  induction a as [|x a IH]; intros mem off; cbn [app write_at length]; [now rewrite Nat.add_0_r|].
  rewrite IH. f_equal. lia.
Qed.
Lemma splice_length mem off bs : (off + length bs <= length mem)%nat -> length (splice mem off bs) = length mem.
Proof. intros H. unfold splice. rewrite !app_length, firstn_length, skipn_length. lia. Qed.
Lemma splice_get mem off bs : (off + length bs <= length mem)%nat -> firstn (length bs) (skipn off (splice mem off bs)) = bs.
Proof.
  intros H. unfold splice. rewrite SpookyProofs.skipn_app_n by (rewrite firstn_length; lia).
  now apply SpookyProofs.firstn_app_n.
Qed.
(** ** Words and bytes *)
Lemma le_bytes_store n x : le_bytes n x = le_store n x.
Proof.
  revert x. induction n as [|n IH]; intros x; [reflexivity|]. cbn [le_bytes le_store]. f_equal; [now rewrite wrap_mod|].
  rewrite IH. unfold shr. now rewrite N.shiftr_div_pow2.
Qed.
Lemma to_bytes_length ws : length (to_bytes ws) = (8 * length ws)%nat.
Proof.
  unfold to_bytes. induction ws as [|w ws IH]; [reflexivity|]. cbn [map concat]. rewrite app_length, IH, le_bytes_store, le_store_length. cbn [length]. lia.
Qed.
Lemma to_bytes_ok ws : bytes_ok (to_bytes ws).
Proof.
  unfold to_bytes. induction ws as [|w ws IH]; [constructor|]. cbn [map concat]. apply Forall_app. split; [rewrite le_bytes_store; apply le_store_ok|exact IH].
Qed.
Lemma bytes_firstn n l : bytes_ok l -> bytes_ok (firstn n l).
Proof. apply bytes_ok_firstn. Qed.
Lemma to_words_block n : forall b, bytes_ok b -> is_block n (to_words n b).
Proof.
  induction n as [|n IH]; intros b H; [split; [reflexivity|constructor]|]. cbn [to_words].
  destruct (IH (skipn 8 b) (bytes_ok_skipn _ _ H)) as [L F]. split; [cbn [length]; lia|]. constructor; [|assumption].
  rewrite le_int_load by now apply bytes_ok_firstn. apply (le_load_firstn_fits 8 b 64 H). reflexivity.
Qed.
Lemma to_words_bytes ws R : Forall (fits 64) ws -> to_words (length ws) (to_bytes ws ++ R) = ws.
Proof.
  intros F. induction F as [|w ws Hw F IH]; [reflexivity|]. unfold to_bytes in *. cbn [map concat length to_words].
  rewrite <- app_assoc. rewrite le_bytes_store.
  rewrite SpookyProofs.firstn_app_n, SpookyProofs.skipn_app_n by apply le_store_length.
  rewrite IH. f_equal. rewrite le_int_load by apply le_store_ok. now apply le_load_store.
Qed.
Lemma to_bytes_words n : forall b, bytes_ok b -> (8 * n <= length b)%nat -> to_bytes (to_words n b) = firstn (8 * n) b.
Proof.
  induction n as [|n IH]; intros b H L; [reflexivity|]. cbn [to_words]. unfold to_bytes in *. cbn [map concat].
  rewrite IH by (rewrite ?skipn_length; try lia; now apply bytes_ok_skipn).
  rewrite le_bytes_store, le_int_load by now apply bytes_ok_firstn.
  replace 8%nat with (length (firstn 8 b)) at 1 by (rewrite firstn_length; lia).
  rewrite le_store_load by now apply bytes_ok_firstn.
  replace (8 * S n)%nat with (8 + 8 * n)%nat by lia.
  transitivity (firstn (8 + 8 * n) (firstn 8 b ++ skipn 8 b)); [|now rewrite firstn_skipn].
  rewrite firstn_app, firstn_length, Nat.min_l by lia. f_equal.
  - symmetry. apply firstn_all2. rewrite firstn_length. lia.
  - f_equal. lia.
Qed.
Lemma to_words_firstn n : forall b k, (8 * n <= k)%nat -> to_words n (firstn k b) = to_words n b.
Proof.
  induction n as [|n IH]; intros b k H; [reflexivity|]. cbn [to_words]. rewrite firstn_firstn, Nat.min_l by lia. f_equal.
  rewrite skipn_firstn_comm. apply IH. lia.
Qed.

(** ** Loops *)
Lemma word_of_val b i : word_of b i = if Nat.leb (i * 8 + 8) (length b) then Ok (le_load (firstn 8 (skipn (8 * i) b))) else Panics.
Proof. unfold word_of. now rewrite (Nat.mul_comm i 8). Qed.
Lemma load_loop_ok n : forall i src tmp, bytes_ok src -> (i + n <= length tmp)%nat -> (8 * (i + n) <= length src)%nat ->
  load_loop n i src tmp = Ok (splice tmp i (to_words n (skipn (8 * i) src))).
Proof.
  induction n as [|n IH]; intros i src tmp Hs Ht Hl; [cbn [load_loop to_words]; now rewrite splice_nil|].
  cbn [load_loop to_words]. destruct (Nat.ltb_spec i (length tmp)); [|lia]. rewrite word_of_val.
  destruct (Nat.leb_spec (i * 8 + 8) (length src)); [|lia]. cbn [rbind].
  rewrite IH by (rewrite ?upd_length; auto; lia). f_equal.
  rewrite le_int_load by (apply bytes_ok_firstn; now apply bytes_ok_skipn).
  rewrite <- skipn_add. replace (8 * i + 8)%nat with (8 * S i)%nat by lia.
  pose proof (to_words_block n (skipn (8 * S i) src) (bytes_ok_skipn _ _ Hs)) as [L _].
  rewrite <- !write_at_splice by (rewrite ?upd_length; cbn [length]; lia). reflexivity.
Qed.
Lemma load_loop_panics n : forall i src tmp, (i + n <= length tmp)%nat -> (length src < 8 * (i + n))%nat -> (8 * i <= length src)%nat ->
  load_loop n i src tmp = Panics.
Proof.
  induction n as [|n IH]; intros i src tmp Ht Hl Hi; [lia|]. cbn [load_loop].
  destruct (Nat.ltb_spec i (length tmp)); [|lia]. rewrite word_of_val.
  destruct (Nat.leb_spec (i * 8 + 8) (length src)); [|reflexivity]. cbn [rbind]. apply IH; rewrite ?upd_length; lia.
Qed.
Lemma store_loop_ok n : forall i mem dst out, (i + n <= length out)%nat -> (8 * (i + n) <= snd dst)%nat ->
  store_loop n i mem dst out = Ok (write_at mem (fst dst + 8 * i) (to_bytes (firstn n (skipn i out)))).
Proof.
  induction n as [|n IH]; intros i mem dst out Ho Hd; [reflexivity|]. cbn [store_loop].
  destruct (Nat.leb_spec (i * 8 + 8) (snd dst)); [|lia]. rewrite idx_ok by lia. cbn [rbind].
  rewrite IH by lia. rewrite (skipn_nth_cons out i 0) by lia. rewrite firstn_cons. unfold to_bytes. cbn [map concat].
  rewrite write_at_app, le_bytes_store, le_store_length. do 2 f_equal; [|lia]. f_equal. lia.
Qed.
Lemma store_loop_panics n : forall i mem dst out, (i + n <= length out)%nat -> (snd dst < 8 * (i + n))%nat -> (8 * i <= snd dst)%nat ->
  store_loop n i mem dst out = Panics.
Proof.
  induction n as [|n IH]; intros i mem dst out Ho Hd Hi; [lia|]. cbn [store_loop].
  destruct (Nat.leb_spec (i * 8 + 8) (snd dst)); [|reflexivity]. rewrite idx_ok by lia. cbn [rbind]. apply IH; lia.
Qed.
Lemma words_from_ok n : forall i b, bytes_ok b -> (8 * (i + n) <= length b)%nat -> words_from n i b = Ok (to_words n (skipn (8 * i) b)).
Proof.
  induction n as [|n IH]; intros i b Hb Hl; [reflexivity|]. cbn [words_from to_words]. rewrite word_of_val.
  destruct (Nat.leb_spec (i * 8 + 8) (length b)); [|lia]. cbn [rbind]. rewrite IH by (auto; lia). cbn [rbind]. do 2 f_equal.
  - rewrite le_int_load by (apply bytes_ok_firstn; now apply bytes_ok_skipn). reflexivity.
  - rewrite <- skipn_add. f_equal. f_equal. lia.
Qed.

(** ** The key schedule *)
Lemma setKey_loop_ok n : forall i key e p, (i + n <= length key)%nat -> (i + n <= length e)%nat ->
  setKey_loop n i key e p = Ok (splice e i (firstn n (skipn i key)), fold_left N.lxor (firstn n (skipn i key)) p).
Proof.
  induction n as [|n IH]; intros i key e p Hk He; [cbn [setKey_loop firstn fold_left]; now rewrite splice_nil|].
  cbn [setKey_loop]. rewrite idx_ok by lia. cbn [rbind]. rewrite IH by (rewrite ?upd_length; lia).
  rewrite (skipn_nth_cons key i 0) by lia. rewrite firstn_cons. cbn [fold_left]. do 2 f_equal.
  assert (length (firstn n (skipn (S i) key)) = n) by (rewrite firstn_length, skipn_length; lia).
  rewrite <- !write_at_splice by (rewrite ?upd_length; cbn [length]; lia). reflexivity.
Qed.
Lemma setKey_loop_panics n : forall i key e p, (length key < i + n)%nat -> (i <= length key)%nat -> setKey_loop n i key e p = Panics.
Proof.
  induction n as [|n IH]; intros i key e p Hk Hi; [lia|]. cbn [setKey_loop]. unfold idx.
  destruct (nth_error key i) eqn:E; [|reflexivity]. cbn [rbind]. apply IH; [lia|].
  assert (i < length key)%nat; [|lia]. apply nth_error_Some. now rewrite E.
Qed.
Lemma upd_app_len (l : list N) x p n : length l = n -> upd (l ++ [x]) n p = l ++ [p].
Proof. intros <-. induction l as [|z l IH]; [reflexivity|]. cbn [app length upd]. now rewrite IH. Qed.
Lemma setKey_val key e n : length e = S n ->
  setKey key e = if Nat.leb n (length key) then Ok (ext_key (firstn n key)) else Panics.
Proof.
  intros L. unfold setKey. rewrite L. replace (S n - 1)%nat with n by lia. destruct (Nat.leb_spec n (length key)).
  - rewrite setKey_loop_ok by lia. cbn [rbind skipn]. f_equal. unfold ext_key, C240, KEY_SCHEDULE_CONST.
    unfold splice. cbn [firstn app Nat.add]. assert (Lk : length (firstn n key) = n) by (rewrite firstn_length; lia). rewrite Lk.
    assert (Ls : length (skipn n e) = 1%nat) by (rewrite skipn_length; lia).
    destruct (skipn n e) as [|x [|y r]]; try discriminate.
    now apply upd_app_len.
  - now rewrite setKey_loop_panics by lia.
Qed.

(** ** Ciphers *)
Definition good_size (n : nat) : Prop := n = 4%nat \/ n = 8%nat \/ n = 16%nat.
Record sound (c : cipher) (st : astate) : Prop := {
  s_size : good_size (size st);
  s_words : words c = size st;
  s_key : Forall (fits 64) (fst (fst st));
  s_t0 : fits 64 (snd (fst st));
  s_t1 : fits 64 (snd st);
  s_ekey : expKey c = ext_key (fst (fst st));
  s_etweak : expTweak c = ext_tweak (snd (fst st)) (snd st);
  s_tmp1 : is_block (size st) (tmpData1 c);
  s_tmp2 : is_block (size st) (tmpData2 c)
}.
Lemma xor_fold_fits l : forall p, Forall (fits 64) l -> fits 64 p -> fits 64 (fold_left N.lxor l p).
Proof.
  induction l as [|x l IH]; intros p F Hp; [assumption|]. inversion F; subst. cbn [fold_left]. apply IH; [assumption|].
  apply (sem2_fits 64 BXor); assumption.
Qed.
Lemma ext_key_ok key : Forall (fits 64) key -> length (ext_key key) = (length key + 1)%nat /\ Forall (fits 64) (ext_key key).
Proof.
  intros F. unfold ext_key. rewrite app_length. split; [reflexivity|]. rewrite Forall_app. split; [assumption|].
  constructor; [|constructor]. apply xor_fold_fits; [assumption|reflexivity].
Qed.
Lemma ext_tweak_ok t0 t1 : fits 64 t0 -> fits 64 t1 -> length (ext_tweak t0 t1) = 3%nat /\ Forall (fits 64) (ext_tweak t0 t1).
Proof. intros H0 H1. split; [reflexivity|]. repeat constructor; auto. apply (sem2_fits 64 BXor); assumption. Qed.

(** encrypt and decrypt are inverse permutations of the blocks; encrypt is Threefish. *)
Lemma crypt_facts c st : sound c st ->
  exists Ef Df : list N -> list N,
    (forall v, is_block (size st) v -> Ef v = enc st v /\ is_block (size st) (enc st v) /\ Df (enc st v) = v) /\
    (forall w, is_block (size st) w -> is_block (size st) (Df w) /\ enc st (Df w) = w) /\
    (forall l, encrypt c l = b <~ take_n (size st) l ;; Ok (Ef b)) /\
    (forall l, decrypt c l = b <~ take_n (size st) l ;; Ok (Df b)).
Proof.
  intros S. destruct st as [[key t0] t1]. destruct S as [Sz Sw Sk St0 St1 Se St _ _]. cbn [size fst snd] in *.
  destruct (ext_key_ok key Sk) as [LK FK]. destruct (ext_tweak_ok t0 t1 St0 St1) as [LT FT].
  assert (G : forall P eg eo dg do, code_ok P eg eo dg do -> Nw P = length key -> params_for (length key) = P ->
    exists Ef Df : list N -> list N,
      (forall v, is_block (length key) v -> Ef v = enc (key, t0, t1) v /\ is_block (length key) (enc (key, t0, t1) v) /\ Df (enc (key, t0, t1) v) = v) /\
      (forall w, is_block (length key) w -> is_block (length key) (Df w) /\ enc (key, t0, t1) (Df w) = w) /\
      (forall b, run_prog eg eo c b = Ef b) /\ (forall b, run_prog dg do c b = Df b)).
  { intros P eg eo dg do C HN HP. rewrite <- HN in LK.
    exists (E eg eo (ext_key key) (ext_tweak t0 t1)), (D dg do (ext_key key) (ext_tweak t0 t1)). rewrite <- HN.
    assert (Spec : forall v, is_block (Nw P) v -> E eg eo (ext_key key) (ext_tweak t0 t1) v = enc (key, t0, t1) v).
    { intros v Hv. unfold enc, threefish. rewrite HP. eapply E_spec; eassumption. }
    split; [|split; [|split]].
    - intros v Hv. split; [now apply Spec|]. rewrite <- Spec by assumption. split; [eapply E_block; eassumption|eapply D_E; eassumption].
    - intros w Hw. destruct (E_D P eg eo dg do C (ext_key key) (ext_tweak t0 t1) LK LT FK FT w Hw) as [B Ew].
      split; [exact B|]. rewrite <- Spec by exact B. exact Ew.
    - intros b. unfold run_prog, E. now rewrite Se, St.
    - intros b. unfold run_prog, D. now rewrite Se, St. }
  unfold encrypt, decrypt. rewrite Sw.
  destruct Sz as [Hn|[Hn|Hn]]; rewrite Hn in *.
  - destruct (G P256 _ _ _ _ code256 eq_refl eq_refl) as (Ef & Df & A & B & Hc & Hd). exists Ef, Df. repeat split; auto;
      try (intros; apply A; assumption); try (intros; apply B; assumption);
      intros l; destruct (take_n 4 l); cbn [rbind]; try reflexivity; now rewrite ?Hc, ?Hd.
  - destruct (G P512 _ _ _ _ code512 eq_refl eq_refl) as (Ef & Df & A & B & Hc & Hd). exists Ef, Df. repeat split; auto;
      try (intros; apply A; assumption); try (intros; apply B; assumption);
      intros l; destruct (take_n 8 l); cbn [rbind]; try reflexivity; now rewrite ?Hc, ?Hd.
  - destruct (G P1024 _ _ _ _ code1024 eq_refl eq_refl) as (Ef & Df & A & B & Hc & Hd). exists Ef, Df. repeat split; auto;
      try (intros; apply A; assumption); try (intros; apply B; assumption);
      intros l; destruct (take_n 16 l); cbn [rbind]; try reflexivity; now rewrite ?Hc, ?Hd.
Qed.

(** ** Calls *)
Definition perform (c : cipher) (a : call) : res (cipher * list N) :=
  match a with
  | CSetKey key => c' <~ SetKey c key ;; Ok (c', [])
  | CSetTweak t => c' <~ SetTweak c t ;; Ok (c', [])
  | CEncrypt mem d s => Encrypt c mem d s
  | CDecrypt mem d s => Decrypt c mem d s
  | CEncrypt64 mem d s => m <~ Encrypt64 c mem d s ;; Ok (c, m)
  | CDecrypt64 mem d s => m <~ Decrypt64 c mem d s ;; Ok (c, m)
  end.
Definition byte_call (a : call) : bool := match a with CEncrypt _ _ _ | CDecrypt _ _ _ => true | _ => false end.

Lemma slice_get_length mem s : in_mem mem s -> length (slice_get mem s) = snd s.
Proof. unfold in_mem, slice_get. intros H. rewrite firstn_length, skipn_length. lia. Qed.
Lemma crypt_val f F c st mem d s : sound c st -> stateSize c = (64 * size st)%nat ->
  (forall l, f c l = b <~ take_n (size st) l ;; Ok (F b)) -> (forall v, is_block (size st) v -> is_block (size st) (F v)) ->
  bytes_ok mem -> in_mem mem d -> in_mem mem s ->
  let n := size st in
  let v := to_words n (skipn (fst s) mem) in
  if (Nat.leb (8 * n) (snd d) && Nat.leb (8 * n) (snd s))%bool
  then exists c', crypt f c mem d s = Ok (c', splice mem (fst d) (to_bytes (F v))) /\ sound c' st /\ stateSize c' = stateSize c
  else crypt f c mem d s = Panics.
Proof.
  intros S SS Hf HF Hm Hd Hs n v. pose proof (slice_get_length mem s Hs) as Ls.
  unfold crypt. rewrite SS. replace (64 * size st / 64)%nat with n by (unfold n; symmetry; rewrite (Nat.mul_comm 64); apply Nat.div_mul; discriminate).
  assert (T1 : length (tmpData1 c) = n) by apply (s_tmp1 _ _ S).
  destruct (Nat.leb_spec (8 * n) (snd s)) as [Ss|Ss].
  2:{ rewrite load_loop_panics by lia. now destruct (Nat.leb (8 * n) (snd d)). }
  rewrite load_loop_ok by (try lia; unfold slice_get; now apply bytes_ok_firstn, bytes_ok_skipn). cbn [rbind].
  change (8 * 0)%nat with 0%nat. change (skipn 0 (slice_get mem s)) with (slice_get mem s).
  assert (Hv : to_words n (slice_get mem s) = v) by (unfold slice_get, v; now apply to_words_firstn). rewrite Hv.
  assert (Bv : is_block n v) by (apply to_words_block; now apply bytes_ok_skipn).
  assert (Sp : splice (tmpData1 c) 0 v = v).
  { unfold splice. cbn [firstn app Nat.add]. rewrite skipn_all2; [apply app_nil_r|]. rewrite T1. now rewrite (proj1 Bv). }
  rewrite Sp, Hf. unfold take_n. fold n. rewrite (proj1 Bv), Nat.leb_refl. cbn [rbind].
  rewrite firstn_all2 by (rewrite (proj1 Bv); lia). pose proof (HF v Bv) as BF. fold n in BF.
  destruct (Nat.leb_spec (8 * n) (snd d)) as [Sd|Sd]; cbn [andb].
  - rewrite store_loop_ok by (try lia; rewrite (proj1 BF); lia). cbn [rbind]. eexists. split; [|split].
    + rewrite Nat.add_0_r. change (skipn 0 (F v)) with (F v). rewrite firstn_all2 by (rewrite (proj1 BF); lia).
      rewrite write_at_splice; [reflexivity|]. rewrite to_bytes_length, (proj1 BF). unfold in_mem in Hd. lia.
    + destruct S. constructor; cbn; auto.
    + cbn [stateSize]. reflexivity.
  - rewrite store_loop_panics; [reflexivity| |lia|lia]. rewrite (proj1 BF). lia.
Qed.
Lemma crypt64_val f F c st mem d s : sound c st ->
  (forall l, f c l = b <~ take_n (size st) l ;; Ok (F b)) -> (forall v, is_block (size st) v -> is_block (size st) (F v)) ->
  Forall (fits 64) mem -> in_mem mem d -> in_mem mem s ->
  let n := size st in
  crypt64 f c mem d s =
  if (Nat.leb n (snd d) && Nat.leb n (snd s))%bool then Ok (splice mem (fst d) (F (firstn n (skipn (fst s) mem)))) else Panics.
Proof.
  intros S Hf HF Hm Hd Hs n. pose proof (slice_get_length mem s Hs) as Ls. unfold crypt64. rewrite Hf. unfold take_n. fold n. rewrite Ls.
  destruct (Nat.leb_spec n (snd s)) as [Ss|Ss]; cbn [rbind]; [|now rewrite Bool.andb_false_r].
  rewrite (s_words c st S). fold n. rewrite Bool.andb_true_r. destruct (Nat.leb_spec n (snd d)); [|reflexivity].
  f_equal. unfold slice_get. rewrite firstn_firstn, Nat.min_l by lia. apply write_at_splice.
  assert (B : is_block n (firstn n (skipn (fst s) mem))).
  { split; [rewrite firstn_length, skipn_length; unfold in_mem in *; lia|].
    rewrite <- (firstn_skipn (fst s) mem) in Hm. apply Forall_app in Hm. destruct Hm as [_ Hm].
    rewrite <- (firstn_skipn n (skipn (fst s) mem)) in Hm. apply Forall_app in Hm. apply Hm. }
  rewrite (proj1 (HF _ B)). unfold in_mem in *. lia.
Qed.
Lemma step_sim c st a : sound c st -> (byte_call a = true -> stateSize c = (64 * size st)%nat) -> call_ok a ->
  exists r, does st a r /\
    match r with
    | Some (st', m) => exists c', perform c a = Ok (c', m) /\ sound c' st' /\ size st' = size st /\ stateSize c' = stateSize c
    | None => perform c a = Panics
    end.
Proof.
  intros S HB Ha. destruct (crypt_facts c st S) as (Ef & Df & A & B & HE & HD).
  assert (HEf : forall v, is_block (size st) v -> is_block (size st) (Ef v)).
  { intros v Hv. destruct (A v Hv) as (-> & H & _). exact H. }
  assert (HDf : forall v, is_block (size st) v -> is_block (size st) (Df v)) by (intros v Hv; apply (B v Hv)).
  destruct a as [key|t|mem d s|mem d s|mem d s|mem d s]; cbn [perform does call_ok byte_call] in *.
  - eexists. split; [reflexivity|]. destruct st as [[k t0] t1]. cbn [size] in *. unfold SetKey.
    assert (LE : length (expKey c) = Datatypes.S (length k)).
    { rewrite (s_ekey _ _ S). cbn [fst]. destruct (ext_key_ok k (s_key _ _ S)) as [L _]. rewrite L. lia. }
    rewrite (setKey_val key (expKey c) (length k) LE). destruct (Nat.leb_spec (length k) (length key)) as [L|L]; [|reflexivity].
    cbn [rbind]. eexists. split; [reflexivity|]. assert (Lf : length (firstn (length k) key) = length k) by (rewrite firstn_length; lia).
    split; [|split; [cbn; lia|reflexivity]].
    destruct S. constructor; cbn in *; rewrite ?Lf; auto.
    rewrite <- (firstn_skipn (length k) key) in Ha. apply Forall_app in Ha. apply Ha.
  - unfold SetTweak. destruct t as [t|]; cbn [setTweak].
    + destruct t as [|t0 [|t1 r]].
      * exists None. split; reflexivity.
      * exists None. split; reflexivity.
      * destruct st as [[k u0] u1]. exists (Some (k, t0, t1, [])). split; [reflexivity|]. cbn. eexists. split; [reflexivity|].
        split; [|split; reflexivity]. inversion Ha; subst. inversion H2; subst. destruct S. constructor; cbn in *; auto.
    + exists (Some (st, [])). split; [reflexivity|]. cbn [rbind]. eexists. split; [reflexivity|]. split; [|split; reflexivity]. destruct S. constructor; auto.
  - destruct Ha as (Hm & Hd & Hs). pose proof (crypt_val encrypt Ef c st mem d s S (HB eq_refl) HE HEf Hm Hd Hs) as R. cbv zeta in R.
    assert (Bv : is_block (size st) (to_words (size st) (skipn (fst s) mem))) by (apply to_words_block; now apply bytes_ok_skipn).
    rewrite (proj1 (A _ Bv)) in R. eexists. split; [reflexivity|].
    destruct (Nat.leb (8 * size st) (snd d) && Nat.leb (8 * size st) (snd s))%bool; [|exact R].
    destruct R as (c' & R1 & R2 & R3). exists c'. auto.
  - destruct Ha as (Hm & Hd & Hs). pose proof (crypt_val decrypt Df c st mem d s S (HB eq_refl) HD HDf Hm Hd Hs) as R. cbv zeta in R.
    assert (Bv : is_block (size st) (to_words (size st) (skipn (fst s) mem))) by (apply to_words_block; now apply bytes_ok_skipn).
    destruct (Nat.leb (8 * size st) (snd d) && Nat.leb (8 * size st) (snd s))%bool; [|now exists None].
    destruct R as (c' & R1 & R2 & R3). eexists. split; [eexists; split; [|split; [|reflexivity]]; apply (B _ Bv)|]. exists c'. auto.
  - destruct Ha as (Hm & Hd & Hs). pose proof (crypt64_val encrypt Ef c st mem d s S HE HEf Hm Hd Hs) as R. cbv zeta in R.
    eexists. split; [reflexivity|]. unfold Encrypt64. rewrite R.
    destruct (Nat.leb (size st) (snd d) && Nat.leb (size st) (snd s))%bool eqn:Hb; [|reflexivity].
    cbn [rbind]. exists c. split; [|auto]. do 3 f_equal. apply A.
    apply andb_prop in Hb. destruct Hb as [_ Hb]. apply Nat.leb_le in Hb.
    split; [rewrite firstn_length, skipn_length; unfold in_mem in *; lia|].
    rewrite <- (firstn_skipn (fst s) mem) in Hm. apply Forall_app in Hm. destruct Hm as [_ Hm].
    rewrite <- (firstn_skipn (size st) (skipn (fst s) mem)) in Hm. apply Forall_app in Hm. apply Hm.
  - destruct Ha as (Hm & Hd & Hs). pose proof (crypt64_val decrypt Df c st mem d s S HD HDf Hm Hd Hs) as R. cbv zeta in R.
    unfold Decrypt64. rewrite R.
    destruct (Nat.leb (size st) (snd d) && Nat.leb (size st) (snd s))%bool eqn:Hb; [|exists None; split; reflexivity].
    cbn [rbind].
    assert (Bv : is_block (size st) (firstn (size st) (skipn (fst s) mem))).
    { apply andb_prop in Hb. destruct Hb as [_ Hb]. apply Nat.leb_le in Hb.
      split; [rewrite firstn_length, skipn_length; unfold in_mem in *; lia|].
      rewrite <- (firstn_skipn (fst s) mem) in Hm. apply Forall_app in Hm. destruct Hm as [_ Hm].
      rewrite <- (firstn_skipn (size st) (skipn (fst s) mem)) in Hm. apply Forall_app in Hm. apply Hm. }
    eexists. split; [eexists; split; [|split; [|reflexivity]]; apply (B _ Bv)|]. exists c. auto.
Qed.

(** ** Ciphers with any state size *)
Lemma load_loop_block k n : forall i src tmp tmp', bytes_ok src -> is_block k tmp -> load_loop n i src tmp = Ok tmp' -> is_block k tmp'.
Proof.
  induction n as [|n IH]; intros i src tmp tmp' Hs Ht H; cbn [load_loop] in H; [congruence|].
  destruct (Nat.ltb i (length tmp)); [|discriminate]. rewrite word_of_val in H.
  destruct (Nat.leb (i * 8 + 8) (length src)); [|discriminate]. cbn [rbind] in H. eapply IH in H; [exact H|exact Hs|].
  destruct Ht as [L F]. split; [now rewrite upd_length|]. apply upd_Forall; [assumption|].
  apply (le_load_firstn_fits 8 _ 64); [now apply bytes_ok_skipn|reflexivity].
Qed.
Lemma step_sound c st a c' m : sound c st -> call_ok a -> perform c a = Ok (c', m) ->
  (exists st', sound c' st' /\ size st' = size st) /\ stateSize c' = stateSize c.
Proof.
  intros S Ha H.
  assert (Crypt : forall f F mem d s, bytes_ok mem -> (forall l, f c l = b <~ take_n (size st) l ;; Ok (F b)) ->
    (forall v, is_block (size st) v -> is_block (size st) (F v)) -> crypt f c mem d s = Ok (c', m) ->
    (exists st', sound c' st' /\ size st' = size st) /\ stateSize c' = stateSize c).
  { intros f F mem d s Hm Hf HF R. unfold crypt in R.
    destruct (load_loop _ 0 (slice_get mem s) (tmpData1 c)) as [t| | |] eqn:Hl; cbn [rbind] in R; try discriminate.
    apply (load_loop_block (size st)) in Hl; [|unfold slice_get; now apply bytes_ok_firstn, bytes_ok_skipn|apply (s_tmp1 _ _ S)].
    rewrite Hf in R. unfold take_n in R. rewrite (proj1 Hl), Nat.leb_refl in R. cbn [rbind] in R.
    rewrite firstn_all2 in R by (rewrite (proj1 Hl); lia).
    destruct (store_loop _ 0 mem d (F t)) as [m'| | |]; cbn [rbind] in R; try discriminate. inversion R; subst. cbn.
    split; [|reflexivity]. exists st. split; [|reflexivity]. pose proof (HF t Hl). destruct S. constructor; cbn; assumption. }
  destruct (crypt_facts c st S) as (Ef & Df & A & B & HE & HD).
  assert (HEf : forall v, is_block (size st) v -> is_block (size st) (Ef v)).
  { intros v Hv. destruct (A v Hv) as (-> & Hb & _). exact Hb. }
  assert (HDf : forall v, is_block (size st) v -> is_block (size st) (Df v)) by (intros v Hv; apply (B v Hv)).
  destruct (byte_call a) eqn:Eb.
  - destruct a as [| |mem d s|mem d s| |]; try discriminate; destruct Ha as (Hm & _ & _).
    + exact (Crypt encrypt Ef mem d s Hm HE HEf H).
    + exact (Crypt decrypt Df mem d s Hm HD HDf H).
  - destruct (step_sim c st a S ltac:(congruence) Ha) as ([[st' m']|] & _ & R); [|congruence].
    destruct R as (c2 & R1 & R2 & R3 & R4). rewrite H in R1. inversion R1; subst. split; [|assumption]. now exists st'.
Qed.
(** ** Constructors *)
Definition tweak_words (t : option (list N)) : option (N * N) :=
  match t with None => Some (0, 0) | Some (t0 :: t1 :: _) => Some (t0, t1) | Some _ => None end.
Definition tweak_ok (t : option (list N)) : Prop := match t with None => True | Some t => Forall (fun x => x < 2 ^ 64) t end.
Lemma zero_block n : is_block n (repeat 0 n).
Proof. split; [apply repeat_length|]. apply Forall_forall. intros x Hx. apply repeat_spec in Hx. subst. reflexivity. Qed.
Lemma setTweak_new t : setTweak t [0; 0; 0] = match tweak_words t with Some (t0, t1) => Ok (ext_tweak t0 t1) | None => Panics end.
Proof. destruct t as [[|t0 [|t1 r]]|]; reflexivity. Qed.
Lemma tweak_words_fit t t0 t1 : tweak_ok t -> tweak_words t = Some (t0, t1) -> fits 64 t0 /\ fits 64 t1.
Proof.
  destruct t as [[|u0 [|u1 r]]|]; cbn; intros H E; try discriminate; inversion E; subst; [|split; reflexivity].
  inversion H; subst. inversion H3; subst. auto.
Qed.
Lemma newThreefish_val n sz key t : good_size n -> bytes_ok key -> length key = (8 * n)%nat -> tweak_ok t ->
  match tweak_words t with
  | Some (t0, t1) => exists c, newThreefish n sz (Some key) t = Ok c /\ sound c (to_words n key, t0, t1) /\ stateSize c = sz
  | None => newThreefish n sz (Some key) t = Panics
  end.
Proof.
  intros Hn Hk Lk Ht. unfold newThreefish. rewrite setTweak_new. destruct (tweak_words t) as [[t0 t1]|] eqn:Et; [|reflexivity].
  destruct (tweak_words_fit t t0 t1 Ht Et) as [F0 F1]. cbn [rbind].
  rewrite (words_from_ok n 0 key Hk) by lia. change (skipn (8 * 0) key) with key. cbn [rbind].
  destruct (to_words_block n key Hk) as [Lw Fw].
  rewrite (setKey_val _ _ n) by (rewrite upd_length, repeat_length; lia). rewrite app_length, Lw.
  destruct (Nat.leb_spec n (n + length [0])); [|cbn in *; lia]. cbn [rbind]. eexists. split; [reflexivity|]. split; [|reflexivity].
  rewrite SpookyProofs.firstn_app_n by assumption.
  pose proof (zero_block n). constructor; cbn [size fst snd words expKey expTweak tmpData1 tmpData2]; rewrite ?Lw; auto.
Qed.
Lemma newThreefish_64_val n sz key t : good_size n -> is_block n key -> tweak_ok t ->
  match tweak_words t with
  | Some (t0, t1) => exists c, newThreefish_64 n sz key t = Ok c /\ sound c (key, t0, t1) /\ stateSize c = sz /\ tmpData1 c = repeat 0 n
  | None => newThreefish_64 n sz key t = Panics
  end.
Proof.
  intros Hn [Lk Fk] Ht. unfold newThreefish_64. rewrite setTweak_new. destruct (tweak_words t) as [[t0 t1]|] eqn:Et; [|reflexivity].
  destruct (tweak_words_fit t t0 t1 Ht Et) as [F0 F1]. cbn [rbind].
  rewrite (setKey_val _ _ n) by (rewrite upd_length, repeat_length; lia). rewrite Lk, Nat.leb_refl. cbn [rbind].
  eexists. split; [reflexivity|]. split; [|split; reflexivity]. rewrite firstn_all2 by lia.
  pose proof (zero_block n). constructor; cbn [size fst snd words expKey expTweak tmpData1 tmpData2]; rewrite ?Lk; auto.
Qed.
Lemma newThreefish_zero n sz : good_size n ->
  exists c, newThreefish n sz None None = Ok c /\ sound c (repeat 0 n, 0, 0) /\ stateSize c = sz.
Proof.
  intros Hn. eexists. split; [reflexivity|]. split; [|reflexivity]. pose proof (zero_block n) as [L F].
  constructor; cbn [size fst snd words expKey expTweak tmpData1 tmpData2]; rewrite ?L; auto; try reflexivity; try now split.
  destruct Hn as [->|[->| ->]]; reflexivity.
Qed.
