(** Properties C37-C40 and C68: package keccakpg. *)
From Coq Require Import ZArith.
From Verif Require Import Words WordLemmas ListLemmas Mem SLP Bij Blocks Mm3Spec Mm3Proofs KeccakModel KeccakSpec KeccakHist KeccakProofs KeccakProofs2 KeccakProofs3 KeccakProofs4 KeccakProofs5 KeccakProofs6.
Open Scope N_scope.

(** A digest made by NewCustom(bits, r), in any state. *)
Definition digest_of (bits r : Z) (k : keccak) : Prop :=
  length (S_ k) = 25%nat /\ size k = Z.quot bits 8 /\ blockSize k = (200 - 2 * Z.quot bits 8)%Z /\ rounds k = r.
(** Output of 4q bytes, at most 64; at most 24 rounds. *)
Definition usual (bits r : Z) (q : nat) : Prop := Z.quot bits 8 = Z.of_nat (4 * q) /\ (q <= 16)%nat /\ (r <= 24)%Z.
Definition rate (q : nat) : nat := (200 - 8 * q)%nat.
Definition hash (r : Z) (q : nat) : list N -> list N := sponge (Z.to_nat r) (rate q) (4 * q).

Lemma usual_valid bits r q k : usual bits r q -> digest_of bits r k -> valid k (rate q) (Z.to_nat r) /\ size k = Z.of_nat (4 * q).
Proof.
  intros (U1 & U2 & U3) (D1 & D2 & D3 & D4). unfold rate. split; [|congruence].
  constructor; [rewrite D3, U1; lia|lia|lia|now rewrite D4|lia].
Qed.
Lemma rate_mod q : (q <= 16)%nat -> (rate q mod 8 = 0)%nat.
Proof. intros H. unfold rate. replace (200 - 8 * q)%nat with ((25 - q) * 8)%nat by lia. apply Nat.mod_mul. lia. Qed.
Lemma hash_final r q data : (q <= 16)%nat -> hash r q data = firstn (4 * q) (state_bytes (final (rate q) (Z.to_nat r) data)).
Proof. intros H. apply sponge_final; [unfold rate; lia|now apply rate_mod|unfold rate; lia]. Qed.

(** ** C37 *)
Theorem c37_careful_client grow bits r q k h ops :
  usual bits r q -> digest_of bits r k -> Forall bytes_ok h -> behaves (hash r q) grow h (Reset k) [] [] ops.
Proof.
  intros U D Hh. destruct (usual_valid bits r q k U D) as [V Sz]. destruct U as (U1 & U2 & U3).
  apply (behaves_ok grow (rate q) (Z.to_nat r) (4 * q)).
  - lia.
  - intros data. now apply hash_final.
  - apply Reset_holds; [exact V|apply D].
  - exact Sz.
  - exact Hh.
  - left. reflexivity.
Qed.
Theorem c37_published_sizes grow h ops : Forall bytes_ok h ->
  behaves (sponge 24 160 20) grow h New160 [] [] ops /\ behaves (sponge 24 144 28) grow h New224 [] [] ops /\
  behaves (sponge 24 136 32) grow h New256 [] [] ops /\ behaves (sponge 24 104 48) grow h New384 [] [] ops /\
  behaves (sponge 24 72 64) grow h New512 [] [] ops.
Proof.
  intros Hh.
  split; [|split; [|split; [|split]]].
  - apply (c37_careful_client grow 160 24 5 New160 h ops); [split; [reflexivity|lia]|repeat split|exact Hh].
  - apply (c37_careful_client grow 224 24 7 New224 h ops); [split; [reflexivity|lia]|repeat split|exact Hh].
  - apply (c37_careful_client grow 256 24 8 New256 h ops); [split; [reflexivity|lia]|repeat split|exact Hh].
  - apply (c37_careful_client grow 384 24 12 New384 h ops); [split; [reflexivity|lia]|repeat split|exact Hh].
  - apply (c37_careful_client grow 512 24 16 New512 h ops); [split; [reflexivity|lia]|repeat split|exact Hh].
Qed.
(** Consecutive chunks of one buffer, of any sizes: the digest is that of the whole
    buffer, and no array of the caller changes. *)
Theorem c37_one_buffer_in_chunks grow bits r q k h s ns :
  usual bits r q -> digest_of bits r k -> Forall bytes_ok h -> slice_ok h s -> fold_right Nat.add 0%nat ns = len s ->
  exists h' k', write_all grow h (Reset k) (chunks s ns) = Ok (h', k') /\
    (length h <= length h')%nat /\ (forall a, (a < length h)%nat -> array h' a = array h a) /\
    forall t, Sum grow h' k' t = Ok (append grow h' t (hash r q (read h s))).
Proof.
  intros U D Hh W Es. destruct (usual_valid bits r q k U D) as [V Sz].
  destruct (chunks_ok grow ns h h (Reset k) (rate q) (Z.to_nat r) [] s) as (h' & k' & E & H' & Hh' & Sz' & L & A); auto.
  - apply Reset_holds; [exact V|apply D].
  - destruct W as (_ & _ & [W|W]); auto.
  - exists h', k'. split; [exact E|]. split; [exact L|]. split; [exact A|]. intros t.
    rewrite (Sum_ok grow h' k' (rate q) (Z.to_nat r) (read h s) t (4 * q)); auto.
    + rewrite hash_final by apply U. reflexivity.
    + rewrite Sz'. exact Sz.
    + destruct U. lia.
Qed.
(** A concrete client: "ab", then "c" from another array whose spare byte is changed in
    between, then Sum(nil): the digest is that of "abc". *)
Example c37_nonvacuous :
  exists h1 k1 h2 k2 h3 s3,
    Write (fun _ n => n) 3 [[97; 98; 7]; [99]] New256 (mkSlice 0 0 2 3) = Ok (h1, k1, 2%nat) /\
    Write (fun _ n => n) 2 h1 k1 (mkSlice 1 0 1 1) = Ok (h2, k2, 1%nat) /\
    Sum (fun _ n => n) h2 k2 nil_slice = Ok (h3, s3) /\ read h3 s3 = sponge 24 136 32 [97; 98; 99] /\
    firstn 4 (read h3 s3) = [0x4e; 0x03; 0x65; 0x7a].
Proof.
  eexists _, _, _, _, _, _. split; [vm_compute; reflexivity|]. split; [vm_compute; reflexivity|]. split; [vm_compute; reflexivity|].
  split; vm_compute; reflexivity.
Qed.
Example c37_nonvacuous_client :
  exists h k d, behaves (sponge 24 136 32) (fun _ n => n) h k d [] [KReset; KWrite (mkSlice 0 1 2 2); KSum nil_slice] /\
    Forall bytes_ok h /\ slice_ok h (mkSlice 0 1 2 2) /\ free [] (mkSlice 0 1 2 2) /\ read h (mkSlice 0 1 2 2) = [98; 99].
Proof.
  exists [[97; 98; 99]], New256, [].
  assert (Hb : Forall bytes_ok [[97; 98; 99]]) by (repeat constructor).
  split; [apply c37_published_sizes; exact Hb|]. split; [exact Hb|]. split; [unfold slice_ok; cbn; lia|]. split; [right; auto|reflexivity].
Qed.
Example c37_nonvacuous_chunks : fold_right Nat.add 0%nat [3; 0; 5]%nat = len (mkSlice 0 0 8 10) /\ slice_ok [repeat 1 10] (mkSlice 0 0 8 10) /\ usual 64 4 2.
Proof. split; [reflexivity|]. split; [unfold slice_ok; cbn; lia|]. split; [reflexivity|lia]. Qed.

(** ** C38: what happens to a client that is not careful *)
Lemma Write_short grow fuel h k B nr s : valid k B nr -> (len s < B)%nat -> Write grow (S fuel) h (Reset k) s = Ok (h, withBuf (Reset k) s, len s).
Proof.
  intros V L. unfold Write. cbn [Reset buf nil_slice len Nat.ltb Nat.leb write_loop blockSize]. rewrite (v_bs _ _ _ V).
  destruct (Z.leb_spec (Z.of_nat B) (Z.of_nat (len s))); [lia|reflexivity].
Qed.
Lemma pending_holds h k B nr s : valid k B nr -> length (S_ k) = 25%nat -> heap_ok h -> wf h s -> (len s < B)%nat -> holds h (withBuf (Reset k) s) B nr (read h s).
Proof.
  intros V L Hh W Ls. pose proof (Reset_holds h k B nr V L) as H.
  assert (E : absorbed B nr (read h s) = (zero, read h s)) by (unfold absorbed; apply absorb_short; [apply V|now rewrite read_length]).
  constructor; [apply valid_withBuf; apply H| | |exact W|now apply read_ok]; rewrite E; cbn [fst snd withBuf S_ buf]; [|reflexivity].
  rewrite (h_state _ _ _ _ _ H). unfold absorbed. now rewrite absorb_short by (cbn [length]; apply V).
Qed.
Lemma Write_more grow fuel h k B nr t : valid k B nr -> (0 < len (buf k))%nat -> (len (buf k) + len t < B)%nat -> (len (buf k) + len t <= cap (buf k))%nat -> wf h t ->
  Write grow fuel h k t = Ok (store h (arr (buf k)) (off (buf k) + len (buf k)) (read h t),
                              withBuf k (mkSlice (arr (buf k)) (off (buf k)) (len (buf k) + len t) (cap (buf k))), len t).
Proof.
  intros V P L C W. unfold Write. rewrite (v_bs _ _ _ V). destruct (Nat.ltb_spec 0 (len (buf k))); [|lia].
  replace (Z.min (Z.of_nat B - Z.of_nat (len (buf k))) (Z.of_nat (len t))) with (Z.of_nat (len t)) by lia.
  destruct (Z.ltb_spec (Z.of_nat (len t)) 0); [lia|]. rewrite Nat2Z.id.
  replace (upto t (len t)) with t by (destruct t; reflexivity). pose proof (read_length h t W) as Lr.
  unfold append. rewrite Lr. destruct (Nat.leb_spec (len (buf k) + len t) (cap (buf k))); [|lia]. cbn [len].
  destruct (Z.ltb_spec (Z.of_nat (len (buf k) + len t)) (Z.of_nat B)); [reflexivity|lia].
Qed.
Lemma store_read h s bs : (arr s < length h)%nat -> wf h s -> length bs = len s -> read (store h (arr s) (off s) bs) s = bs.
Proof.
  intros A (W1 & W2 & W3) L. unfold read. rewrite array_store_same by assumption.
  rewrite skipn_app, skipn_firstn_comm, Nat.sub_diag. cbn [firstn app]. rewrite firstn_length, Nat.min_l, Nat.sub_diag by lia. cbn [skipn].
  now apply firstn_app_exact.
Qed.
Lemma wf_store h a o bs s : (a < length h)%nat -> (o + length bs <= length (array h a))%nat -> wf h s -> wf (store h a o bs) s.
Proof. intros A L W. apply (wf_mono h); [now rewrite store_length|intros b _; now apply store_array_length|exact W]. Qed.

(** Write keeps the slice: what the caller stores into it afterwards is what gets hashed. *)
Theorem c38_sum_sees_later_stores grow bits r q k h s bs :
  usual bits r q -> digest_of bits r k -> Forall bytes_ok h -> slice_ok h s -> (len s < rate q)%nat -> (arr s < length h)%nat ->
  bytes_ok bs -> length bs = len s ->
  exists k', Write grow (S (len s)) h (Reset k) s = Ok (h, k', len s) /\
    forall t, let h' := store h (arr s) (off s) bs in Sum grow h' k' t = Ok (append grow h' t (hash r q bs)).
Proof.
  intros U D Hh W Ls As Hb Lb. destruct (usual_valid bits r q k U D) as [V Sz].
  exists (withBuf (Reset k) s). split; [now apply (Write_short grow _ h k (rate q) (Z.to_nat r))|].
  intros t h'. assert (Ho : (off s + length bs <= length (array h (arr s)))%nat) by (destruct W; lia).
  assert (Hh' : heap_ok h') by now apply store_ok.
  assert (W' : wf h' s) by now apply wf_store.
  pose proof (pending_holds h' k (rate q) (Z.to_nat r) s V (proj1 D) Hh' W' Ls) as H.
  assert (E : read h' s = bs) by now apply store_read. rewrite E in H.
  rewrite (Sum_ok grow h' _ _ _ bs t (4 * q) H Hh').
  - now rewrite hash_final by apply U.
  - exact Sz.
  - destruct U; lia.
Qed.
(** So the digest need not be that of the bytes that were written. *)
Theorem c38_write_takes_a_copy_refuted :
  exists h s k bs k' h' out, Forall bytes_ok h /\ slice_ok h s /\ digest_of 256 24 k /\
    Write (fun _ n => n) (S (len s)) h (Reset k) s = Ok (h, k', len s) /\
    Sum (fun _ n => n) (store h (arr s) (off s) bs) k' nil_slice = Ok (h', out) /\ read h' out <> hash 24 8 (read h s).
Proof.
  exists [[1; 2; 3]], (mkSlice 0 0 3 3), New256, [9]. eexists _, _, _.
  split; [repeat constructor|]. split; [unfold slice_ok; cbn; lia|]. split; [repeat split|].
  split; [vm_compute; reflexivity|]. split; [vm_compute; reflexivity|]. vm_compute. discriminate.
Qed.
(** The next Write copies its bytes behind the kept slice, into the caller's array. *)
Theorem c38_next_write_overwrites_caller grow bits r q k h s t :
  usual bits r q -> digest_of bits r k -> Forall bytes_ok h -> slice_ok h s -> slice_ok h t ->
  (0 < len s)%nat -> (len s + len t < rate q)%nat -> (len s + len t <= cap s)%nat ->
  exists h1 k1 h2 k2, Write grow (S (len s)) h (Reset k) s = Ok (h1, k1, len s) /\ Write grow (S (len t)) h1 k1 t = Ok (h2, k2, len t) /\
    forall i, nth i (array h2 (arr s)) 0 =
      if (Nat.leb (off s + len s) i && Nat.ltb i (off s + len s + len t))%bool then nth (i - (off s + len s)) (read h t) 0 else nth i (array h (arr s)) 0.
Proof.
  intros U D Hh W Wt P Ls C. destruct (usual_valid bits r q k U D) as [V Sz].
  pose proof (read_length h t Wt) as Lt.
  eexists _, _, _, _. split; [apply (Write_short grow _ h k (rate q) (Z.to_nat r) s V); lia|].
  split; [apply (Write_more grow (S (len t)) h (withBuf (Reset k) s) (rate q) (Z.to_nat r) t); try assumption; now apply valid_withBuf, (h_valid _ _ _ _ _ (Reset_holds h k _ _ V (proj1 D)))|].
  cbn [buf withBuf]. assert (As : (arr s < length h)%nat) by (destruct W as (_ & _ & W); lia).
  rewrite array_store_same by assumption. rewrite Lt. destruct W as (W1 & W2 & W3).
  intros i. destruct (Nat.leb_spec (off s + len s) i) as [L1|L1]; cbn [andb].
  - rewrite app_nth2 by (rewrite firstn_length; lia). rewrite firstn_length, Nat.min_l by lia.
    destruct (Nat.ltb_spec i (off s + len s + len t)).
    + rewrite app_nth1 by lia. reflexivity.
    + rewrite app_nth2 by lia. rewrite nth_skipn. f_equal. lia.
  - rewrite app_nth1 by (rewrite firstn_length; lia). rewrite nth_firstn. destruct (Nat.ltb_spec i (off s + len s)); [reflexivity|lia].
Qed.
(** Two digests that were given the same prefix share its array: what one of them
    appends is what the other hashes. *)
Theorem c38_digests_clobber_each_other grow bits r q k1 k2 h s x y :
  usual bits r q -> digest_of bits r k1 -> digest_of bits r k2 -> Forall bytes_ok h -> slice_ok h s -> slice_ok h x -> slice_ok h y ->
  (0 < len s)%nat -> len x = len y -> (len s + len x < rate q)%nat -> (len s + len x <= cap s)%nat -> arr x <> arr s -> arr y <> arr s ->
  exists a1 b1 h1 a2 h2 b2,
    Write grow (S (len s)) h (Reset k1) s = Ok (h, a1, len s) /\ Write grow (S (len s)) h (Reset k2) s = Ok (h, b1, len s) /\
    Write grow (S (len x)) h a1 x = Ok (h1, a2, len x) /\ Write grow (S (len y)) h1 b1 y = Ok (h2, b2, len y) /\
    forall t, Sum grow h2 a2 t = Ok (append grow h2 t (hash r q (read h s ++ read h y))).
Proof.
  intros U D1 D2 Hh W Wx Wy P Ex Ls C Nx Ny. destruct (usual_valid bits r q k1 U D1) as [V1 Sz1]. destruct (usual_valid bits r q k2 U D2) as [V2 Sz2].
  pose proof (read_length h s W) as Ls'. pose proof (read_length h x Wx) as Lx. pose proof (read_length h y Wy) as Ly.
  assert (As : (arr s < length h)%nat) by (destruct W as (_ & _ & W); lia).
  assert (R1 : valid (withBuf (Reset k1) s) (rate q) (Z.to_nat r)) by (apply valid_withBuf, (h_valid _ _ _ _ _ (Reset_holds h k1 _ _ V1 (proj1 D1)))).
  assert (R2 : valid (withBuf (Reset k2) s) (rate q) (Z.to_nat r)) by (apply valid_withBuf, (h_valid _ _ _ _ _ (Reset_holds h k2 _ _ V2 (proj1 D2)))).
  set (h1 := store h (arr s) (off s + len s) (read h x)).
  assert (Ho : forall z : list N, length z = len x -> (off s + len s + length z <= length (array h (arr s)))%nat) by (intros z ->; destruct W; lia).
  assert (Wy1 : wf h1 y) by (apply wf_store; auto).
  assert (Ry : read h1 y = read h y) by (apply read_same; now apply array_store_other).
  set (h2 := store h1 (arr s) (off s + len s) (read h y)).
  eexists _, _, _, _, h2, _. split; [apply (Write_short grow _ h k1 (rate q) (Z.to_nat r) s V1); lia|].
  split; [apply (Write_short grow _ h k2 (rate q) (Z.to_nat r) s V2); lia|].
  split; [apply (Write_more grow _ h (withBuf (Reset k1) s) (rate q) (Z.to_nat r) x); try assumption|].
  split.
  { cbn [withBuf buf]. fold h1. rewrite (Write_more grow _ h1 (withBuf (Reset k2) s) (rate q) (Z.to_nat r) y); [cbn [withBuf buf]; rewrite Ry; reflexivity|assumption|assumption|cbn [withBuf buf]; lia|cbn [withBuf buf]; lia|assumption]. }
  cbn [withBuf buf]. intros t. set (s2 := mkSlice (arr s) (off s) (len s + len x) (cap s)).
  assert (L1 : length h1 = length h) by apply store_length.
  assert (Hh2 : heap_ok h2) by (apply store_ok; [apply store_ok; [exact Hh|now apply read_ok]|now apply read_ok]).
  assert (Ho1 : (off s + len s + length (read h y) <= length (array h1 (arr s)))%nat).
  { unfold h1. rewrite store_array_length by auto. apply Ho. lia. }
  assert (W2 : wf h2 s2).
  { apply wf_store; [now rewrite L1|exact Ho1|]. apply wf_store; auto. destruct W as (Wa & Wb & Wc). unfold wf, s2. cbn [len cap off arr]. lia. }
  assert (E : read h2 s2 = read h s ++ read h y).
  { unfold read at 1. cbn [s2 arr off len]. unfold h2. rewrite array_store_same by now rewrite L1.
    unfold h1. rewrite array_store_same by assumption. rewrite Lx, Ly. destruct W as (Wa & Wb & Wc).
    assert (F : forall z, firstn (off s + len s) (firstn (off s + len s) (array h (arr s)) ++ z) = firstn (off s + len s) (array h (arr s))).
    { intros z. rewrite firstn_app_exact by (rewrite firstn_length; lia). reflexivity. }
    rewrite F. rewrite skipn_app. rewrite firstn_length, Nat.min_l by lia. replace (off s - (off s + len s))%nat with 0%nat by lia. cbn [skipn].
    rewrite skipn_firstn_comm. replace (off s + len s - off s)%nat with (len s) by lia.
    fold (read h s). rewrite app_assoc, firstn_app_exact by (rewrite app_length; lia). reflexivity. }
  pose proof (pending_holds h2 k1 (rate q) (Z.to_nat r) s2 V1 (proj1 D1) Hh2 W2 ltac:(cbn [s2 len]; lia)) as H. rewrite E in H.
  match goal with |- Sum _ _ ?k _ = _ => change k with (withBuf (Reset k1) s2) end.
  rewrite (Sum_ok grow h2 _ _ _ _ t (4 * q) H Hh2).
  - now rewrite hash_final by apply U.
  - exact Sz1.
  - destruct U; lia.
Qed.
(** Write(data[0:2]); Write(data[4:5]) changes data[2]. *)
Example c38_nonvacuous :
  exists h1 k1 h2 k2, Write (fun _ n => n) 3 [[1; 2; 3; 4; 5]] New256 (mkSlice 0 0 2 5) = Ok (h1, k1, 2%nat) /\
    Write (fun _ n => n) 2 h1 k1 (mkSlice 0 4 1 1) = Ok (h2, k2, 1%nat) /\ h2 = [[1; 2; 5; 4; 5]].
Proof. eexists _, _, _, _. split; [vm_compute; reflexivity|]. split; [vm_compute; reflexivity|reflexivity]. Qed.
Example c38_nonvacuous_hyps :
  usual 256 24 8 /\ digest_of 256 24 New256 /\ Forall bytes_ok [[1; 2; 3; 4; 5]; [6]; [7]] /\ slice_ok [[1; 2; 3; 4; 5]; [6]; [7]] (mkSlice 0 0 2 5) /\
  slice_ok [[1; 2; 3; 4; 5]; [6]; [7]] (mkSlice 1 0 1 1) /\ slice_ok [[1; 2; 3; 4; 5]; [6]; [7]] (mkSlice 2 0 1 1).
Proof. repeat split; cbn; try lia; repeat constructor. Qed.

(** ** C39 *)
Theorem c39_published_permutation k s block B :
  blockSize k = Z.of_nat B -> (0 < B <= 200)%nat -> (B mod 8 = 0)%nat -> (rounds k <= 24)%Z ->
  length s = 25%nat -> Forall (fits 64) s -> bytes_ok block -> length block = B ->
  f k s block = Ok (absorb_block (Z.to_nat (rounds k)) s block).
Proof.
  intros H1 H2 H3 H4 L F Hb Lb. assert (V : valid k B (Z.to_nat (rounds k))) by (constructor; lia).
  rewrite (f_ok k B _ s block V (conj L F) Hb Lb). unfold stepf. now rewrite used_all.
Qed.
Theorem c39_permutation_bijective nr : (nr <= 24)%nat ->
  bijection_on (fun s => length s = 25%nat /\ Forall (fits 64) s) (keccak_f nr).
Proof. intros H. apply (bij_keccak_f nr H). Qed.
Theorem c39_round_bijective i : (i < 24)%nat -> bijection_on (fun s => length s = 25%nat /\ Forall (fits 64) s) (fun s => Round s i).
Proof. intros H. apply (bij_Round i H). Qed.
Theorem c39_blocks_distinct k s b1 b2 B :
  blockSize k = Z.of_nat B -> (0 < B <= 200)%nat -> (B mod 8 = 0)%nat -> (rounds k <= 24)%Z ->
  length s = 25%nat -> Forall (fits 64) s -> bytes_ok b1 -> bytes_ok b2 -> length b1 = B -> length b2 = B ->
  f k s b1 = f k s b2 -> b1 = b2.
Proof.
  intros H1 H2 H3 H4 L F Hb1 Hb2 L1 L2 E. assert (V : valid k B (Z.to_nat (rounds k))) by (constructor; lia).
  rewrite !(f_ok k B _ _ _ V (conj L F)) in E by assumption. injection E as E.
  apply stepf_inj_block in E; auto; try lia. split; assumption.
Qed.
Theorem c39_states_distinct k s1 s2 b B :
  blockSize k = Z.of_nat B -> (0 < B <= 200)%nat -> (rounds k <= 24)%Z ->
  length s1 = 25%nat -> Forall (fits 64) s1 -> length s2 = 25%nat -> Forall (fits 64) s2 -> bytes_ok b -> length b = B ->
  f k s1 b = f k s2 b -> s1 = s2.
Proof.
  intros H1 H2 H4 L1 F1 L2 F2 Hb Lb E. assert (V : valid k B (Z.to_nat (rounds k))) by (constructor; lia).
  rewrite !(f_ok k B _ _ _ V) in E by (assumption || split; assumption). injection E as E.
  apply stepf_inj_state in E; auto; try lia; split; assumption.
Qed.
Example c39_nonvacuous :
  blockSize New256 = Z.of_nat 136 /\ (136 mod 8 = 0)%nat /\ (rounds New256 <= 24)%Z /\
  f New256 (repeat 0 25) (repeat 1 136) <> f New256 (repeat 0 25) (repeat 2 136) /\
  nth 0 (keccak_f 24 (repeat 0 25)) 0 = 0xf1258f7940e1dde7.
Proof. repeat split; try (vm_compute; (reflexivity || discriminate)). Qed.
Example c39_states_nonvacuous : f New512 (repeat 0 25) (repeat 1 72) <> f New512 (1 :: repeat 0 24) (repeat 1 72) /\
  length (1 :: repeat 0 24) = 25%nat /\ Forall (fits 64) (1 :: repeat 0 24).
Proof. split; [vm_compute; discriminate|]. split; [reflexivity|repeat constructor]. Qed.

(** ** C40 *)
Theorem c40_padding_injective r1 r2 m1 m2 : (0 < r1)%nat -> (0 < r2)%nat -> pad101 r1 m1 = pad101 r2 m2 -> m1 = m2.
Proof.
  intros H1 H2 E. unfold pad101 in E.
  pose proof (Nat.mod_upper_bound (length m1) r1 ltac:(lia)). pose proof (Nat.mod_upper_bound (length m2) r2 ltac:(lia)).
  apply (padding_inj m1 m2 (r1 - length m1 mod r1) (r2 - length m2 mod r2)); [lia|lia|exact E].
Qed.
Theorem c40_padded_length r m : (0 < r)%nat ->
  length (pad101 r m) = (r * (length m / r + 1))%nat /\ (1 <= length (pad101 r m) - length m <= r)%nat /\ firstn (length m) (pad101 r m) = m.
Proof.
  intros H. unfold pad101. fold (padding (r - length m mod r)). pose proof (Nat.mod_upper_bound (length m) r ltac:(lia)).
  rewrite app_length, padding_length by lia. pose proof (Nat.div_mod (length m) r ltac:(lia)) as D.
  split; [nia|]. split; [lia|]. now apply firstn_app_exact.
Qed.
(** pad makes the last block of the padded message from the bytes left over. *)
Theorem c40_code_pads_so k B m : blockSize k = Z.of_nat B -> (0 < B)%nat ->
  exists last, pad k (skipn (B * (length m / B)) m) = Ok last /\ length last = B /\ firstn (B * (length m / B)) m ++ last = pad101 B m.
Proof.
  intros HB H. pose proof (Nat.div_mod (length m) B ltac:(lia)) as D. pose proof (Nat.mod_upper_bound (length m) B ltac:(lia)) as U.
  pose proof (skipn_length (B * (length m / B)) m) as L.
  exists (skipn (B * (length m / B)) m ++ padding (B - length (skipn (B * (length m / B)) m))).
  split; [|split].
  - apply pad_any; [exact HB|lia].
  - rewrite app_length, padding_length; lia.
  - rewrite app_assoc, firstn_skipn. unfold pad101. fold (padding (B - length m mod B)). do 2 f_equal. lia.
Qed.
(** Messages shorter than one block: the state from which Sum takes its output (1600
    bits) differs for different messages. *)
Theorem c40_short_messages_distinct_states B nr m1 m2 : (0 < B <= 200)%nat -> (B mod 8 = 0)%nat -> (nr <= 24)%nat ->
  bytes_ok m1 -> bytes_ok m2 -> (length m1 < B)%nat -> (length m2 < B)%nat ->
  absorb_block nr (repeat 0 25) (pad101 B m1) = absorb_block nr (repeat 0 25) (pad101 B m2) -> m1 = m2.
Proof.
  intros HB H8 Hn H1 H2 L1 L2 E. apply (final_short_inj B nr); try assumption; try lia.
  assert (G : forall m, (length m < B)%nat -> final B nr m = absorb_block nr (repeat 0 25) (pad101 B m)).
  { intros m Lm. unfold final, absorbed. rewrite absorb_short by lia. unfold pad101. rewrite Nat.mod_small by assumption.
    fold (padding (B - length m)). unfold stepf. rewrite used_all; [reflexivity|assumption|]. rewrite app_length, padding_length; lia. }
  now rewrite !G.
Qed.
Example c40_nonvacuous :
  pad101 8 [1; 2; 3; 4; 5; 6; 7] = [1; 2; 3; 4; 5; 6; 7; 0x81] /\ pad101 4 [1; 2; 3; 4] = [1; 2; 3; 4; 1; 0; 0; 0x80] /\
  pad New512 [5; 6] = Ok (5 :: 6 :: 1 :: repeat 0 68 ++ [0x80]).
Proof. vm_compute. auto. Qed.
Example c40_short_nonvacuous : absorb_block 24 (repeat 0 25) (pad101 136 [1; 2]) <> absorb_block 24 (repeat 0 25) (pad101 136 [1; 2; 1]).
Proof. vm_compute. discriminate. Qed.

(** ** C68: NewCustom beyond the usual sizes *)
(** A digest of d bytes, d not a multiple of 4 and below 100: the message byte that
    follows the last whole lane of a block is ignored, and so is its presence. *)
Theorem c68_byte_ignored grow bits r k h s s' t d :
  digest_of bits r k -> Z.quot bits 8 = Z.of_nat d -> (d < 100)%nat -> (d mod 4 <> 0)%nat -> (r <= 24)%Z ->
  Forall bytes_ok h -> slice_ok h s -> slice_ok h s' ->
  (len s mod (200 - 2 * d) = 8 * ((200 - 2 * d) / 8))%nat -> (exists c, read h s' = read h s ++ [c]) ->
  oneshot grow h k s' t = oneshot grow h k s t.
Proof.
  intros (D1 & D2 & D3 & D4) Ed Hd Hm Hr Hh W W' Hs [c Ec].
  assert (V : valid k (200 - 2 * d) (Z.to_nat r)) by (constructor; [rewrite D3, Ed; lia|lia|lia|now rewrite D4|lia]).
  rewrite (oneshot_ok grow h k (200 - 2 * d) (Z.to_nat r) d s t V ltac:(congruence) ltac:(lia) D1 Hh W).
  rewrite (oneshot_ok grow h k (200 - 2 * d) (Z.to_nat r) d s' t V ltac:(congruence) ltac:(lia) D1 Hh W').
  do 4 f_equal. rewrite Ec. apply final_skip; [lia|now rewrite read_length|].
  pose proof (Nat.div_mod (200 - 2 * d) 8 ltac:(lia)) as Q. pose proof (Nat.mod_upper_bound (200 - 2 * d) 8 ltac:(lia)).
  pose proof (Nat.div_mod d 4 ltac:(lia)) as Q2. pose proof (Nat.mod_upper_bound d 4 ltac:(lia)).
  assert ((200 - 2 * d) mod 8 <> 0 /\ (200 - 2 * d) mod 8 <> 1)%nat; [|lia]. split; intros Z; rewrite Z in Q; lia.
Qed.
(** Messages of one length that agree on the bytes of whole lanes have the same digest. *)
Theorem c68_bytes_ignored grow bits r k h s s' t d :
  digest_of bits r k -> Z.quot bits 8 = Z.of_nat d -> (d < 100)%nat -> (r <= 24)%Z ->
  Forall bytes_ok h -> slice_ok h s -> slice_ok h s' -> len s = len s' ->
  (forall p, (p mod (200 - 2 * d) < 8 * ((200 - 2 * d) / 8))%nat -> nth p (read h s) 0 = nth p (read h s') 0) ->
  oneshot grow h k s t = oneshot grow h k s' t.
Proof.
  intros (D1 & D2 & D3 & D4) Ed Hd Hr Hh W W' L Hp.
  assert (V : valid k (200 - 2 * d) (Z.to_nat r)) by (constructor; [rewrite D3, Ed; lia|lia|lia|now rewrite D4|lia]).
  rewrite (oneshot_ok grow h k (200 - 2 * d) (Z.to_nat r) d s t V ltac:(congruence) ltac:(lia) D1 Hh W).
  rewrite (oneshot_ok grow h k (200 - 2 * d) (Z.to_nat r) d s' t V ltac:(congruence) ltac:(lia) D1 Hh W').
  do 4 f_equal. apply final_same; [lia|]. split; [now rewrite !read_length|exact Hp].
Qed.
(** 800 to 807 bits: the block size is 0 and Write never returns; Sum panics. *)
Theorem c68_write_never_returns grow fuel bits r k h b :
  digest_of bits r k -> (800 <= bits <= 807)%Z -> (r <= 24)%Z -> Write grow fuel h (Reset k) b = NoFuel /\ forall t, Sum grow h k t = Panics.
Proof.
  intros (D1 & D2 & D3 & D4) Hb Hr.
  assert (Q : Z.quot bits 8 = 100%Z).
  { rewrite Z.quot_div_nonneg by lia. symmetry. apply (Z.div_unique bits 8 100 (bits - 800)); lia. }
  rewrite Q in D3. split.
  - unfold Write. cbn [Reset buf nil_slice len Nat.ltb Nat.leb].
    rewrite (write_loop_hangs fuel h (Reset k) b (Z.to_nat r)); [reflexivity|cbn [Reset blockSize]; rewrite D3; reflexivity|cbn [Reset rounds]; now rewrite D4|lia|].
    cbn [Reset S_]. rewrite (map_zero (S_ k) 25 D1). apply zero_ok.
  - intros t. unfold Sum, pad. rewrite D3. reflexivity.
Qed.
(** 808 bits and more: every call of Write and Sum panics. *)
Theorem c68_too_many_bits_panics grow fuel bits r k h b :
  digest_of bits r k -> (808 <= bits)%Z -> Write grow (S fuel) h (Reset k) b = Panics /\ Sum grow h k b = Panics.
Proof.
  intros (D1 & D2 & D3 & D4) Hb.
  assert (Q : (101 <= Z.quot bits 8)%Z).
  { rewrite Z.quot_div_nonneg by lia. apply Z.div_le_lower_bound; lia. }
  split.
  - unfold Write. cbn [Reset buf nil_slice len Nat.ltb Nat.leb write_loop blockSize]. rewrite D3.
    destruct (Z.leb_spec (200 - 2 * Z.quot bits 8) (Z.of_nat (len b))); [|lia].
    destruct (Z.ltb_spec (200 - 2 * Z.quot bits 8) 0); [reflexivity|lia].
  - unfold Sum, pad. rewrite D3. destruct (Z.ltb_spec (200 - 2 * Z.quot bits 8) 0); [reflexivity|lia].
Qed.
(** More than 24 rounds: every Sum panics, whatever was written. *)
Theorem c68_too_many_rounds_panics grow bits r k h t :
  digest_of bits r k -> (24 < r)%Z -> Sum grow h k t = Panics.
Proof.
  intros (D1 & D2 & D3 & D4) Hr.
  assert (X : forall n i s b, xor_loop n i s b = Panics \/ exists s', xor_loop n i s b = Ok s').
  { clear. induction n as [|n IH]; intros i s b; cbn [xor_loop]; [right; now eexists|].
    unfold idx. destruct (nth_error s i); cbn [rbind]; [|now left]. unfold tail_from. destruct (Nat.leb _ _); cbn [rbind]; [|now left].
    unfold uint64le. destruct (Nat.leb _ _); cbn [rbind]; [|now left]. apply IH. }
  unfold Sum. assert (P : pad k (read h (buf k)) = Panics \/ exists l, pad k (read h (buf k)) = Ok l).
  { unfold pad. destruct (Z.ltb _ _); [now left|]. destruct (Nat.ltb _ _); [right; now eexists|now left]. }
  destruct P as [->|[l ->]]; cbn [rbind]; [reflexivity|].
  enough (E : f k (S_ k) l = Panics) by now rewrite E.
  unfold f. destruct (Z.eqb (Z.of_nat (length l)) (blockSize k)); [|reflexivity].
  destruct (X (Z.to_nat (Z.quot (blockSize k) 8)) 0%nat (S_ k) l) as [->|[s ->]]; cbn [rbind]; [reflexivity|].
  rewrite D4. apply rounds_loop_panics; lia.
Qed.
(** Outputs longer than the rate are not those of the sponge. *)
Theorem c68_long_output_is_sponge_refuted :
  exists bits h s h' out, Z.quot bits 8 = 68%Z /\ Forall bytes_ok h /\ slice_ok h s /\
    oneshot (fun _ n => n) h (NewCustom bits 24) s nil_slice = Ok (h', out) /\ read h' out <> sponge 24 64 68 (read h s).
Proof.
  exists 544%Z, [[1]], (mkSlice 0 0 1 1). eexists _, _. split; [reflexivity|]. split; [repeat constructor|]. split; [unfold slice_ok; cbn; lia|].
  split; [vm_compute; reflexivity|]. vm_compute. discriminate.
Qed.
(** 240 bits, rate 140, 17 whole lanes: 136 zero bytes, followed by nothing or by 99. *)
Example c68_nonvacuous :
  exists h1 o1 h2 o2, oneshot (fun _ n => n) [repeat 0 136 ++ [99]] (NewCustom 240 24) (mkSlice 0 0 136 137) nil_slice = Ok (h1, o1) /\
    oneshot (fun _ n => n) [repeat 0 136 ++ [99]] (NewCustom 240 24) (mkSlice 0 0 137 137) nil_slice = Ok (h2, o2) /\
    read h1 o1 = read h2 o2 /\ length (read h1 o1) = 30%nat /\ digest_of 240 24 (NewCustom 240 24) /\ (136 mod (200 - 2 * 30) = 8 * ((200 - 2 * 30) / 8))%nat.
Proof.
  eexists _, _, _, _. split; [vm_compute; reflexivity|]. split; [vm_compute; reflexivity|]. split; [vm_compute; reflexivity|].
  split; [vm_compute; reflexivity|]. split; [repeat split|reflexivity].
Qed.
Example c68_more_nonvacuous : digest_of 803 24 (NewCustom 803 24) /\ digest_of 808 24 (NewCustom 808 24) /\ digest_of 256 25 (NewCustom 256 25) /\
  Write (fun _ n => n) 2 [[1; 2]] (NewCustom 803 24) (mkSlice 0 0 2 2) = NoFuel /\
  Write (fun _ n => n) 2 [[1; 2]] (NewCustom 808 24) (mkSlice 0 0 2 2) = Panics /\ Sum (fun _ n => n) [[1; 2]] (NewCustom 256 25) nil_slice = Panics.
Proof. unfold digest_of. repeat split; try (vm_compute; reflexivity); now left. Qed.

Print Assumptions c37_careful_client.
Print Assumptions c37_published_sizes.
Print Assumptions c37_one_buffer_in_chunks.
Print Assumptions c38_sum_sees_later_stores.
Print Assumptions c38_write_takes_a_copy_refuted.
Print Assumptions c38_next_write_overwrites_caller.
Print Assumptions c38_digests_clobber_each_other.
Print Assumptions c39_published_permutation.
Print Assumptions c39_permutation_bijective.
Print Assumptions c39_round_bijective.
Print Assumptions c39_blocks_distinct.
Print Assumptions c39_states_distinct.
Print Assumptions c40_padding_injective.
Print Assumptions c40_padded_length.
Print Assumptions c40_code_pads_so.
Print Assumptions c40_short_messages_distinct_states.
Print Assumptions c68_byte_ignored.
Print Assumptions c68_bytes_ignored.
Print Assumptions c68_write_never_returns.
Print Assumptions c68_too_many_bits_panics.
Print Assumptions c68_too_many_rounds_panics.
Print Assumptions c68_long_output_is_sponge_refuted.
