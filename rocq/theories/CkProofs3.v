(** Proofs about package keccak: padding and squeezing. *)
From Coq Require Import ZArith.
From Verif Require Import Words WordLemmas ListLemmas Mem SLP Bij Blocks Mm3Spec Mm3Proofs KeccakSpec KeccakProofs KeccakProofs2 KeccakProofs3 KeccakProofs4 CkProg CkModel CkRounds CkProofs CkProofs2.
From Verif Require KeccakModel KeccakProofs6.
Open Scope N_scope.
Strategy 1000 [rounds24].

(** Like [holds], with k further bits, of value v, in the queue. *)
Record holdsk (F : N) (s : spongeState) (B : nat) (d : list N) (k v : N) : Prop := {
  k_B : rate_ok B; k_rate : rate s = 8 * N.of_nat B;
  k_qlen : length (dataQueue s) = queue_bytes; k_qok : bytes_ok (dataQueue s);
  k_data : bytes_ok d;
  k_state : state s = masked (fst (absorbed B 24 d));
  k_bits : bitsInQueue s = 8 * N.of_nat (length (rest B d)) + k;
  k_rest : firstn (length (rest B d)) (dataQueue s) = rest B d;
  k_k : k < 8; k_v : v < 2 ^ k; k_nth : k = 0 \/ nth (length (rest B d)) (dataQueue s) 0 = v;
  k_sq : squeezing s = false; k_fixed : fixedOutputLength s = F }.
Lemma holds_k F s B d : holds F s B d -> holdsk F s B d 0 0.
Proof. intros []. constructor; try assumption; try reflexivity; [now rewrite N.add_0_r|now left]. Qed.

(** The bytes that are absorbed last: q bytes are missing in the block. *)
Definition last_blocks (B : nat) (r : list N) (k v : N) : list (list N) :=
  let q := (B - length r)%nat in
  if Nat.eqb q 1 then
    if k =? 7 then [r ++ [N.lor v 128]; repeat 0 (B - 1) ++ [128]]
    else [r ++ [N.lor (N.lor v (2 ^ k)) 128]]
  else [r ++ N.lor v (2 ^ k) :: repeat 0 (q - 2) ++ [128]].
Definition finalk (B : nat) (d : list N) (k v : N) : list N :=
  fold_left (stepf 24 B) (last_blocks B (rest B d) k v) (fst (absorbed B 24 d)).
Lemma finalk_0 B d : (0 < B)%nat -> finalk B d 0 0 = final B 24 d.
Proof.
  intros HB. unfold finalk, final, last_blocks, padding. pose proof (rest_lt B d HB) as L.
  destruct (absorbed B 24 d) as [s r]. cbn [fst snd] in *. destruct (Nat.eqb_spec (B - length r) 1); reflexivity.
Qed.

Lemma upd_mid {A} (a b : list A) x y : upd (a ++ x :: b) (length a) y = a ++ y :: b.
Proof. induction a as [|z a IH]; [reflexivity|]. cbn [app length upd]. now rewrite IH. Qed.
Lemma nth_mid (a b : list N) x : nth (length a) (a ++ x :: b) 0 = x.
Proof. induction a as [|z a IH]; [reflexivity|]. exact IH. Qed.
Lemma bit_shl k : k < 8 -> shlw 8 1 k = 2 ^ k.
Proof. intros H. destruct k as [|p]; [reflexivity|]. repeat (destruct p as [p|p|]; try reflexivity; try lia). Qed.
Lemma set_bit_mid a b x i k : k < 8 -> i = 8 * N.of_nat (length a) + k ->
  set_bit (a ++ x :: b) i = Ok (a ++ N.lor x (2 ^ k) :: b).
Proof.
  intros Hk ->. unfold set_bit.
  assert (E1 : (8 * N.of_nat (length a) + k) / 8 = N.of_nat (length a)) by (symmetry; apply N.div_unique with k; lia).
  assert (E2 : (8 * N.of_nat (length a) + k) mod 8 = k) by (symmetry; apply N.mod_unique with (N.of_nat (length a)); lia).
  rewrite E1, E2. unfold byte_at, set_byte. rewrite app_length. cbn [length].
  destruct (N.ltb_spec (N.of_nat (length a)) (N.of_nat (length a + S (length b)))); [|lia]. cbn [rbind].
  rewrite Nat2N.id, nth_mid, upd_mid, bit_shl by assumption. reflexivity.
Qed.
Lemma memset0_ok a b c off n : off = N.of_nat (length a) -> n = N.of_nat (length b) ->
  memset0 (a ++ b ++ c) off n = Ok (a ++ repeat 0 (length b) ++ c).
Proof.
  intros -> ->. unfold memset0. rewrite !app_length.
  destruct (N.leb_spec (N.of_nat (length a) + N.of_nat (length b)) (N.of_nat (length a + (length b + length c)))); [|lia].
  rewrite !Nat2N.id. replace (N.to_nat (N.of_nat (length a) + N.of_nat (length b))) with (length (a ++ b)) by (rewrite app_length; lia).
  rewrite (firstn_app_exact (length a)) by reflexivity. rewrite (app_assoc a b c), (skipn_app_exact (length (a ++ b))) by reflexivity. reflexivity.
Qed.
Lemma last_bit B : (0 < B)%nat -> 8 * N.of_nat B - 1 = 8 * N.of_nat (B - 1) + 7.
Proof. lia. Qed.
Lemma lor_byte a b : fits 8 a -> fits 8 b -> fits 8 (N.lor a b). Proof. apply lor_fits. Qed.
Lemma pow_byte k : k < 8 -> fits 8 (2 ^ k).
Proof. intros H. unfold fits. apply N.pow_lt_mono_r; lia. Qed.
Lemma val_byte k v : k < 8 -> v < 2 ^ k -> fits 8 v.
Proof. intros Hk Hv. unfold fits. eapply N.lt_le_trans; [exact Hv|]. apply N.pow_le_mono_r; lia. Qed.

(** The queue before the last AbsorbQueue of the padding. *)
Lemma bytes_ok_cons x l : bytes_ok (x :: l) <-> fits 8 x /\ bytes_ok l.
Proof. split; [intros H; now inversion H|intros [? ?]; now constructor]. Qed.
Lemma bytes_ok_zeros n : bytes_ok (repeat 0 n).
Proof. apply Forall_forall. intros x Hx. apply repeat_spec in Hx. subst. reflexivity. Qed.
Lemma bytes_ok_app2 a b : bytes_ok a -> bytes_ok b -> bytes_ok (a ++ b).
Proof. intros. apply bytes_ok_app. now split. Qed.

Definition padded (F : N) (s' : spongeState) (B : nat) (A : list N) : Prop :=
  state s' = masked A /\ state_ok A /\ rate s' = 8 * N.of_nat B /\ length (dataQueue s') = queue_bytes /\ bitsInQueue s' = 0 /\
  fixedOutputLength s' = F /\ bytes_ok (dataQueue s').
Lemma absorb_queue F s B A blk w : rate_ok B -> rate s = 8 * N.of_nat B -> state s = masked A -> state_ok A ->
  dataQueue s = blk ++ w -> length blk = B -> length (blk ++ w) = queue_bytes -> bytes_ok blk -> bytes_ok w -> fixedOutputLength s = F ->
  AbsorbQueue s = Ok (withBits (withState s (masked (stepf 24 B A blk))) 0) /\ state_ok (stepf 24 B A blk).
Proof.
  intros [B0 B8 BM] Hr Hs HA Hq Lb Lq Ob Ow HF. unfold AbsorbQueue. rewrite Hr, Hs, Hq.
  rewrite absorb_rate_ok; [|assumption|lia|rewrite app_length; lia|assumption|now apply bytes_ok_app2].
  rewrite (firstn_app_exact B) by assumption. split; [reflexivity|]. apply stepf_ok; [lia|assumption|assumption].
Qed.
Lemma extract_rate_ok s B A : rate_ok B -> rate s = 8 * N.of_nat B -> state s = masked A -> state_ok A -> length (dataQueue s) = queue_bytes ->
  extract_rate s = Ok (withAvail (withQueue s (firstn B (state_bytes A) ++ skipn B (dataQueue s))) (rate s)).
Proof.
  intros [B0 B8 BM] Hr Hs HA Lq. unfold extract_rate. pose proof (Nat.div_mod B 8) as D.
  destruct (N.eqb_spec (rate s) 1024) as [E|E].
  - assert (EB : B = 128%nat) by lia. unfold KeccakExtract1024bits. rewrite Hs, extract_ok; try assumption; [|lia|rewrite Lq; unfold queue_bytes; lia|].
    + cbn [rbind]. rewrite E, EB. reflexivity.
    + intros i Hi. do 16 (destruct i as [|i]; [reflexivity|]). lia.
  - replace (N.to_nat (rate s / 64)) with (B / 8)%nat.
    2:{ rewrite Hr. change 64 with (8 * 8). rewrite N.div_mul_cancel_l by discriminate. change 8 with (N.of_nat 8). rewrite <- Nat2N.inj_div. now rewrite Nat2N.id. }
    unfold KeccakExtract. rewrite Hs, extract_ok; try assumption; [|lia|rewrite Lq; unfold queue_bytes; lia|reflexivity].
    replace (8 * (B / 8))%nat with B by lia. reflexivity.
Qed.

(** The state while squeezing: t bytes of the stream from A have been taken. *)
Definition turned (A : list N) (b : nat) : list N := Nat.iter b (keccak_f 24) A.
Record sqz (F : N) (s : spongeState) (B : nat) (A : list N) (b o : nat) : Prop := {
  z_B : rate_ok B; z_rate : rate s = 8 * N.of_nat B; z_A : state_ok A;
  z_state : state s = masked (turned A b); z_qlen : length (dataQueue s) = queue_bytes;
  z_queue : firstn B (dataQueue s) = firstn B (state_bytes (turned A b));
  z_o : (o <= B)%nat; z_avail : bitsAvailableForSqueezing s = 8 * N.of_nat (B - o);
  z_sq : squeezing s = true; z_fixed : fixedOutputLength s = F }.
Lemma turned_ok A b : state_ok A -> state_ok (turned A b).
Proof. intros H. unfold turned. induction b as [|b IH]; [exact H|]. cbn [Nat.iter nat_rect].
  destruct (keccak_f_ok 24 (Nat.iter b (keccak_f 24) A)) as [_ K]; [lia|exact IH|exact K]. Qed.
Lemma state_len A : state_ok A -> length (state_bytes A) = 200%nat.
Proof. intros [L _]. rewrite state_bytes_length, L. reflexivity. Qed.

Definition pad_prefix (s : spongeState) : res spongeState :=
  let b := bitsInQueue s in
   s <~ (if add32 b 1 =? rate s then
          q <~ set_bit (dataQueue s) b ;; s <~ AbsorbQueue (withQueue s q) ;; q <~ memset0 (dataQueue s) 0 (rate s / 8) ;; Ok (withQueue s q)
        else let o := add32 b 7 / 8 in q <~ memset0 (dataQueue s) o (rate s / 8 - o) ;; q <~ set_bit q b ;; Ok (withQueue s q)) ;;
   q <~ set_bit (dataQueue s) (rate s - 1) ;; AbsorbQueue (withQueue s q).
Lemma pad_queue F s B d k v : holdsk F s B d k v -> exists w, pad_prefix s =
  Ok (withBits (withState (withQueue s (last (last_blocks B (rest B d) k v) [] ++ w)) (masked (finalk B d k v))) 0) /\
  length (last (last_blocks B (rest B d) k v) [] ++ w) = queue_bytes /\ state_ok (finalk B d k v).
Proof.
  unfold pad_prefix. intros [RB Hr Lq Oq Hd Hs Hb Hre Hk Hv Hn Hsq HF]. pose proof RB as [B0 B8 BM]. set (r := rest B d) in *.
  pose proof (rest_lt B d B0) as RL. fold r in RL.
  assert (Or : bytes_ok r) by (rewrite <- Hre; now apply bytes_ok_firstn).
  assert (HA : state_ok (fst (absorbed B 24 d))) by now apply absorbed_state_ok.
  (* the queue: r, one byte, the rest of the block, the rest *)
  destruct (skipn (length r) (dataQueue s)) as [|x0 u] eqn:Eu.
  { apply (f_equal (@length N)) in Eu. rewrite skipn_length, Lq in Eu. unfold queue_bytes in Eu. cbn [length] in Eu. lia. }
  assert (Lu : (S (length u) = 192 - length r)%nat).
  { apply (f_equal (@length N)) in Eu. rewrite skipn_length, Lq in Eu. unfold queue_bytes in Eu. cbn [length] in Eu. lia. }
  set (u1 := firstn (B - length r - 1) u). set (w := skipn (B - length r - 1) u).
  assert (Lu1 : length u1 = (B - length r - 1)%nat) by (unfold u1; rewrite firstn_length; lia).
  assert (Lw : length w = (192 - B)%nat) by (unfold w; rewrite skipn_length; lia).
  assert (EQ : dataQueue s = r ++ x0 :: u1 ++ w).
  { rewrite <- (firstn_skipn (length r) (dataQueue s)), Hre, Eu. unfold u1, w. now rewrite firstn_skipn. }
  assert (Ow : bytes_ok w /\ bytes_ok u1 /\ fits 8 x0).
  { rewrite EQ in Oq. apply bytes_ok_app in Oq. destruct Oq as [_ O]. apply bytes_ok_cons in O. destruct O as [O1 O]. apply bytes_ok_app in O. tauto. }
  destruct Ow as (Ow & Ou1 & Ox0).
  assert (Hx0 : k = 0 \/ x0 = v).
  { destruct Hn as [Hn|Hn]; [now left|right]. rewrite EQ, nth_mid in Hn. exact Hn. }
  pose proof (val_byte k v Hk Hv) as Ov. pose proof (pow_byte k Hk) as Op.
  exists w. cbn zeta. rewrite Hb, Hr, div8.
  assert (E1 : add32 (8 * N.of_nat (length r) + k) 1 = 8 * N.of_nat (length r) + k + 1).
  { unfold add32, addw. apply wrap_small. change (2 ^ 32) with 4294967296. lia. }
  assert (E7 : add32 (8 * N.of_nat (length r) + k) 7 = 8 * N.of_nat (length r) + (k + 7)).
  { unfold add32, addw. rewrite wrap_small; [lia|]. change (2 ^ 32) with 4294967296. lia. }
  rewrite E1, E7. unfold finalk. fold r. unfold last_blocks.
  destruct (N.eqb_spec (8 * N.of_nat (length r) + k + 1) (8 * N.of_nat B)) as [E|E].
  - (* the last bit of the block is the first bit of the padding *)
    assert (Ek : k = 7) by lia. assert (Eq : (B - length r = 1)%nat) by lia. subst k.
    rewrite Eq. cbn [Nat.eqb]. change (7 =? 7) with true. cbn [last fold_left].
    destruct Hx0 as [Hx0|Hx0]; [discriminate|]. subst x0.
    assert (U1 : u1 = []) by (apply length_zero_iff_nil; lia). rewrite U1 in EQ. cbn [app] in EQ.
    rewrite EQ, (set_bit_mid r w v _ 7) by (lia || reflexivity). cbn [rbind]. change (2 ^ 7) with 128 in *.
    assert (O1 : bytes_ok (r ++ [N.lor v 128])) by (apply bytes_ok_app2; [assumption|]; apply bytes_ok_cons; split; [now apply lor_byte|constructor]).
    assert (L1 : length (r ++ [N.lor v 128]) = B) by (rewrite app_length; cbn [length]; lia).
    assert (Q1 : r ++ N.lor v 128 :: w = (r ++ [N.lor v 128]) ++ w) by (rewrite <- app_assoc; reflexivity).
    destruct (absorb_queue F (withQueue s (r ++ N.lor v 128 :: w)) B (fst (absorbed B 24 d)) (r ++ [N.lor v 128]) w) as [A1 S1];
      try assumption; [rewrite app_length, L1, Lw; unfold queue_bytes; lia|].
    rewrite A1. cbn [rbind withBits withState withQueue dataQueue rate]. rewrite Hr, div8, Q1.
    change ((r ++ [N.lor v 128]) ++ w) with ([] ++ (r ++ [N.lor v 128]) ++ w). rewrite memset0_ok by (cbn [length]; rewrite ?L1; reflexivity).
    assert (ZB : repeat 0 B ++ w = repeat 0 (B - 1) ++ 0 :: w).
    { replace B with (B - 1 + 1)%nat at 1 by lia. rewrite repeat_app, <- app_assoc. reflexivity. }
    cbn [rbind app]. rewrite L1, ZB. cbn [dataQueue withQueue withBits withState rate]. rewrite ?Hr, (last_bit B B0).
    rewrite (set_bit_mid (repeat 0 (B - 1)) w 0 _ 7) by (rewrite ?repeat_length; lia || reflexivity).
    cbn [rbind]. change (N.lor 0 (2 ^ 7)) with 128.
    assert (Q2 : repeat 0 (B - 1) ++ 128 :: w = (repeat 0 (B - 1) ++ [128]) ++ w) by (rewrite <- app_assoc; reflexivity).
    assert (L2 : length (repeat 0 (B - 1) ++ [128]) = B) by (rewrite app_length, repeat_length; cbn [length]; lia).
    rewrite Q2.
    match goal with |- context [AbsorbQueue ?S] =>
      destruct (absorb_queue F S B (stepf 24 B (fst (absorbed B 24 d)) (r ++ [N.lor v 128])) (repeat 0 (B - 1) ++ [128]) w) as [A2 S2] end;
      try assumption; try reflexivity; [rewrite app_length, L2, Lw; unfold queue_bytes; lia|apply bytes_ok_app2; [apply bytes_ok_zeros|repeat constructor]|].
    rewrite A2. split; [reflexivity|]. split; [rewrite app_length, L2, Lw; unfold queue_bytes; lia|exact S2].
  - assert (EM : memset0 (dataQueue s) ((8 * N.of_nat (length r) + (k + 7)) / 8) (N.of_nat B - (8 * N.of_nat (length r) + (k + 7)) / 8)
                 = Ok (r ++ v :: repeat 0 (B - length r - 1) ++ w)).
    { destruct (N.eq_dec k 0) as [K|K].
      - assert (V : v = 0) by (subst k; change (2 ^ 0) with 1 in Hv; lia). subst k v.
        replace ((8 * N.of_nat (length r) + (0 + 7)) / 8) with (N.of_nat (length r)) by (apply N.div_unique with 7; lia).
        rewrite EQ. change (r ++ x0 :: u1 ++ w) with (r ++ (x0 :: u1) ++ w). rewrite memset0_ok; [|reflexivity|cbn [length]; lia].
        cbn [length repeat app]. now rewrite Lu1.
      - destruct Hx0 as [Hx0|Hx0]; [contradiction|]. subst x0.
        replace ((8 * N.of_nat (length r) + (k + 7)) / 8) with (N.of_nat (S (length r))) by (apply N.div_unique with (k - 1); lia).
        rewrite EQ. replace (r ++ v :: u1 ++ w) with ((r ++ [v]) ++ u1 ++ w) by (rewrite <- app_assoc; reflexivity).
        rewrite memset0_ok; [|rewrite app_length; cbn [length]; lia|lia].
        rewrite Lu1, <- app_assoc. reflexivity. }
    rewrite EM. cbn [rbind]. rewrite (set_bit_mid r _ v _ k Hk) by reflexivity. cbn [rbind withQueue dataQueue rate]. rewrite Hr, (last_bit B B0). clear EM.
    destruct (Nat.eqb_spec (B - length r) 1) as [Eq|Eq].
    + destruct (N.eqb_spec k 7) as [K|K]; [lia|]. cbn [last fold_left]. rewrite Eq. change (repeat 0 (1 - 1)) with (@nil N). cbn [app].
      rewrite (set_bit_mid r w _ _ 7) by (lia || reflexivity). cbn [rbind]. change (2 ^ 7) with 128.
      set (y := N.lor (N.lor v (2 ^ k)) 128).
      assert (Oy : fits 8 y) by (unfold y; apply lor_byte; [now apply lor_byte|reflexivity]).
      assert (L1 : length (r ++ [y]) = B) by (rewrite app_length; cbn [length]; lia).
      assert (Q1 : r ++ y :: w = (r ++ [y]) ++ w) by (rewrite <- app_assoc; reflexivity). rewrite Q1.
      match goal with |- context [AbsorbQueue ?S] => destruct (absorb_queue F S B (fst (absorbed B 24 d)) (r ++ [y]) w) as [A1 S1] end;
        try assumption; try reflexivity; [rewrite app_length, L1, Lw; unfold queue_bytes; lia|apply bytes_ok_app2; [assumption|apply bytes_ok_cons; split; [assumption|constructor]]|].
      rewrite A1. split; [reflexivity|]. split; [rewrite app_length, L1, Lw; unfold queue_bytes; lia|exact S1].
    + cbn [last fold_left]. set (y := N.lor v (2 ^ k)). assert (Oy : fits 8 y) by (unfold y; now apply lor_byte).
      assert (LC : length (r ++ y :: repeat 0 (B - length r - 2)) = (B - 1)%nat) by (rewrite app_length; cbn [length]; rewrite repeat_length; lia).
      assert (Q0 : r ++ y :: repeat 0 (B - length r - 1) ++ w = (r ++ y :: repeat 0 (B - length r - 2)) ++ 0 :: w).
      { replace (B - length r - 1)%nat with (B - length r - 2 + 1)%nat by lia. rewrite repeat_app, <- !app_assoc. cbn [repeat app]. reflexivity. }
      rewrite Q0, (set_bit_mid _ w 0 _ 7) by (rewrite ?LC; reflexivity). cbn [rbind]. change (N.lor 0 (2 ^ 7)) with 128.
      set (blk := r ++ y :: repeat 0 (B - length r - 2) ++ [128]).
      assert (Q1 : (r ++ y :: repeat 0 (B - length r - 2)) ++ 128 :: w = blk ++ w) by (unfold blk; rewrite <- !app_assoc; cbn [app]; now rewrite <- !app_assoc).
      assert (L1 : length blk = B) by (unfold blk; rewrite app_length; cbn [length]; rewrite app_length, repeat_length; cbn [length]; lia).
      rewrite Q1.
      match goal with |- context [AbsorbQueue ?S] => destruct (absorb_queue F S B (fst (absorbed B 24 d)) blk w) as [A1 S1] end;
        try assumption; try reflexivity; [rewrite app_length, L1, Lw; unfold queue_bytes; lia| |].
      { unfold blk. apply bytes_ok_app2; [assumption|]. apply bytes_ok_cons. split; [assumption|]. apply bytes_ok_app2; [apply bytes_ok_zeros|repeat constructor]. }
      rewrite A1. split; [reflexivity|]. split; [rewrite app_length, L1, Lw; unfold queue_bytes; lia|exact S1].
Qed.
Lemma pad_split s : PadAndSwitchToSqueezingPhase s = (s <~ pad_prefix s ;; s <~ extract_rate s ;; Ok (withSqueezing s)).
Proof.
  unfold PadAndSwitchToSqueezingPhase, pad_prefix. cbn zeta.
  match goal with |- rbind ?x _ = _ => destruct x as [s1| | |] end; try reflexivity. cbn [rbind].
  destruct (set_bit (dataQueue s1) (rate s1 - 1)); reflexivity.
Qed.
Lemma pad_ok F s B d k v : holdsk F s B d k v -> exists s',
  PadAndSwitchToSqueezingPhase s = Ok s' /\ sqz F s' B (finalk B d k v) 0 0.
Proof.
  intros H. destruct (pad_queue F s B d k v H) as (w & E & L & S).
  rewrite pad_split, E. cbn [rbind].
  rewrite (extract_rate_ok _ B (finalk B d k v)); [|apply H|apply H|reflexivity|exact S|exact L].
  cbn [rbind]. eexists. split; [reflexivity|]. pose proof (k_B _ _ _ _ _ _ H) as [B0 B8 BM].
  constructor; cbn [withSqueezing withAvail withQueue withBits withState state dataQueue rate bitsAvailableForSqueezing squeezing fixedOutputLength turned Nat.iter nat_rect];
    try reflexivity; try assumption; try apply H; try lia.
  - rewrite app_length, firstn_length, skipn_length, state_len, L by assumption. unfold queue_bytes. lia.
  - rewrite firstn_app_exact; [reflexivity|]. rewrite firstn_length, state_len by assumption. lia.
  - rewrite (k_rate _ _ _ _ _ _ H). lia.
Qed.

(** ** Squeezing *)
(** Byte t of the output from state A. *)
Definition out_byte (B : nat) (A : list N) (t : nat) : N := nth (t mod B) (state_bytes (turned A (t / B))) 0.
Definition out (B : nat) (A : list N) (t n : nat) : list N := map (out_byte B A) (seq t n).
Lemma out_app B A t n m : out B A t (n + m) = out B A t n ++ out B A (t + n) m.
Proof. unfold out. now rewrite seq_app, map_app. Qed.
Lemma out_length B A t n : length (out B A t n) = n. Proof. unfold out. now rewrite map_length, seq_length. Qed.
Lemma out_piece B A b o c : (0 < B <= 200)%nat -> state_ok A -> (o + c <= B)%nat ->
  firstn c (skipn o (state_bytes (turned A b))) = out B A (b * B + o) c.
Proof.
  intros HB HA Hc. pose proof (state_len _ (turned_ok A b HA)) as L.
  apply list_ext; [rewrite out_length, firstn_length, skipn_length; lia|].
  intros i Hi. rewrite firstn_length, skipn_length, L in Hi. unfold out.
  rewrite (nth_indep (map (out_byte B A) (seq (b * B + o) c)) 0 (out_byte B A 0)) by (rewrite map_length, seq_length; lia).
  rewrite map_nth, seq_nth by lia. unfold out_byte.
  replace ((b * B + o + i) / B)%nat with b by (apply Nat.div_unique with (o + i)%nat; lia).
  replace ((b * B + o + i) mod B)%nat with (o + i)%nat by (apply Nat.mod_unique with b; lia).
  rewrite KeccakProofs6.nth_firstn, KeccakProofs6.nth_skipn. destruct (Nat.ltb_spec i c); [reflexivity|lia].
Qed.

Lemma squeeze_ok F B A L : forall fuel s b o j dst, sqz F s B A b o -> (j <= L)%nat -> (L <= length dst)%nat -> 8 * N.of_nat L < 2 ^ 64 ->
  (L - j < fuel)%nat ->
  exists s' b' o', squeeze_while fuel s dst (8 * N.of_nat L) (8 * N.of_nat j) =
    Ok (s', firstn j dst ++ out B A (b * B + o) (L - j) ++ skipn L dst) /\
    sqz F s' B A b' o' /\ (b' * B + o' = b * B + o + (L - j))%nat.
Proof.
  induction fuel as [|fuel IH]; intros s b o j dst Z HjL HL H64 Hf; [lia|].
  cbn [squeeze_while]. destruct (N.ltb_spec (8 * N.of_nat j) (8 * N.of_nat L)) as [Hj|Hj].
  2:{ assert (j = L) by lia. subst j. exists s, b, o. rewrite Nat.sub_diag. cbn [out seq map app]. unfold out. cbn [seq map app]. rewrite firstn_skipn. split; [reflexivity|]. split; [assumption|lia]. }
  pose proof (z_B _ _ _ _ _ _ Z) as [B0 B8 BM].
  (* a new block when the queue is used up *)
  assert (N : exists s1 b1 o1, (if bitsAvailableForSqueezing s =? 0 then extract_rate (withState s (KeccakPermutation (state s))) else Ok s) = Ok s1 /\
     sqz F s1 B A b1 o1 /\ (b1 * B + o1 = b * B + o)%nat /\ (o1 < B)%nat).
  { destruct Z as [RB Hr HA Hs Lq Hq Ho Ha Hsq HF]. destruct (N.eqb_spec (bitsAvailableForSqueezing s) 0) as [E|E].
    - assert (o = B) by lia. subst o.
      assert (EP : KeccakPermutation (state s) = masked (turned A (S b))).
      { unfold KeccakPermutation. rewrite Hs, run_rounds_ok by now apply turned_ok. reflexivity. }
      rewrite EP. rewrite (extract_rate_ok _ B (turned A (S b))); [|now constructor|exact Hr|reflexivity|now apply turned_ok|exact Lq].
      eexists. exists (S b), 0%nat. split; [reflexivity|]. split; [|lia].
      assert (LS : length (state_bytes (turned A (S b))) = 200%nat) by (apply state_len; now apply turned_ok).
      constructor; cbn [withAvail withQueue withState state dataQueue rate bitsAvailableForSqueezing squeezing fixedOutputLength]; try assumption; try reflexivity; try lia.
      + rewrite app_length, firstn_length, skipn_length, Lq, LS. unfold queue_bytes. lia.
      + rewrite firstn_app_exact; [reflexivity|]. rewrite firstn_length, LS. lia.
    - exists s, b, o. split; [reflexivity|]. split; [now constructor|lia]. }
  destruct N as (s1 & b1 & o1 & E1 & Z1 & T1 & O1). rewrite E1. cbn [rbind]. clear Z E1.
  pose proof Z1 as [RB Hr HA Hs Lq Hq Ho Ha Hsq HF]. set (c := Nat.min (B - o1) (L - j)).
  assert (Ec : (if 8 * N.of_nat L - 8 * N.of_nat j <? bitsAvailableForSqueezing s1 then wrap 32 (8 * N.of_nat L - 8 * N.of_nat j) else bitsAvailableForSqueezing s1) = 8 * N.of_nat c).
  { rewrite Ha. destruct (N.ltb_spec (8 * N.of_nat L - 8 * N.of_nat j) (8 * N.of_nat (B - o1))).
    - rewrite wrap_small by (change (2 ^ 32) with 4294967296; lia). unfold c. lia.
    - unfold c. lia. }
  rewrite Ec, Ha, Hr. replace ((8 * N.of_nat B - 8 * N.of_nat (B - o1)) / 8) with (N.of_nat o1) by (apply N.div_unique with 0; lia).
  rewrite !div8. rewrite memcpy_ok; [|unfold c; lia|rewrite Lq; unfold queue_bytes; unfold c; lia]. cbn [rbind].
  replace (add64 (8 * N.of_nat j) (8 * N.of_nat c)) with (8 * N.of_nat (j + c)).
  2:{ unfold add64, addw. rewrite wrap_small; [lia|]. unfold c. lia. }
  assert (EO : firstn c (skipn o1 (dataQueue s1)) = out B A (b1 * B + o1) c).
  { rewrite <- out_piece by (assumption || unfold c; lia).
    assert (X : forall l : list N, firstn c (skipn o1 l) = firstn c (skipn o1 (firstn B l))).
    { intros l. rewrite skipn_firstn_comm, firstn_firstn, Nat.min_l by (unfold c; lia). reflexivity. }
    rewrite (X (dataQueue s1)), Hq, <- X. reflexivity. }
  rewrite EO. set (dst' := firstn j dst ++ out B A (b1 * B + o1) c ++ skipn (j + c) dst).
  assert (Z2 : sqz F (withAvail s1 (8 * N.of_nat (B - o1) - 8 * N.of_nat c)) B A b1 (o1 + c)).
  { constructor; cbn [withAvail state dataQueue rate bitsAvailableForSqueezing squeezing fixedOutputLength]; try assumption; unfold c; lia. }
  assert (Ld : length dst' = length dst).
  { unfold dst'. rewrite !app_length, firstn_length, skipn_length, out_length. unfold c. lia. }
  destruct (IH _ b1 (o1 + c)%nat (j + c)%nat dst' Z2) as (s' & b' & o' & E2 & Z3 & T2); try (unfold c; lia).
  exists s', b', o'. rewrite E2. split; [|split; [assumption|unfold c in *; lia]]. do 2 f_equal.
  assert (Lj : length (firstn j dst) = j) by (rewrite firstn_length; lia).
  assert (P1 : firstn (j + c) dst' = firstn j dst ++ out B A (b1 * B + o1) c).
  { unfold dst'. rewrite app_assoc. apply firstn_app_exact. rewrite app_length, out_length. lia. }
  assert (P2 : skipn L dst' = skipn L dst).
  { unfold dst'. rewrite app_assoc. replace L with ((j + c) + (L - (j + c)))%nat by (unfold c; lia). rewrite !(skipn_add (j + c) (L - (j + c))).
    rewrite (skipn_app_exact (j + c)) by (rewrite app_length, out_length; lia). reflexivity. }
  rewrite P1, P2, <- app_assoc. f_equal. rewrite app_assoc. f_equal. rewrite Nat.add_assoc, T1.
  rewrite <- out_app. f_equal. unfold c. lia.
Qed.
(** The spec's squeezing gives the same stream. *)
Lemma squeeze_out B fuel : (0 < B <= 200)%nat -> forall A b d, state_ok A -> (d <= fuel)%nat -> squeeze fuel 24 B d (turned A b) = out B A (b * B) d.
Proof.
  intros HB. induction fuel as [|fuel IH]; intros A b d HA Hd.
  - assert (d = 0%nat) by lia. subst d. reflexivity.
  - cbn [squeeze]. destruct (Nat.leb_spec d B) as [E|E].
    + rewrite <- (Nat.add_0_r (b * B)), <- out_piece by (assumption || lia). now rewrite skipn_O.
    + change (keccak_f 24 (turned A b)) with (turned A (S b)). rewrite IH by (assumption || lia).
      replace d with (B + (d - B))%nat at 2 by lia. rewrite out_app. f_equal.
      * rewrite <- (Nat.add_0_r (b * B)), <- out_piece by (assumption || lia). now rewrite skipn_O.
      * f_equal. cbn. lia.
Qed.
