(** Goroutines that call Hashf: keys joined. *)
From Coq Require Import NArith ZArith List Arith Lia String.
From Verif Require Import Words WordLemmas ListLemmas Mem Blocks KeccakModel KeccakSpec KeccakProofs3 KeccakProofs4 KeccakProofs5 KeccakHist KeccakProps
  Mm3Model Mm3Spec Mm3Proofs HashfModel HashfSpec HashfProofs ConcModel ConcSpec ConcProofs ConcProofs2.
Import ListNotations.
Open Scope N_scope.

Lemma joined_ext e grow name w k0 seed0 k1 seed1 n dg get put c d :
  hashf_code e grow name k0 seed0 = via_ext grow k0 n dg get put -> hashf_code e grow name k1 seed1 = via_ext grow k1 n dg get put ->
  (forall w m fp, mem (put w m fp) = m /\ get (put w m fp) = fp) ->
  world_ok w -> In (get w) (fps w) -> fp_ok (mem w) c (get w) ->
  d = dg (read (mem w) k0 ++ read (mem w) k1) -> bytes_ok d -> (8 <= length d <= c)%nat ->
  exists s t1, conc_run e grow [0; 1; 0; 0; 1; 1; 0; 1; 0; 0; 0]%nat (conc_start name w) (threads [[THash k0 seed0]; [THash k1 seed1]]) =
    Ok (s, [mkThread [] None [top8 d]; t1]).
Proof.
  intros E0 E1 L2 O I F Ed Hd Ld. destruct (append_fp grow w c (get w) d O I F Hd ltac:(lia)) as (Ea & Rd & _). subst d.
  do 2 eexists. unfold threads. cbn [map].
  turn ltac:(cbn [hf2 conc_start]; rewrite E0; cbn [via_ext app]). turn ltac:(cbn [hf2 conc_start]; rewrite E1; cbn [via_ext app]).
  do 6 turn ltac:(unfold assign; cbn [rbind]).
  turn ltac:(unfold assign; rewrite !set_acc_same; cbn [vars set_acc set_vars conc_start app rbind]; rewrite ?(proj1 (L2 _ _ _)), ?(proj2 (L2 _ _ _));
    change (upto (upto (get w) 0) 0) with (upto (get w) 0); rewrite Ea).
  turn ltac:(unfold look; cbn [vars set_acc set_vars]; rewrite (proj1 (L2 _ _ _)), (proj2 (L2 _ _ _)), Rd, be8_ok by (assumption || lia); cbn [rbind]).
  turn idtac. cbn [app reg nth conc_run]. reflexivity.
Qed.
Lemma joined_sha1 e grow w k0 seed0 k1 seed1 d :
  world_ok w -> d = sha1 e (read (mem w) k0 ++ read (mem w) k1) -> bytes_ok d -> (8 <= length d <= 20)%nat ->
  exists s t1, conc_run e grow [0; 1; 0; 1; 0; 1; 0; 0; 0; 0]%nat (conc_start "sha1" w) (threads [[THash k0 seed0]; [THash k1 seed1]]) =
    Ok (s, [mkThread [] None [top8 d]; t1]).
Proof.
  intros O Ed Hd Ld. destruct (append_fp grow w 20 (fp20 w) d O ltac:(cbn; auto) (o_20 w O) Hd ltac:(lia)) as (Ea & Rd & _). subst d.
  do 2 eexists. unfold threads. cbn [map].
  turn ltac:(cbn [hf2 conc_start hashf_code String.eqb Ascii.eqb Bool.eqb via_sha1 app]). turn ltac:(cbn [hf2 conc_start hashf_code String.eqb Ascii.eqb Bool.eqb via_sha1 app]).
  do 5 turn ltac:(unfold assign; cbn [rbind]).
  turn ltac:(unfold assign; cbn [vars set_acc set_vars conc_start app rbind acc String.eqb Ascii.eqb Bool.eqb mem fp20 set_mem_fp20]; rewrite Ea).
  turn ltac:(unfold look; cbn [vars set_acc set_vars mem fp20 set_mem_fp20]; rewrite Rd, be8_ok by (assumption || lia); cbn [rbind]).
  turn idtac. reflexivity.
Qed.
Lemma joined_adler e grow w k0 seed0 k1 seed1 :
  exists s t1, conc_run e grow [0; 1; 0; 1; 0; 1; 0; 0]%nat (conc_start "adler32" w) (threads [[THash k0 seed0]; [THash k1 seed1]]) =
    Ok (s, [mkThread [] None [adler32 e (read (mem w) k0 ++ read (mem w) k1)]; t1]).
Proof.
  do 2 eexists. unfold threads. cbn [map].
  do 2 turn ltac:(cbn [hf2 conc_start hashf_code String.eqb Ascii.eqb Bool.eqb app]). do 6 turn idtac. reflexivity.
Qed.
Lemma joined_m332 e grow w k0 seed0 k1 seed1 : world_ok w ->
  exists s t1, conc_run e grow [0; 1; 0; 1; 0; 1; 0; 0]%nat (conc_start "murmur332" w) (threads [[THash k0 seed0]; [THash k1 seed1]]) =
    Ok (s, [mkThread [] None [murmur3_x86_32 (read (mem w) k0 ++ read (mem w) k1)]; t1]).
Proof.
  intros O. pose proof (read_ok (mem w) k0 (o_mem w O)) as B0. pose proof (read_ok (mem w) k1 (o_mem w O)) as B1.
  destruct (o_m332 w O) as [x Hx]. apply mm_reset_inv in Hx; [|lia]. apply mm_reset_inv in Hx; [|lia].
  apply (mm_write_inv 4 mm32_block 0 _ _ (read (mem w) k0)) in Hx; [|lia]. destruct Hx as [Hx _].
  apply (mm_write_inv 4 mm32_block 0 _ _ (read (mem w) k1)) in Hx; [|lia]. destruct Hx as [Hx _]. cbn [app] in Hx.
  apply mm_sum32_inv in Hx. rewrite mm_sum32_reference in Hx by (apply Forall_app; auto).
  do 2 eexists. unfold threads. cbn [map].
  do 2 turn ltac:(cbn [hf2 conc_start hashf_code String.eqb Ascii.eqb Bool.eqb app]).
  do 4 turn ltac:(unfold assign; cbn [vars conc_start set_vars mem set_m332 m332]).
  turn ltac:(unfold look; cbn [vars conc_start set_vars mem set_m332 m332]; unfold mm_write32 at 1 2; rewrite Hx; cbn [rbind]).
  turn idtac. reflexivity.
Qed.
Lemma joined_m364 e grow w k0 seed0 k1 seed1 : world_ok w ->
  exists s t1, conc_run e grow [0; 1; 0; 1; 0; 1; 0; 0]%nat (conc_start "murmur364" w) (threads [[THash k0 seed0]; [THash k1 seed1]]) =
    Ok (s, [mkThread [] None [fst (murmur3_x64_128 (read (mem w) k0 ++ read (mem w) k1))]; t1]).
Proof.
  intros O. pose proof (read_ok (mem w) k0 (o_mem w O)) as B0. pose proof (read_ok (mem w) k1 (o_mem w O)) as B1.
  destruct (o_m364 w O) as [x Hx]. apply mm_reset_inv in Hx; [|lia]. apply mm_reset_inv in Hx; [|lia].
  apply (mm_write_inv 16 mm128_block (0, 0) _ _ (read (mem w) k0)) in Hx; [|lia]. destruct Hx as [Hx _].
  apply (mm_write_inv 16 mm128_block (0, 0) _ _ (read (mem w) k1)) in Hx; [|lia]. destruct Hx as [Hx _]. cbn [app] in Hx.
  apply mm_sum128_inv in Hx. rewrite mm_sum128_reference in Hx by (apply Forall_app; auto).
  do 2 eexists. unfold threads. cbn [map].
  do 2 turn ltac:(cbn [hf2 conc_start hashf_code String.eqb Ascii.eqb Bool.eqb app]).
  do 4 turn ltac:(unfold assign; cbn [vars conc_start set_vars mem set_m364 m364]).
  turn ltac:(unfold look; cbn [vars conc_start set_vars mem set_m364 m364]; unfold mm_dsum64; unfold mm_write128 at 1 2; rewrite Hx; cbn [rbind]).
  turn idtac. reflexivity.
Qed.

(** ** A keccakpg object keeps a slice of the first key and appends the second to it *)
Lemma keccak_second grow h d k0 k1 B nr : valid d B nr -> length (S_ d) = 25%nat -> heap_ok h -> wf h k0 -> wf h k1 ->
  (0 < len k0)%nat -> (len k0 + len k1 < B)%nat -> (len k0 + len k1 <= cap k0)%nat ->
  let h1 := store h (arr k0) (off k0 + len k0) (read h k1) in
  exists d1 d2, Write grow (S (len k0)) h (Reset d) k0 = Ok (h, d1, len k0) /\ Write grow (S (len k1)) h d1 k1 = Ok (h1, d2, len k1) /\
    holds h1 d2 B nr (read h k0 ++ read h k1) /\ heap_ok h1 /\ size d2 = size d.
Proof.
  intros V L Hh W0 W1 P Hb Hc h1. pose proof (v_pos _ _ _ V) as Bp.
  destruct (append grow h (buf (Reset d)) (firstn (room B (Reset d) k0) (read h k0))) as [hx nx] eqn:Ex.
  destruct (Write_core grow (S (len k0)) h (Reset d) k0 B nr [] hx nx (Reset_holds h d B nr V L) Hh W0 ltac:(lia) Ex) as (h' & d1 & E1 & H1 & _ & Sz1 & _ & Same & _ & Bf).
  { cbn [buf Reset len nil_slice]. lia. }
  rewrite (Same eq_refl) in *. clear h' Same. cbn [app] in H1. pose proof (read_length h k0 W0) as L0. pose proof (read_length h k1 W1) as L1.
  assert (Lb : len (buf d1) = len k0).
  { rewrite <- (read_length h (buf d1)) by apply H1. rewrite (h_rest _ _ _ _ _ H1). unfold absorbed. rewrite absorb_short by lia. exact L0. }
  assert (Eb : buf d1 = mkSlice (arr k0) (off k0) (len k0) (cap k0)).
  { destruct Bf as [(y & Hy & Eb & Ly)|[[Q _] _]]; [|cbn [Reset buf len nil_slice] in Q; lia]. assert (y = 0%nat) as -> by lia. rewrite Eb. unfold from. f_equal; lia. }
  assert (Er : room B d1 k1 = len k1) by (unfold room; lia).
  assert (Ea : append grow h (buf d1) (firstn (room B d1 k1) (read h k1)) = (h1, mkSlice (arr k0) (off k0) (len k0 + len k1) (cap k0))).
  { rewrite Er, firstn_all2 by lia. unfold append. rewrite Eb. cbn [len cap arr off]. rewrite L1, (proj2 (Nat.leb_le _ _)) by lia. reflexivity. }
  destruct (Write_core grow (S (len k1)) h d1 k1 B nr (read h k0) h1 _ H1 Hh W1 ltac:(lia) Ea) as (h' & d2 & E2 & H2 & Hh2 & Sz2 & _ & _ & Same & _).
  { intros _. rewrite Er, skipn_all2 by lia. unfold read. cbn [len from]. now rewrite Nat.sub_diag. }
  rewrite (Same ltac:(lia)) in *. exists d1, d2. split; [exact E1|]. split; [exact E2|]. split; [exact H2|]. split; [exact Hh2|]. rewrite Sz2, Sz1. reflexivity.
Qed.
Lemma joined_pg e grow name w k0 seed0 k1 seed1 get put getd putd c bits r q :
  hashf_code e grow name k0 seed0 = via_pg grow k0 get put getd putd -> hashf_code e grow name k1 seed1 = via_pg grow k1 get put getd putd ->
  (forall w m fp, mem (put w m fp) = m /\ get (put w m fp) = fp /\ getd (put w m fp) = getd w) ->
  (forall w d, mem (putd w d) = mem w /\ get (putd w d) = get w /\ getd (putd w d) = d) ->
  (forall w m, get (withMem w m) = get w) ->
  world_ok w -> In (get w) (fps w) -> fp_ok (mem w) c (get w) -> usual bits r q -> digest_of bits r (getd w) -> (8 <= 4 * q <= c)%nat ->
  key_ok w k0 seed0 -> key_ok w k1 seed1 ->
  (0 < len k0)%nat -> (len k0 + len k1 < rate q)%nat -> (len k0 + len k1 <= cap k0)%nat ->
  exists s t1, conc_run e grow [0; 1; 0; 0; 1; 1; 0; 1; 0; 0; 0]%nat (conc_start name w) (threads [[THash k0 seed0]; [THash k1 seed1]]) =
    Ok (s, [mkThread [] None [top8 (hash r q (read (mem w) k0 ++ read (mem w) k1))]; t1]) /\
    array (mem (vars s)) (arr k0) = array (store (mem w) (arr k0) (off k0 + len k0) (read (mem w) k1)) (arr k0).
Proof.
  intros E0 E1 L1 L2 Lg O I F U D Q K0 K1 P Hb Hc.
  assert (M : forall w m fp, mem (put w m fp) = m) by (intros; apply L1). assert (G : forall w m fp, get (put w m fp) = fp) by (intros; apply L1).
  assert (Dd : forall w m fp, getd (put w m fp) = getd w) by (intros; apply L1).
  assert (M' : forall w d, mem (putd w d) = mem w) by (intros; apply L2). assert (G' : forall w d, get (putd w d) = get w) by (intros; apply L2).
  assert (D' : forall w d, getd (putd w d) = d) by (intros; apply L2).
  destruct (usual_valid bits r q _ U D) as [V Sz].
  destruct (keccak_second grow (mem w) (Reset (getd w)) k0 k1 (rate q) (Z.to_nat r)) as (d1 & d2 & W1 & W2 & H2 & Hh & Sz2);
    [destruct V; constructor; assumption|cbn [Reset S_]; rewrite map_length; apply D|apply O|apply K0|apply K1|assumption..|].
  set (h1 := store (mem w) (arr k0) (off k0 + len k0) (read (mem w) k1)) in *.
  destruct U as (U1 & U2 & U3).
  assert (V24 : (Z.to_nat r <= 24)%nat) by apply V.
  set (data := read (mem w) k0 ++ read (mem w) k1) in *.
  assert (Kb : bytes_ok data) by apply (h_bytes _ _ _ _ _ H2).
  destruct (hash_bytes r q data U2 V24 Kb) as [Hl Hbb].
  destruct (ko_wf _ _ _ K0) as (Wa & Wb & Wc). assert (A0 : (arr k0 < length (mem w))%nat) by lia.
  pose proof (read_length (mem w) k1 (ko_wf _ _ _ K1)) as Lr1.
  assert (Ln : forall b, length (array h1 b) = length (array (mem w) b)) by (intros b; apply store_array_length; lia).
  assert (Lh : length h1 = length (mem w)) by apply store_length.
  assert (Fk : forall c s, fp_ok (mem w) c s -> fp_ok h1 c s).
  { intros c' s ((X1 & X2 & X3) & X4 & X5). repeat split; rewrite ?Ln, ?Lh; assumption. }
  assert (O1 : world_ok (withMem w h1)).
  { destruct O. constructor; cbn [withMem mem fp8 fp20 fp28 fp32 fp64 k643 k644 k648 k160 m332 m364]; auto. }
  destruct (append_fp grow (withMem w h1) c (get w) (hash r q data) O1 I (Fk _ _ F) Hbb ltac:(lia)) as (E' & R & K & H & F'). cbn [withMem mem] in E', R, K.
  assert (Sk : Sum grow h1 d2 (upto (get w) 0) = Ok (append grow h1 (upto (get w) 0) (hash r q data))).
  { rewrite hash_final by assumption. apply (Sum_ok grow h1 d2 (rate q) (Z.to_nat r) data); auto; [|lia]. rewrite Sz2. exact Sz. }
  do 2 eexists. split.
  - unfold threads. cbn [map].
    turn ltac:(cbn [hf2 conc_start]; rewrite E0; cbn [via_pg app]). turn ltac:(cbn [hf2 conc_start]; rewrite E1; cbn [via_pg app]).
    do 4 turn ltac:(unfold assign; cbn [rbind vars conc_start set_vars]).
    turn ltac:(unfold change; cbn [vars set_vars conc_start]; rewrite ?M', ?D', ?G', ?M, ?Dd, ?D', ?G, W1; cbn [rbind]).
    turn ltac:(unfold change; cbn [vars set_vars conc_start]; rewrite ?D', ?M', ?M, ?G', ?G, W2; cbn [rbind]).
    turn ltac:(unfold change; cbn [vars set_vars conc_start]; rewrite ?D', ?M', ?G', ?M, ?G, ?G', ?G; change (upto (upto (get w) 0) 0) with (upto (get w) 0); rewrite Sk, E'; cbn [rbind]).
    turn ltac:(unfold look; cbn [vars set_vars conc_start]; rewrite M, G, R, be8_ok by (assumption || lia); cbn [rbind]).
    turn idtac. cbn [app reg nth conc_run]. reflexivity.
  - cbn [vars set_vars]. rewrite M. apply array_store_other. intros Ef. destruct (ko_apart _ _ _ K0) as [Hz|Hz]; [lia|]. apply Hz. rewrite Ef. now apply in_map.
Qed.
