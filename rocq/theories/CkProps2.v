(** Property C85: the C functions under package keccak, on bit strings. *)
From Coq Require Import NArith ZArith List Arith Lia.
From Verif Require Import Words WordLemmas ListLemmas Mem Bij Blocks KeccakSpec KeccakProofs KeccakProofs3 KeccakProofs4 CkProg CkModel CkRounds CkProofs CkProofs2 CkProofs3 CkProofs4 CkBitSpec CkBits CkBits2.
Import ListNotations.
Open Scope N_scope.
Strategy 1000 [rounds24].

(** ** C85 *)
(** The rate in bits for each length that may be asked for. *)
Definition lengths : list (N * nat) := [(0, 1024%nat); (224, 1152%nat); (256, 1088%nat); (384, 832%nat); (512, 576%nat)].

(** Bits in, output in pieces: whatever the state held before Init. *)
Theorem c85_bit_strings fuel s0 h r ops : In (h, r) lengths -> (4 <= fuel)%nat -> Forall (cop_ok fuel h) ops ->
  snd (Init s0 h) = 0 /\ c_run fuel (fst (Init s0 h)) ops = sponge_calls r h [] None ops.
Proof.
  intros HI Hf HO.
  assert (Go : forall r c B, InitSponge r c <> None -> r = 8 * N.of_nat B ->
    c_run fuel (withFixed (match InitSponge r c with Some s => s | None => s0 end) h) ops = sponge_calls (8 * B) h [] None ops).
  { intros r0 c B Hn Hr. apply c_run_ok; [assumption| |assumption]. exists [], 0, 0. split; [reflexivity|]. apply holds_k. destruct (InitSponge r0 c) as [s1|] eqn:E; [|contradiction].
    apply withFixed_ok with (F := 0). now apply (InitSponge_ok r0 c). }
  cbn [In lengths] in HI. destruct HI as [E|[E|[E|[E|[E|[]]]]]]; injection E as <- <-; (split; [reflexivity|]); unfold Init; cbn [fst N.eqb Pos.eqb].
  - apply (Go _ _ 128%nat); (reflexivity || discriminate).
  - apply (Go _ _ 144%nat); (reflexivity || discriminate).
  - apply (Go _ _ 136%nat); (reflexivity || discriminate).
  - apply (Go _ _ 104%nat); (reflexivity || discriminate).
  - apply (Go _ _ 72%nat); (reflexivity || discriminate).
Qed.
(** Any other length is an error and leaves the state alone. *)
Theorem c85_bad_length s0 h : ~ In h (map fst lengths) <-> Init s0 h = (s0, 2).
Proof.
  cbn [map fst lengths In]. unfold Init.
  destruct (N.eqb_spec h 0); [subst; split; [intros H; exfalso; apply H; auto|discriminate]|].
  destruct (N.eqb_spec h 224); [subst; split; [intros H; exfalso; apply H; auto|discriminate]|].
  destruct (N.eqb_spec h 256); [subst; split; [intros H; exfalso; apply H; auto|discriminate]|].
  destruct (N.eqb_spec h 384); [subst; split; [intros H; exfalso; apply H; auto|discriminate]|].
  destruct (N.eqb_spec h 512); [subst; split; [intros H; exfalso; apply H; auto 6|discriminate]|].
  split; [reflexivity|]. intros _ H. intuition congruence.
Qed.
(** InitSponge: any rate that is a multiple of 64, the capacity making it up to 1600. *)
Theorem c85_any_rate fuel r c ops : r < 2 ^ 32 -> c < 2 ^ 32 -> (4 <= fuel)%nat -> Forall (cop_ok fuel 0) ops ->
  match InitSponge r c with
  | Some s => 0 < r < 1600 /\ r mod 64 = 0 /\ r + c = 1600 /\ c_run fuel s ops = sponge_calls (N.to_nat r) 0 [] None ops
  | None => ~ (0 < r < 1600 /\ r mod 64 = 0 /\ r + c = 1600)
  end.
Proof.
  intros Hr Hc Hf HO. change (2 ^ 32) with 4294967296 in *. destruct (InitSponge r c) as [s|] eqn:E.
  - pose proof E as E'. revert E'. unfold InitSponge. destruct (N.eqb_spec (add32 r c) 1600) as [Ea|]; [|discriminate]. cbn [negb].
    destruct (N.leb_spec r 0); [discriminate|]. destruct (N.leb_spec 1600 r); [discriminate|]. destruct (N.eqb_spec (r mod 64) 0) as [E64|]; [|discriminate]. intros _.
    assert (A : r + c = 1600).
    { unfold add32, addw, wrap in Ea. rewrite N.land_ones in Ea. change (2 ^ 32) with 4294967296 in Ea.
      pose proof (N.div_mod (r + c) 4294967296 ltac:(discriminate)) as D. rewrite Ea in D.
      set (q := (r + c) / 4294967296) in *. clearbody q. clear - D H H0 Hr Hc. lia. }
    split; [now split|]. do 2 (split; [assumption|]).
    assert (E8 : r = 8 * N.of_nat (N.to_nat (r / 8))).
    { rewrite N2Nat.id. apply N.div_exact; [discriminate|]. apply N.mod_divide; [discriminate|]. apply N.divide_trans with 64; [now exists 8|]. now apply N.mod_divide. }
    replace (N.to_nat r) with (8 * N.to_nat (r / 8))%nat by (rewrite E8 at 2; clear; lia). apply c_run_ok; [assumption| |assumption].
    exists [], 0, 0. split; [reflexivity|]. apply holds_k. now apply (InitSponge_ok r c).
  - intros (H & H64 & Hs). revert E. unfold InitSponge.
    assert (Ea : add32 r c = 1600) by (unfold add32, addw; rewrite wrap_small; [exact Hs|rewrite Hs; reflexivity]).
    rewrite Ea, H64. change (negb (1600 =? 1600)) with false. cbn iota. destruct (N.leb_spec r 0); [lia|]. destruct (N.leb_spec 1600 r); [lia|]. discriminate.
Qed.
(** On whole bytes the sponge on bits is the sponge on bytes used in C81. *)
Theorem c85_whole_bytes B n m : (0 < B <= 192)%nat -> (B mod 8 = 0)%nat -> bytes_ok m -> (n <= B)%nat ->
  bit_sponge (8 * B) n (bits_of m) = sponge 24 B n m.
Proof.
  intros HB H8 Hm Hn. assert (RB : rate_ok B) by (constructor; lia).
  pose proof (sponge_bits B m 0 0 n RB Hm ltac:(reflexivity) ltac:(reflexivity)) as E. change (low_bits (N.to_nat 0) 0) with (@nil bool) in E. rewrite app_nil_r in E.
  rewrite E, finalk_0, sponge_final by lia. destruct n; cbn [squeeze]; [now destruct (Nat.leb 0 B)|]. destruct (Nat.leb_spec (S n) B); [reflexivity|lia].
Qed.

Print Assumptions c85_bit_strings.
Print Assumptions c85_bad_length.
Print Assumptions c85_any_rate.
Print Assumptions c85_whole_bytes.

(** Five bits: the published value of Keccak-224 (Len = 5, Msg = 48). *)
Example c85_published :
  c_run 40 (fst (Init zero_state 224)) [CUpdate [0x48] 5; CFinal (repeat 0 28%nat)] =
  [CReturned 0; CSqueezed 0 [0xE4;0x38;0x40;0x16;0xD6;0x46;0x10;0xD7;0x5E;0x0A;0x5D;0x73;0x82;0x1A;0x02;0xD5;0x24;0xF8;0x47;0xA2;0x5A;0x57;0x1B;0x59;0x40;0xCD;0x64;0x50]].
Proof. vm_compute. reflexivity. Qed.
(** A partial byte, a refused Update, a refused length, 150 bytes, 10 more, a refused Update. *)
Definition some_calls : list cop :=
  [CUpdate [1; 2] 16; CUpdate [7; 128] 9; CUpdate [3] 8; CSqueeze [9; 9] 12; CSqueeze (repeat 5 152%nat) 1200; CSqueeze (repeat 5 12%nat) 80; CUpdate [] 0].
Definition seen (c : cout) : N * list N := match c with CReturned r => (r, []) | CSqueezed r o => (r, firstn 3 o ++ skipn (length o - 3) o) | CFails => (99, []) end.
Example c85_nonvacuous :
  In (0, 1024%nat) lengths /\ Forall (cop_ok 160 0) some_calls /\
  map seen (sponge_calls 1024 0 [] None some_calls) =
  map seen (c_run 160 (fst (Init zero_state 0)) some_calls) /\
  map fst (map seen (c_run 160 (fst (Init zero_state 0)) some_calls)) = [0; 0; 1; 1; 0; 0; 1].
Proof.
  split; [left; reflexivity|]. split.
  - unfold some_calls. repeat constructor; vm_compute; repeat (reflexivity || constructor || discriminate).
  - split; vm_compute; reflexivity.
Qed.
Example c85_any_rate_nonvacuous : InitSponge 64 1536 <> None /\ InitSponge 1600 0 = None /\ InitSponge 100 1500 = None.
Proof. repeat split; discriminate. Qed.
Example c85_whole_bytes_nonvacuous : bit_sponge (8 * 136) 4 (bits_of []) = [0xC5; 0xD2; 0x46; 0x01].
Proof. vm_compute. reflexivity. Qed.
