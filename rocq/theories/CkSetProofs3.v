(** Proofs about package keccak under other build settings: absorbing a block and extracting. *)
From Coq Require Import ZArith Bool.
From Verif Require Import Words WordLemmas ListLemmas Mem SLP Bij Mm3Spec Mm3Proofs KeccakSpec KeccakProofs KeccakProofs2 KeccakProofs3 KeccakProofs4 CkProg CkRounds CkModel CkProofs CkVecModel CkSetProg CkSetRounds CkSetModel CkSetProofs CkSetProofs2.
From Verif Require KeccakModel KeccakProofs6.
Open Scope N_scope.
Strategy 1000 [rounds24 plain_round plain_last thetaRhoPiChiIotaPrepareTheta thetaRhoPiChiIota v64_round v64_last v128_round].

(** Settings that a compiler accepts and a machine offers. *)
Record valid (S : settings) : Prop := {
  v_unroll : In (s_unrolling S) unrollings;
  v_big : s_big S = true -> exists b, s_simd S = Scalar b;
  v_align : s_simd S = SSE128 -> s_state16 S = true;
  v_junk : forall i, fits 64 (fst (s_junk S i)) /\ fits 64 (snd (s_junk S i)) }.
Definition view (S : settings) (s : list N) : list N := if complementing S then masked s else s.
Definition widths : list N := [0; 576; 832; 1024; 1088; 1152; 1344].

Lemma xor_words_ok n s d : state_ok s -> Forall (fits 64) d -> state_ok (xor_words n s d).
Proof.
  intros [L F] D. split; [unfold xor_words; now rewrite map_length, seq_length|]. apply Forall_forall. intros x Hx. apply in_map_iff in Hx.
  destruct Hx as (i & <- & _). destruct (Nat.ltb i n); [apply xor_fits'|]; now apply nth_fits.
Qed.
Lemma xor_words_0 s d : length s = 25%nat -> xor_words 0 s d = s.
Proof. intros L. explode 25%nat s. reflexivity. Qed.
Lemma masked_xor_words n s d : masked (xor_words n s d) = xor_words n (masked s) d.
Proof.
  apply list_ext; [rewrite flipl_length; unfold xor_words; now rewrite map_length, seq_length|]. intros i Hi. rewrite flipl_length in Hi.
  unfold xor_words. rewrite nth_flipl, !nth_map_seq, nth_flipl by assumption. unfold xor. destruct (Nat.ltb i n); [|reflexivity].
  destruct (existsb (Nat.eqb i) lanesA); [now rewrite not_l|reflexivity].
Qed.
Lemma pattern_ok bits : In bits widths -> pattern bits = map (fun i => Nat.ltb i (as_words bits)) (seq 0 25).
Proof. intros H. cbn in H. intuition (subst; reflexivity). Qed.
Lemma words_read_ok S bits : In bits widths -> words_read S bits = as_words bits.
Proof. intros H. unfold words_read. cbn in H. destruct (s_simd S); intuition (subst; reflexivity). Qed.
Lemma load64_ok bits m : In bits widths -> lanes64 0 (run64 (CkSetModel.load64 bits) m) = xor_words (as_words bits) (vstate m) (vinput m).
Proof. intros H. destruct (v64_loads m) as (A & B & C & D & E & F & G). cbn in H. intuition (subst; assumption). Qed.
Lemma load64_low bits : In bits widths -> low_prog (CkSetModel.load64 bits) = true.
Proof. intros H. cbn in H. intuition (subst; reflexivity). Qed.
Lemma load128_ok bits m : In bits widths -> loaded (load128 bits) (as_words bits) m.
Proof. intros H. destruct (v128_loads m) as (A & B & C & D & E & F & G). cbn in H. intuition (subst; assumption). Qed.
Lemma load128_aligned bits : In bits widths -> paligned true false (load128 bits ++ v128_store 0) = true /\ paligned false false (load128 bits ++ v128_store 0) = false.
Proof. intros H. cbn in H. intuition (subst; reflexivity). Qed.
(** The aligned loads of an expression and of a program; KeccakF-1600-opt64.c:67-78 (LOAD128). *)
Fixpoint aligned_loads (e : vexp) : list (arr * nat) :=
  match e with
  | VMem128 true a i => [(a, i)]
  | VXor x y | VAndn x y | VLo x y | VHi x y => aligned_loads x ++ aligned_loads y
  | VRol x _ | VHi2Lo x => aligned_loads x
  | _ => []
  end.
Definition loads_of (p : vprog) : list (arr * nat) :=
  flat_map (fun s => match s with VSet _ e | VStore _ e => aligned_loads e | VStoreHalf _ _ _ => [] end) p.
(** An address divisible by 16: the array starts at one and the index of the word is even. *)
Definition at16 (als ali : bool) (l : arr * nat) : Prop := match fst l with MState => als | MInput => ali end = true /\ Nat.even (snd l) = true.
Lemma aligned_iff als ali e : aligned als ali e = true <-> Forall (at16 als ali) (aligned_loads e).
Proof.
  induction e; cbn [aligned aligned_loads]; rewrite ?Forall_app, ?andb_true_iff, ?IHe1, ?IHe2, ?IHe; try tauto; try (split; auto; fail).
  match goal with |- context [if ?b then _ else _] => destruct b end; [|split; auto].
  rewrite ?andb_true_iff. unfold at16. split; [intros H; constructor; [exact H|constructor]|intros H; now apply Forall_inv in H].
Qed.
Theorem paligned_iff als ali p : paligned als ali p = true <-> Forall (at16 als ali) (loads_of p).
Proof.
  unfold paligned, loads_of. induction p as [|s p IH]; cbn [forallb flat_map]; [split; auto|].
  rewrite andb_true_iff, Forall_app, IH. destruct s; rewrite ?aligned_iff; try tauto. split; intros [_ H]; auto.
Qed.

Theorem permute_ok S bits s input : valid S -> In bits widths -> state_ok s -> Forall (fits 64) input ->
  permute S bits (view S s) input = Ok (view S (keccak_f 24 (xor_words (as_words bits) s input))).
Proof.
  intros V Hb Hs Hi. pose proof (xor_words_ok (as_words bits) s input Hs Hi) as Hx. destruct V as [VU _ VA VJ]. unfold permute, view, complementing in *.
  destruct (s_simd S) as [b| | |] eqn:Q.
  - assert (LJ : regs_ok 64 60 (map (fun i => fst (s_junk S i)) (seq 0 60))).
    { split; [now rewrite map_length, seq_length|]. apply Forall_forall. intros x X. apply in_map_iff in X. destruct X as (i & <- & _). apply VJ. }
    assert (EL : forall t, map (fun i => if nth i (pattern bits) false then xor (nth i t 0) (nth i input 0) else nth i t 0) (seq 0 25) = xor_words (as_words bits) t input).
    { intros t. rewrite pattern_ok by assumption. apply map_ext_in. intros i X. apply in_seq in X.
      rewrite (nth_indep _ false ((fun i => Nat.ltb i (as_words bits)) 0%nat)) by (rewrite map_length, seq_length; lia).
      rewrite (map_nth (fun i => Nat.ltb i (as_words bits)) (seq 0 25) 0%nat i), seq_nth by lia. reflexivity. }
    rewrite EL. destruct b.
    + rewrite <- masked_xor_words. destruct (bebi_rounds (s_unrolling S) _ _ VU Hx LJ) as (m & E & F). rewrite E. cbn [rbind]. now rewrite F.
    + destruct (plain_rounds (s_unrolling S) _ _ VU Hx LJ) as (m & E & F). rewrite E. cbn [rbind]. now rewrite F.
  - destruct (mmx_rounds (s_unrolling S) (run64 (CkSetModel.load64 bits) (mkV (fun i => fst (s_junk S i)) s input)) _ VU Hx) as (m & E & F).
    + now rewrite load64_ok by assumption.
    + rewrite run64_mem. apply Hs.
    + rewrite E. cbn [rbind]. now rewrite F.
  - destruct (sse64_rounds (s_unrolling S) (run128 (CkSetModel.load64 bits) (mkV (s_junk S) s input)) _ VU Hx) as (m & E & F).
    + assert (LR : lowrel (mkV (s_junk S) s input) (mkV (fun i => fst (s_junk S i)) s input)) by (split; [|split]; reflexivity).
      destruct (low_run _ _ _ (load64_low bits Hb) LR) as (LV & _).
      transitivity (lanes64 0 (run64 (CkSetModel.load64 bits) (mkV (fun i => fst (s_junk S i)) s input))); [|now rewrite load64_ok by assumption].
      unfold lanes64. apply map_ext. intros i. apply LV.
    + rewrite run128_mem. apply Hs.
    + rewrite E. cbn [rbind]. now rewrite F.
  - rewrite (VA eq_refl), (proj1 (load128_aligned bits Hb)).
    destruct (load128_ok bits (mkV (s_junk S) s input) Hb) as [L1 L2]. cbn [vstate vinput] in L1, L2.
    destruct (sse128_rounds (s_unrolling S) (run128 (load128 bits) (mkV (s_junk S) s input)) _ VU Hx L1 L2) as (m & E & F).
    + rewrite run128_mem. apply Hs.
    + rewrite E. cbn [rbind]. now rewrite F.
Qed.

(** ** Byte order *)
Lemma shl64_small b k : byte_ok b -> k <= 56 -> shl64 b k = N.shiftl b k.
Proof.
  intros Hb Hk. unfold shl64, shlw. apply wrap_small. unfold fits. rewrite N.shiftl_mul_pow2. unfold byte_ok in Hb.
  apply N.lt_le_trans with (256 * 2 ^ k); [apply N.mul_lt_mono_pos_r; [|assumption]; pose proof (N.pow_nonzero 2 k); lia|].
  change 256 with (2 ^ 8). rewrite <- N.pow_add_r. apply N.pow_le_mono_r; lia.
Qed.
Lemma eight (l : list N) : length l = 8%nat -> l = map (fun j => nth j l 0) (seq 0 8).
Proof. intros H. do 8 (destruct l as [|? l]; [discriminate|]). destruct l; [reflexivity|discriminate]. Qed.
Lemma nth_window (data : list N) o j : (j < 8)%nat -> nth j (firstn 8 (skipn o data)) 0 = nth (o + j) data 0.
Proof.
  intros H. rewrite <- KeccakProofs6.nth_skipn. generalize (skipn o data). clear o data. intros l. rewrite <- (firstn_skipn 8 l) at 2.
  destruct (Nat.ltb_spec j (length (firstn 8 l))) as [L|L]; [now rewrite app_nth1|]. rewrite firstn_length in L.
  rewrite (nth_overflow (firstn 8 l)) by (rewrite firstn_length; lia). rewrite firstn_skipn, nth_overflow by lia. reflexivity.
Qed.
Lemma big_word data i : bytes_ok data -> (8 * i + 8 <= length data)%nat -> fromBytesToWord data i = word data i.
Proof.
  intros Hb HL. unfold fromBytesToWord, word. rewrite (eight (firstn 8 (skipn (8 * i) data))) by (rewrite firstn_length, skipn_length; lia).
  assert (B : forall j, byte_ok (nth (8 * i + j) data 0)).
  { intros j. destruct (Nat.ltb_spec (8 * i + j) (length data)) as [H|H]; [now apply (proj1 (Forall_nth byte_ok data) Hb)|rewrite nth_overflow by assumption; reflexivity]. }
  cbn [seq map fold_left]. rewrite !nth_window by lia.
  rewrite !shl64_small by (apply B || (cbn; lia)). cbn [le_load].
  rewrite !N.shiftl_lor, !N.shiftl_shiftl, N.lor_0_l, !N.lor_assoc. rewrite !N.shiftl_0_l, N.lor_0_r, N.shiftl_0_r. reflexivity.
Qed.
Lemma data_words_ok S data n : bytes_ok data -> (8 * n <= length data)%nat -> data_words S data n = map (word data) (seq 0 n).
Proof.
  intros Hb HL. unfold data_words. destruct (s_big S); [|reflexivity]. apply map_ext_in. intros i Hi. apply in_seq in Hi. apply big_word; [assumption|lia].
Qed.
Lemma word_fits data i : bytes_ok data -> fits 64 (word data i).
Proof. intros H. unfold word. apply le_load_firstn_fits; [now apply bytes_ok_skipn|discriminate]. Qed.

Lemma store_bytes w : fromWordToBytes w = le_store 8 w.
Proof.
  unfold fromWordToBytes. cbn [seq map le_store]. unfold shr. rewrite !N.shiftr_shiftr, N.shiftr_0_r.
  assert (E : forall x, N.land x 255 = wrap 8 x) by reflexivity. now rewrite !E.
Qed.
Lemma load_flip l : bytes_ok l -> le_load (map (fun b => N.lxor b 255) l) = N.lxor (le_load l) (N.ones (8 * N.of_nat (length l))).
Proof.
  induction l as [|x l IH]; intros H; [reflexivity|]. inversion H as [|? ? Hx Hl]; subst. cbn [map le_load length]. rewrite (IH Hl).
  apply N.bits_inj. intros i. rewrite N.lxor_spec, !N.lor_spec, N.lxor_spec. change 255 with (N.ones 8).
  destruct (N.ltb_spec i 8) as [L|L].
  - rewrite !N.shiftl_spec_low by assumption. rewrite !N.ones_spec_low by lia. now rewrite !orb_false_r.
  - rewrite !N.shiftl_spec_high' by assumption. rewrite N.lxor_spec. rewrite (N.ones_spec_high 8 i) by assumption.
    rewrite (fits_high 8 x i) by (assumption || exact Hx). cbn [xorb orb].
    destruct (N.ltb_spec i (8 * N.of_nat (S (length l)))).
    + now rewrite !N.ones_spec_low by lia.
    + now rewrite !N.ones_spec_high by lia.
Qed.
Lemma flip_bytes l : bytes_ok l -> bytes_ok (map (fun b => N.lxor b 255) l).
Proof.
  intros H. apply Forall_forall. intros x Hx. apply in_map_iff in Hx. destruct Hx as (y & <- & Hy).
  apply (xor_fits 8); [|reflexivity]. exact (proj1 (Forall_forall _ _) H y Hy).
Qed.
Lemma store_flip l : bytes_ok l -> length l = 8%nat -> le_store 8 (notw 64 (le_load l)) = map (fun b => N.lxor b 255) l.
Proof.
  intros H L. rewrite <- (le_store_load (map (fun b => N.lxor b 255) l)) by now apply flip_bytes.
  rewrite map_length, L, load_flip, L by assumption. reflexivity.
Qed.
Lemma big_flip l : bytes_ok l -> length l = 8%nat -> be_store 8 (notw 64 (be_load l)) = le_store 8 (notw 64 (le_load l)).
Proof.
  intros H L. unfold be_store, be_load. rewrite store_flip; [|now apply Forall_rev|now rewrite rev_length].
  rewrite store_flip by assumption. now rewrite map_rev, rev_involutive.
Qed.
Lemma stored_length (ws : list N) : length (concat (map (le_store 8) ws)) = (8 * length ws)%nat.
Proof. induction ws as [|w ws IH]; [reflexivity|]. cbn [map concat length]. rewrite app_length, le_store_length, IH. lia. Qed.
Lemma not_word_big_ok ws rest i : (i < length ws)%nat -> Forall (fits 64) ws ->
  not_word_big (concat (map (le_store 8) ws) ++ rest) i = concat (map (le_store 8) (upd ws i (notw 64 (nth i ws 0)))) ++ rest.
Proof.
  intros Hi F. destruct (nth_split ws 0 Hi) as (a & b & E & La). set (x := nth i ws 0) in *.
  assert (Fx : fits 64 x) by (apply (proj1 (Forall_nth (fits 64) ws) F); assumption). clearbody x. subst ws i.
  assert (EU : forall y, upd (a ++ x :: b) (length a) y = a ++ y :: b).
  { intros y. clear. induction a as [|z a IH]; [reflexivity|]. cbn. f_equal. exact IH. }
  rewrite EU. unfold not_word_big. rewrite !map_app, !concat_app. cbn [map concat]. rewrite <- !app_assoc.
  assert (LA : length (concat (map (le_store 8) a)) = (8 * length a)%nat) by apply stored_length.
  rewrite <- LA. rewrite firstn_app_exact, skipn_app_exact by reflexivity.
  assert (SK : forall c, skipn (length (concat (map (le_store 8) a)) + 8) (concat (map (le_store 8) a) ++ c) = skipn 8 c).
  { intros c. rewrite skipn_app, skipn_all2 by lia. cbn [app]. f_equal. lia. }
  rewrite SK.
  assert (F8 : forall c, firstn 8 (le_store 8 x ++ c) = le_store 8 x) by reflexivity.
  assert (S8 : forall c, skipn 8 (le_store 8 x ++ c) = c) by reflexivity.
  rewrite F8, S8.
  rewrite big_flip by (apply le_store_ok || reflexivity). rewrite le_load_store by exact Fx. reflexivity.
Qed.

Definition flipped (lanes : list nat) (n : nat) (ws : list N) : list N :=
  fold_left (fun ws i => if Nat.ltb i n then upd ws i (notw 64 (nth i ws 0)) else ws) lanes ws.
Lemma big_fold lanes n rest : forall ws, length ws = n -> Forall (fits 64) ws ->
  fold_left (fun d i => if Nat.ltb i n then not_word_big d i else d) lanes (concat (map (le_store 8) ws) ++ rest) =
  concat (map (le_store 8) (flipped lanes n ws)) ++ rest.
Proof.
  unfold flipped. induction lanes as [|l lanes IH]; intros ws L F; [reflexivity|]. cbn [fold_left].
  destruct (Nat.ltb_spec l n) as [H|H]; [|now apply IH]. rewrite not_word_big_ok by (assumption || lia). apply IH; [now rewrite upd_length|].
  apply Forall_forall. intros x Hx. apply (In_nth _ _ 0) in Hx. destruct Hx as (k & Hk & <-). rewrite upd_length in Hk.
  destruct (Nat.eq_dec k l) as [->|D]; [rewrite upd_same by lia; apply notw_fits|rewrite upd_other by congruence]; now apply (proj1 (Forall_nth (fits 64) ws) F).
Qed.
Lemma flipped_nth lanes n : NoDup lanes -> forall ws, length ws = n -> length (flipped lanes n ws) = n /\ forall j, (j < n)%nat ->
  nth j (flipped lanes n ws) 0 = if existsb (Nat.eqb j) lanes then notw 64 (nth j ws 0) else nth j ws 0.
Proof.
  unfold flipped. induction lanes as [|l lanes IH]; intros D ws L; [split; [exact L|reflexivity]|]. inversion D as [|? ? NI D']; subst. cbn [fold_left existsb].
  assert (LW : length (if Nat.ltb l (length ws) then upd ws l (notw 64 (nth l ws 0)) else ws) = length ws) by (destruct (Nat.ltb l (length ws)); [apply upd_length|reflexivity]).
  destruct (IH D' _ LW) as [L1 L2]. split; [exact L1|]. intros j Hj. rewrite L2 by assumption.
  destruct (Nat.eqb_spec j l) as [->|Q]; cbn [orb].
  - assert (X : existsb (Nat.eqb l) lanes = false).
    { apply not_true_is_false. intros X. apply existsb_exists in X. destruct X as (y & Y & Z). apply Nat.eqb_eq in Z. now subst. }
    rewrite X. destruct (Nat.ltb_spec l (length ws)); [|lia]. now rewrite upd_same by assumption.
  - destruct (Nat.ltb_spec l (length ws)) as [B|B]; [|reflexivity]. now rewrite upd_other by congruence.
Qed.
Lemma big_extract S lanes n state data : NoDup lanes -> state_ok state ->
  set_extract_lanes S lanes n state data = CkModel.extract (if complementing S then lanes else []) n state data.
Proof.
  intros D Hs. unfold set_extract_lanes. destruct (s_big S); [|reflexivity]. unfold CkModel.extract.
  destruct (Nat.leb n 25 && Nat.leb (8 * n) (length data))%bool eqn:Q; [|reflexivity]. apply andb_true_iff in Q. destruct Q as [Q1 Q2]. apply Nat.leb_le in Q1, Q2.
  set (lns := if complementing S then lanes else []). assert (DL : NoDup lns) by (unfold lns; destruct (complementing S); [assumption|constructor]). clearbody lns.
  rewrite (map_ext _ (fun i => le_store 8 (nth i state 0))) by (intros; apply store_bytes). rewrite <- (map_map (fun i => nth i state 0) (le_store 8)).
  assert (LW : length (map (fun i => nth i state 0) (seq 0 n)) = n) by now rewrite map_length, seq_length.
  rewrite big_fold; [|exact LW|apply Forall_forall; intros x X; apply in_map_iff in X; destruct X as (i & <- & _); apply nth_fits; exact (proj2 Hs)].
  do 4 f_equal. destruct (flipped_nth lns n DL _ LW) as [L1 L2]. apply list_ext; [rewrite L1, map_length, seq_length; reflexivity|].
  intros j Hj. rewrite L1 in Hj. rewrite L2 by assumption. rewrite !nth_map_seq by assumption. destruct (Nat.ltb_spec j n); [|lia].
  now rewrite andb_true_r.
Qed.

(** ** What the sponge needs of the functions below it *)
Definition absorb_spec (rate : N) (A data : list N) : res (list N) :=
  let n := N.to_nat (rate / 64) in
  if (Nat.leb n 25 && Nat.leb (8 * n) (length data))%bool
  then Ok (keccak_f 24 (xor_words n A (map (word data) (seq 0 n)))) else Overread.
Definition extract_spec (rate : N) (A data : list N) : res (list N) :=
  let n := N.to_nat (rate / 64) in
  if (Nat.leb n 25 && Nat.leb (8 * n) (length data))%bool
  then Ok (firstn (8 * n) (state_bytes A) ++ skipn (8 * n) data) else Overread.
Record core_ok (K : core) (v : list N -> list N) : Prop := {
  ok_init : k_init K = v zero;
  ok_perm : forall A, state_ok A -> k_permutation K (v A) = Ok (v (keccak_f 24 A));
  ok_absorb : forall r A data, state_ok A -> bytes_ok data ->
    k_absorb K r (v A) data = (B <~ absorb_spec r A data ;; Ok (v B));
  ok_extract : forall r A data, state_ok A -> k_extract K r (v A) data = extract_spec r A data }.

Lemma plain_extract n s data : state_ok s -> (n <= 25)%nat -> (8 * n <= length data)%nat ->
  CkModel.extract [] n s data = Ok (firstn (8 * n) (state_bytes s) ++ skipn (8 * n) data).
Proof.
  intros [L F] Hn HL. unfold extract. destruct (Nat.leb_spec n 25); [|lia]. destruct (Nat.leb_spec (8 * n) (length data)); [|lia].
  cbn [andb existsb]. do 2 f_equal. rewrite <- state_bytes_eq. unfold KeccakModel.putUint64le. rewrite concat_store. do 2 f_equal.
  apply list_ext; [rewrite map_length, seq_length, firstn_length; lia|]. intros i Hi. rewrite map_length, seq_length in Hi. rewrite nth_map_seq by assumption.
  rewrite <- (firstn_skipn n s) at 1. now rewrite app_nth1 by (rewrite firstn_length; lia).
Qed.
Lemma masked_ok s : state_ok s -> state_ok (masked s).
Proof.
  intros [L F]. split; [apply flipl_length|]. apply Forall_forall. intros x Hx. apply (In_nth _ _ 0) in Hx. destruct Hx as (k & Hk & <-). rewrite flipl_length in Hk.
  rewrite nth_flipl by assumption. destruct (existsb _ _); [apply xor_fits'; [now apply nth_fits|reflexivity]|now apply nth_fits].
Qed.
Lemma view_ok S s : state_ok s -> state_ok (view S s).
Proof. unfold view. destruct (complementing S); [apply masked_ok|trivial]. Qed.
Lemma extract_both S lanes n s data : state_ok s -> NoDup lanes -> (forall i, (i < n)%nat -> (i < 25)%nat -> existsb (Nat.eqb i) lanes = existsb (Nat.eqb i) lanesA) ->
  set_extract_lanes S lanes n (view S s) data =
  if (Nat.leb n 25 && Nat.leb (8 * n) (length data))%bool then Ok (firstn (8 * n) (state_bytes s) ++ skipn (8 * n) data) else Overread.
Proof.
  intros Hs D HI. rewrite big_extract by (assumption || now apply view_ok).
  destruct (Nat.leb n 25 && Nat.leb (8 * n) (length data))%bool eqn:Q; [|unfold CkModel.extract; now rewrite Q].
  apply andb_true_iff in Q. destruct Q as [Q1 Q2]. apply Nat.leb_le in Q1, Q2. unfold view.
  destruct (complementing S); [apply extract_ok|apply plain_extract]; try assumption. intros i Hi. apply HI; lia.
Qed.
Lemma xor_fold_words n s input : (n <= 25)%nat -> state_ok s ->
  fold_left (fun s j => upd s j (xor (nth j s 0) (nth j input 0))) (seq 0 n) s = xor_words n s input.
Proof.
  intros Hn [L F]. assert (G : forall m a st, (a + m <= length st)%nat -> let r := fold_left (fun s j => upd s j (xor (nth j s 0) (nth j input 0))) (seq a m) st in
    length r = length st /\ forall j, nth j r 0 = if (Nat.leb a j && Nat.ltb j (a + m))%bool then xor (nth j st 0) (nth j input 0) else nth j st 0).
  { induction m as [|m IH]; intros a st HL; cbn [seq fold_left].
    - split; [reflexivity|]. intros j. destruct (Nat.leb_spec a j); destruct (Nat.ltb_spec j (a + 0)); reflexivity || lia.
    - destruct (IH (Datatypes.S a) (upd st a (xor (nth a st 0) (nth a input 0)))) as [A B]; [rewrite upd_length; lia|]. cbv zeta in A, B. split; [now rewrite A, upd_length|].
      intros j. rewrite B. destruct (Nat.eq_dec j a) as [->|Q].
      + destruct (Nat.leb_spec (Datatypes.S a) a); [lia|]. cbn [andb]. rewrite upd_same by lia. destruct (Nat.leb_spec a a); [|lia]. destruct (Nat.ltb_spec a (a + Datatypes.S m)); [reflexivity|lia].
      + rewrite upd_other by congruence. destruct (Nat.leb_spec (Datatypes.S a) j); destruct (Nat.leb_spec a j); try lia; cbn [andb]; try reflexivity.
        destruct (Nat.ltb_spec j (Datatypes.S a + m)); destruct (Nat.ltb_spec j (a + Datatypes.S m)); reflexivity || lia. }
  destruct (G n 0%nat s) as [A B]; [lia|]. cbv zeta in A, B. apply list_ext; [rewrite A; unfold xor_words; now rewrite map_length, seq_length|].
  intros j Hj. rewrite B. unfold xor_words. rewrite nth_map_seq by lia. reflexivity.
Qed.
Lemma words_fits data n : bytes_ok data -> Forall (fits 64) (map (word data) (seq 0 n)).
Proof. intros H. apply Forall_forall. intros x X. apply in_map_iff in X. destruct X as (i & <- & _). now apply word_fits. Qed.

Theorem settings_core S : valid S -> core_ok (core_of S) (view S).
Proof.
  intros V. assert (W0 : In 0 widths) by (left; reflexivity). split.
  - cbn [k_init core_of]. unfold set_init, view. destruct (complementing S); reflexivity.
  - intros A HA. cbn [k_permutation core_of]. rewrite (permute_ok S 0 A [] V W0 HA (Forall_nil _)). now rewrite xor_words_0 by apply HA.
  - intros r A data HA HD. cbn [k_absorb core_of]. unfold set_absorb.
    assert (FAST : forall b, In b widths -> b <> 0 -> (as_words b = N.to_nat (b / 64))%nat -> (as_words b <= 25)%nat ->
      set_absorb_fast S b (view S A) data = (B <~ absorb_spec b A data ;; Ok (view S B))).
    { intros b Wb Nb Eb Lb. unfold set_absorb_fast. rewrite words_read_ok by assumption.
      replace (if s_big S then as_words b else as_words b) with (as_words b) by (destruct (s_big S); reflexivity).
      rewrite Nat.leb_refl, andb_true_r. unfold absorb_spec. rewrite <- Eb. rewrite (proj2 (Nat.leb_le _ 25)) by assumption. cbn [andb].
      destruct (Nat.leb_spec (8 * as_words b) (length data)) as [L|L]; [|reflexivity]. cbn [rbind].
      rewrite data_words_ok by assumption. apply permute_ok; try assumption. now apply words_fits. }
    repeat (match goal with |- context [((r =? ?b) && ?x)%bool] => destruct ((r =? b) && x)%bool eqn:?Q end;
      [match goal with H : (_ && _)%bool = true |- _ => apply andb_true_iff in H; destruct H as [H _]; apply N.eqb_eq in H; subst r end;
       apply FAST; [cbn; tauto|discriminate|reflexivity|cbn; lia]|]).
    unfold set_KeccakAbsorb, absorb_spec. destruct (Nat.leb (N.to_nat (r / 64)) 25 && Nat.leb (8 * N.to_nat (r / 64)) (length data))%bool eqn:Q'; [|reflexivity].
    apply andb_true_iff in Q'. destruct Q' as [W1 W2]. apply Nat.leb_le in W1, W2. cbn [rbind]. rewrite data_words_ok by assumption.
    set (n := N.to_nat (r / 64)) in *. rewrite xor_fold_words by (assumption || now apply view_ok).
    replace (xor_words n (view S A) (map (word data) (seq 0 n))) with (view S (xor_words n A (map (word data) (seq 0 n))))
      by (unfold view; destruct (complementing S); [apply masked_xor_words|reflexivity]).
    pose proof (xor_words_ok n A _ HA (words_fits data n HD)) as HX.
    rewrite (permute_ok S 0 _ [] V W0 HX (Forall_nil _)). now rewrite (xor_words_0 _ []) by apply HX.
  - intros r A data HA. cbn [k_extract core_of].
    destruct ((r =? 1024) && existsb (N.eqb 1024) (s_provided S))%bool eqn:Q.
    + apply andb_true_iff in Q. destruct Q as [Q _]. apply N.eqb_eq in Q. subst r. unfold set_extract1024. rewrite extract_both; [reflexivity|assumption| |].
      * repeat constructor; cbn; intuition discriminate.
      * intros i H1 _. do 16 (destruct i as [|i]; [reflexivity|]). lia.
    + unfold set_extract. rewrite extract_both; [reflexivity|assumption| |].
      * repeat constructor; cbn; intuition discriminate.
      * reflexivity.
Qed.
