(** Proofs for the C interface: bytes and bits, whole runs. *)
From Coq Require Import ZArith.
From Verif Require Import Words WordLemmas ListLemmas Mem SLP Bij Blocks Mm3Spec Mm3Proofs KeccakSpec KeccakProofs KeccakProofs2 KeccakProofs3 KeccakProofs4 CkProg CkModel CkRounds CkProofs CkProofs2 CkProofs3 CkProofs4 CkBitSpec CkBits.
Open Scope N_scope.
Strategy 1000 [rounds24].

(** ** Bytes and bits *)
Lemma low_bits_length n x : length (low_bits n x) = n.
Proof. unfold low_bits. now rewrite map_length, seq_length. Qed.
Lemma bits_of_length l : length (bits_of l) = (8 * length l)%nat.
Proof. induction l as [|x l IH]; [reflexivity|]. change (bits_of (x :: l)) with (low_bits 8 x ++ bits_of l). rewrite app_length, low_bits_length, IH. cbn [length]. lia. Qed.
Lemma bits_of_app a b : bits_of (a ++ b) = bits_of a ++ bits_of b.
Proof. unfold bits_of. apply flat_map_app. Qed.
Lemma bits_of_firstn n l : firstn (8 * n) (bits_of l) = bits_of (firstn n l).
Proof.
  revert l. induction n as [|n IH]; intros l; [reflexivity|]. destruct l as [|x l]; [now rewrite !firstn_nil|].
  change (bits_of (x :: l)) with (low_bits 8 x ++ bits_of l). rewrite firstn_app, low_bits_length.
  rewrite firstn_all2 by (rewrite low_bits_length; lia). replace (8 * S n - 8)%nat with (8 * n)%nat by lia. rewrite IH. reflexivity.
Qed.
Lemma bits_of_skipn n l : skipn (8 * n) (bits_of l) = bits_of (skipn n l).
Proof.
  revert l. induction n as [|n IH]; intros l; [reflexivity|]. destruct l as [|x l]; [now rewrite !skipn_nil|].
  change (bits_of (x :: l)) with (low_bits 8 x ++ bits_of l). rewrite skipn_app, low_bits_length.
  rewrite skipn_all2 by (rewrite low_bits_length; lia). replace (8 * S n - 8)%nat with (8 * n)%nat by lia. apply IH.
Qed.
Definition bytes256 : list N := map N.of_nat (seq 0 256).
Lemma in_bytes x : x < 256 -> In x bytes256.
Proof. intros H. unfold bytes256. apply in_map_iff. exists (N.to_nat x). split; [lia|]. apply in_seq. lia. Qed.
Lemma byte_case (P : N -> bool) x : forallb P bytes256 = true -> x < 256 -> P x = true.
Proof. intros H Hx. apply (proj1 (forallb_forall _ _) H). now apply in_bytes. Qed.
Lemma num_byte x : x < 256 -> num (low_bits 8 x) = x.
Proof. intros H. apply N.eqb_eq. revert H. apply (byte_case (fun x => num (low_bits 8 x) =? x)). vm_compute. reflexivity. Qed.
Lemma num_app a b : num (a ++ b) = num a + 2 ^ N.of_nat (length a) * num b.
Proof.
  induction a as [|x a IH]; [cbn [app num length]; change (2 ^ N.of_nat 0) with 1; lia|].
  cbn [app num length]. rewrite IH, Nat2N.inj_succ, N.pow_succ_r'. lia.
Qed.
Lemma num_bits l : bytes_ok l -> num (bits_of l) = le_int l.
Proof.
  induction 1 as [|x l Hx Hl IH]; [reflexivity|]. change (bits_of (x :: l)) with (low_bits 8 x ++ bits_of l).
  rewrite num_app, num_byte, low_bits_length, IH by exact Hx. reflexivity.
Qed.
Lemma lanes_bits b : bytes_ok b -> bit_lanes (bits_of b) = lanes_of b.
Proof.
  intros H. unfold bit_lanes, lanes_of. apply map_ext. intros i.
  replace (64 * i)%nat with (8 * (8 * i))%nat by lia. change 64%nat with (8 * 8)%nat at 1. rewrite bits_of_skipn, bits_of_firstn.
  apply num_bits. apply bytes_ok_firstn. now apply bytes_ok_skipn.
Qed.
Lemma absorb_bits_ok B : (0 < B)%nat -> (B mod 8 = 0)%nat -> forall n A p, bytes_ok p ->
  absorb_bits n (8 * B) A (bits_of p) = fst (absorb_loop B (stepf 24 B) n A p).
Proof.
  intros HB H8. induction n as [|n IH]; intros A p Hp; [reflexivity|]. cbn [absorb_bits absorb_loop]. rewrite bits_of_length.
  destruct (Nat.leb_spec (8 * B) (8 * length p)); destruct (Nat.leb_spec B (length p)); try lia; [|reflexivity].
  rewrite bits_of_firstn, bits_of_skipn, lanes_bits by now apply bytes_ok_firstn.
  assert (E : stepf 24 B A (firstn B p) = keccak_f 24 (xor_state A (lanes_of (firstn B p)))).
  { unfold stepf, absorb_block. rewrite used_all; [reflexivity|assumption|]. rewrite firstn_length. lia. }
  rewrite E. apply IH. now apply bytes_ok_skipn.
Qed.

(** ** Padding *)
Definition tailk (B q : nat) (k v : N) : list N :=
  if Nat.eqb q 1 then if k =? 7 then N.lor v 128 :: repeat 0 (B - 1) ++ [128] else [N.lor (N.lor v (2 ^ k)) 128]
  else N.lor v (2 ^ k) :: repeat 0 (q - 2) ++ [128].
Lemma finalk_tail B d k v : (0 < B)%nat -> finalk B d k v = fst (absorbed B 24 (d ++ tailk B (B - length (rest B d)) k v)).
Proof.
  intros HB. rewrite absorbed_app by assumption. unfold finalk, last_blocks, tailk. pose proof (rest_lt B d HB) as L. set (r := rest B d) in *.
  assert (N0 : forall A, absorb B (stepf 24 B) A [] = (A, [])) by (intros A; apply absorb_short; assumption).
  assert (One : forall A b, length b = B -> fst (absorb B (stepf 24 B) A b) = stepf 24 B A b).
  { intros A b Lb. rewrite <- (app_nil_r b), Blocks.absorb_block, N0 by assumption. now rewrite app_nil_r. }
  destruct (Nat.eqb_spec (B - length r) 1) as [E|E]; [destruct (k =? 7)|]; cbn [fold_left].
  - change (N.lor v 128 :: repeat 0 (B - 1) ++ [128]) with ([N.lor v 128] ++ repeat 0 (B - 1) ++ [128]). rewrite app_assoc.
    rewrite Blocks.absorb_block; [|assumption|rewrite app_length; cbn [length]; lia]. rewrite One; [reflexivity|]. rewrite app_length, repeat_length. cbn [length]. lia.
  - rewrite One; [reflexivity|]. rewrite app_length. cbn [length]. lia.
  - rewrite One; [reflexivity|]. rewrite app_length. cbn [length]. rewrite app_length, repeat_length. cbn [length]. lia.
Qed.
Lemma tailk_ok B q k v : k < 8 -> v < 2 ^ k -> bytes_ok (tailk B q k v).
Proof.
  intros Hk Hv. unfold tailk. pose proof (val_byte k v Hk Hv) as Ov. pose proof (pow_byte k Hk) as Op. assert (O8 : fits 8 128) by reflexivity.
  assert (Z : forall n, bytes_ok (repeat 0 n ++ [128])) by (intros n; apply bytes_ok_app2; [apply bytes_ok_zeros|repeat constructor; exact O8]).
  destruct (Nat.eqb q 1); [destruct (k =? 7)|]; apply bytes_ok_cons; split; auto using lor_byte. constructor.
Qed.
Lemma bits_zeros n : bits_of (repeat 0 n) = repeat false (8 * n).
Proof.
  induction n as [|n IH]; [reflexivity|]. cbn [repeat]. change (bits_of (0 :: repeat 0 n)) with (low_bits 8 0 ++ bits_of (repeat 0 n)). rewrite IH.
  replace (8 * S n)%nat with (8 + 8 * n)%nat by lia. reflexivity.
Qed.
Lemma k_case (P : N -> N -> bool) k v : forallb (fun v => forallb (fun k => P k v) (map N.of_nat (seq 0 8))) bytes256 = true -> k < 8 -> v < 256 -> P k v = true.
Proof.
  intros H Hk Hv. pose proof (byte_case _ v H Hv) as H1. cbn beta in H1. apply (proj1 (forallb_forall _ _) H1).
  apply in_map_iff. exists (N.to_nat k). split; [lia|]. apply in_seq. lia.
Qed.
Fixpoint beqb (a b : list bool) : bool := match a, b with [], [] => true | x :: a, y :: b => (Bool.eqb x y && beqb a b)%bool | _, _ => false end.
Lemma beqb_ok a : forall b, beqb a b = true -> a = b.
Proof. induction a as [|x a IH]; intros [|y b]; cbn; try discriminate; auto. intros H. apply andb_prop in H. destruct H as [H1 H2]. apply Bool.eqb_prop in H1. f_equal; auto. Qed.
Lemma last_byte k v : k < 8 -> v < 2 ^ k -> low_bits 8 (N.lor v (2 ^ k)) = low_bits (N.to_nat k) v ++ true :: repeat false (7 - N.to_nat k).
Proof.
  intros Hk Hv. apply beqb_ok.
  assert (C : (negb (v <? 2 ^ k) || beqb (low_bits 8 (N.lor v (2 ^ k))) (low_bits (N.to_nat k) v ++ true :: repeat false (7 - N.to_nat k)))%bool = true).
  { apply (k_case (fun k v => (negb (v <? 2 ^ k) || beqb (low_bits 8 (N.lor v (2 ^ k))) (low_bits (N.to_nat k) v ++ true :: repeat false (7 - N.to_nat k)))%bool));
      [vm_compute; reflexivity|assumption|]. apply (val_byte k v Hk Hv). }
  destruct (N.ltb_spec v (2 ^ k)); [exact C|lia].
Qed.
Lemma only_byte k v : k < 7 -> v < 2 ^ k -> low_bits 8 (N.lor (N.lor v (2 ^ k)) 128) = low_bits (N.to_nat k) v ++ true :: repeat false (6 - N.to_nat k) ++ [true].
Proof.
  intros Hk Hv. apply beqb_ok.
  assert (C : (negb (v <? 2 ^ k) || (k =? 7) || beqb (low_bits 8 (N.lor (N.lor v (2 ^ k)) 128)) (low_bits (N.to_nat k) v ++ true :: repeat false (6 - N.to_nat k) ++ [true]))%bool = true).
  { apply (k_case (fun k v => (negb (v <? 2 ^ k) || (k =? 7) || beqb (low_bits 8 (N.lor (N.lor v (2 ^ k)) 128)) (low_bits (N.to_nat k) v ++ true :: repeat false (6 - N.to_nat k) ++ [true]))%bool));
      [vm_compute; reflexivity|lia|]. apply (val_byte k v ltac:(lia) Hv). }
  destruct (N.ltb_spec v (2 ^ k)); [|lia]. destruct (N.eqb_spec k 7); [lia|exact C].
Qed.
Lemma pad_bits B d k v : (0 < B)%nat -> k < 8 -> v < 2 ^ k ->
  pad10s1 (8 * B) (bits_of d ++ low_bits (N.to_nat k) v) = bits_of (d ++ tailk B (B - length (rest B d)) k v).
Proof.
  intros HB Hk Hv. unfold pad10s1. rewrite bits_of_app, <- app_assoc. f_equal. rewrite app_length, bits_of_length, low_bits_length.
  pose proof (rest_lt B d HB) as L. pose proof (rest_length B d HB) as RL. rewrite RL in *.
  assert (M : ((8 * length d + N.to_nat k) mod (8 * B) = 8 * (length d mod B) + N.to_nat k)%nat).
  { symmetry. apply Nat.mod_unique with (length d / B)%nat; [lia|]. pose proof (Nat.div_mod (length d) B ltac:(lia)). nia. }
  rewrite M. set (a := (length d mod B)%nat) in *. unfold tailk.
  assert (U : forall n x, bits_of (x :: repeat 0 n ++ [128]) = low_bits 8 x ++ repeat false (8 * n) ++ repeat false 7 ++ [true]).
  { intros n x. change (bits_of (x :: repeat 0 n ++ [128])) with (low_bits 8 x ++ bits_of (repeat 0 n ++ [128])). rewrite bits_of_app, bits_zeros. reflexivity. }
  destruct (Nat.eqb_spec (B - a) 1) as [E|E]; [destruct (N.eqb_spec k 7) as [->|K7]|].
  - rewrite U. change 128 with (2 ^ 7) at 1. rewrite last_byte by assumption. rewrite <- app_assoc. f_equal. cbn [app]. f_equal.
    rewrite app_assoc, <- repeat_app. change (repeat false (7 - N.to_nat 7)) with (@nil bool). cbn [app].
    replace (2 * (8 * B) - 2 - (8 * a + N.to_nat 7))%nat with (8 * B - 1)%nat by lia. rewrite Nat.mod_small by lia.
    rewrite app_assoc, <- repeat_app. f_equal. f_equal. change (7 - N.to_nat 7)%nat with 0%nat. lia.
  - change (bits_of [?x]) with (low_bits 8 x ++ []). unfold bits_of. cbn [flat_map]. rewrite app_nil_r, only_byte by (assumption || lia). do 4 f_equal.
    replace (2 * (8 * B) - 2 - (8 * a + N.to_nat k))%nat with (6 - N.to_nat k + 1 * (8 * B))%nat by lia. rewrite Nat.mod_add, Nat.mod_small by lia. reflexivity.
  - rewrite U, last_byte by assumption. rewrite <- app_assoc. f_equal. cbn [app]. f_equal. rewrite !app_assoc, <- !repeat_app. f_equal. f_equal.
    replace (2 * (8 * B) - 2 - (8 * a + N.to_nat k))%nat with ((7 - N.to_nat k) + 8 * (B - a - 2) + 7 + 1 * (8 * B))%nat by lia. rewrite Nat.mod_add, Nat.mod_small by lia. lia.
Qed.
Lemma sponge_bits B d k v n : rate_ok B -> bytes_ok d -> k < 8 -> v < 2 ^ k ->
  bit_sponge (8 * B) n (bits_of d ++ low_bits (N.to_nat k) v) = squeeze n 24 B n (finalk B d k v).
Proof.
  intros [B0 B8 BM] Hd Hk Hv. unfold bit_sponge. rewrite pad_bits by assumption. replace (8 * B / 8)%nat with B by (rewrite Nat.mul_comm, Nat.div_mul by lia; lia).
  f_equal. rewrite finalk_tail by assumption. pose proof (tailk_ok B (B - length (rest B d)) k v Hk Hv) as T.
  rewrite absorb_bits_ok; [|assumption|assumption|now apply bytes_ok_app2]. unfold absorbed, absorb. f_equal. apply absorb_fuel; rewrite ?bits_of_length; lia.
Qed.

(** ** Calls *)
Fixpoint c_run (fuel : nat) (s : spongeState) (ops : list cop) : list cout :=
  match ops with
  | [] => []
  | CUpdate data n :: ops => match Update fuel s data n with Ok (s, ret) => CReturned ret :: c_run fuel s ops | _ => [CFails] end
  | CSqueeze output n :: ops => match Squeeze fuel s output n with Ok (s, output, ret) => CSqueezed ret output :: c_run fuel s ops | _ => [CFails] end
  | CFinal output :: ops => match Final fuel s output with Ok (s, output, ret) => CSqueezed ret output :: c_run fuel s ops | _ => [CFails] end
  end.
Lemma holds_of_k F s B d v : holdsk F s B d 0 v -> holds F s B d.
Proof. intros []. constructor; try assumption. now rewrite N.add_0_r in *. Qed.
Lemma rate_64 B : rate_ok B -> (8 * N.of_nat B) mod 64 = 0.
Proof.
  intros [_ B8 _]. change 64 with (8 * 8). rewrite N.mul_mod_distr_l by discriminate.
  assert (E : N.of_nat B mod N.of_nat 8 = 0) by (rewrite <- Nat2N.inj_mod, B8; reflexivity). change (N.of_nat 8) with 8 in E. now rewrite E.
Qed.
Lemma Absorb_ok F fuel s B d p x : holds F s B d -> bytes_ok p -> bits p < 2 ^ 32 - 1600 -> (4 <= fuel)%nat ->
  exists s', Absorb fuel s (p ++ x) (bits p) = Ok (s', 0) /\ holds F s' B (d ++ p).
Proof.
  intros H Hp Hn Hf. do 4 (destruct fuel as [|fuel]; [lia|]). pose proof (h_B _ _ _ _ H) as RB. pose proof RB as [B0 B8 BM].
  change (2 ^ 32 - 1600) with 4294965696 in Hn.
  destruct (takes_ok F fuel s B d p H Hp) as (s' & E & H').
  - change (2 ^ 64) with 18446744073709551616. lia.
  - right. rewrite (h_bits _ _ _ _ H). pose proof (rest_lt B d B0). change (2 ^ 32) with 4294967296. rewrite N.mod_small by lia. split; [lia|right; lia].
  - exists s'. split; [|exact H']. unfold Absorb. rewrite (h_bits _ _ _ _ H), mod8, (h_sq _ _ _ _ H). change (negb (0 =? 0)) with false. cbn iota.
    rewrite (while_more _ _ _ _ _ x _ ltac:(rewrite (h_rate _ _ _ _ H); now apply rate_64) E). reflexivity.
Qed.
Lemma Update_ok F fuel s B d data n : holds F s B d -> bytes_ok data -> N.of_nat (length data) = (n + 7) / 8 -> n < 2 ^ 32 - 1600 -> (4 <= fuel)%nat ->
  exists s' v, Update fuel s data n = Ok (s', 0) /\ holdsk F s' B (d ++ firstn (N.to_nat (n / 8)) data) (n mod 8) v /\
    low_bits (N.to_nat (n mod 8)) v = low_bits (N.to_nat (n mod 8)) (nth (N.to_nat (n / 8)) data 0 / 2 ^ (8 - n mod 8)).
Proof.
  intros H Hd HL Hn Hf. set (w := firstn (N.to_nat (n / 8)) data). set (x := skipn (N.to_nat (n / 8)) data).
  pose proof (N.div_mod n 8 ltac:(discriminate)) as D. pose proof (N.mod_upper_bound n 8 ltac:(discriminate)) as U.
  assert (Lw : length w = N.to_nat (n / 8)).
  { unfold w. rewrite firstn_length. assert (n / 8 <= (n + 7) / 8) by (apply N.div_le_mono; [discriminate|lia]). lia. }
  assert (Bw : bits w = n - n mod 8) by (unfold bits; rewrite Lw; lia).
  destruct (Absorb_ok F fuel s B d w x H) as (s1 & E1 & H1); [now apply bytes_ok_firstn|rewrite Bw; eapply N.le_lt_trans; [apply N.le_sub_l|exact Hn]|assumption|].
  clear Hn. unfold w, x in E1. rewrite firstn_skipn in E1. fold w in E1. rewrite Bw in E1. unfold Update.
  destruct (N.eqb_spec (n mod 8) 0) as [E0|E0].
  - exists s1, 0. rewrite E0, N.sub_0_r in *. split; [exact E1|]. split; [now apply holds_k|reflexivity].
  - assert (HK : 0 < n mod 8 < 8) by (clear - U E0; set (b := n mod 8) in *; clearbody b; lia).
    rewrite E1. cbn [rbind]. change (0 =? SUCCESS) with true. cbn iota.
    assert (Lx : (N.to_nat (n / 8) < length data)%nat).
    { assert ((n + 7) / 8 = n / 8 + 1); [|lia]. clear - D U E0. set (a := n / 8) in *. set (b := n mod 8) in *. clearbody a b. subst n. symmetry.
      apply N.div_unique with (b - 1); lia. }
    unfold byte_at. destruct (N.ltb_spec (n / 8) (N.of_nat (length data))) as [_|]; [|lia]. cbn [rbind].
    set (y := nth (N.to_nat (n / 8)) data 0).
    assert (Hy : y < 2 ^ 8) by (apply (proj1 (Forall_forall _ _) Hd); apply nth_In; exact Lx).
    assert (Hs : shr y (8 - n mod 8) < 2 ^ (n mod 8)).
    { unfold shr. rewrite N.shiftr_div_pow2. apply N.div_lt_upper_bound; [apply N.pow_nonzero; discriminate|]. rewrite <- N.pow_add_r. now replace (8 - n mod 8 + n mod 8) with 8 by lia. }
    do 2 (destruct fuel as [|fuel]; [lia|]).
    destruct (partial_ok F fuel s1 B (d ++ w) (n mod 8) _ H1 HK Hs) as (s2 & E2 & H2).
    exists s2, (shr y (8 - n mod 8)). split; [exact E2|]. split; [exact H2|]. unfold shr. now rewrite N.shiftr_div_pow2.
Qed.
Lemma out_skip B A t n : skipn t (out B A 0 (t + n)) = out B A t n.
Proof. rewrite out_app, skipn_app, out_length, skipn_all2 by (rewrite out_length; lia). rewrite Nat.sub_diag, Nat.add_0_l. reflexivity. Qed.

Definition inv (F : N) (s : spongeState) (B : nat) (m : list bool) (sq : option nat) : Prop :=
  match sq with
  | None => exists d k v, m = bits_of d ++ low_bits (N.to_nat k) v /\ holdsk F s B d k v
  | Some t => exists A b o, sqz F s B A b o /\ (b * B + o = t)%nat /\ forall n, bit_sponge (8 * B) n m = out B A 0 n
  end.
Lemma Squeeze_ok F fuel s B m sq output n : inv F s B m sq -> n < 2 ^ 64 -> (N.to_nat (n / 8) <= length output)%nat -> (N.to_nat (n / 8) < fuel)%nat ->
  exists s' output' ret, Squeeze fuel s output n = Ok (s', output', ret) /\
    let '(c, t) := squeeze_seen (8 * B) m (match sq with Some t => t | None => O end) output n in
    c = CSqueezed ret output' /\ inv F s' B m (Some t).
Proof.
  intros H Hn Ho Hf.
  assert (P : exists s1, (if squeezing s then Ok s else PadAndSwitchToSqueezingPhase s) = Ok s1 /\ inv F s1 B m (Some match sq with Some t => t | None => O end)).
  { destruct sq as [t|].
    - exists s. destruct H as (A & b & o & Z & Et & Eo). rewrite (z_sq _ _ _ _ _ _ Z). split; [reflexivity|]. now exists A, b, o.
    - destruct H as (d & k & v & -> & H). rewrite (k_sq _ _ _ _ _ _ H). destruct (pad_ok _ _ _ _ _ _ H) as (s1 & E & Z). exists s1. split; [exact E|].
      exists (finalk B d k v), 0%nat, 0%nat. split; [exact Z|]. split; [reflexivity|]. intros l. pose proof H as [RB _ _ _ Hd _ _ _ Hk Hv _ _ _].
      rewrite sponge_bits by assumption. destruct RB as [B0 B8 BM]. change (finalk B d k v) with (turned (finalk B d k v) 0) at 1.
      rewrite squeeze_out; [reflexivity|lia|exact (z_A _ _ _ _ _ _ Z)|lia]. }
  set (t := match sq with Some t => t | None => O end) in *. destruct P as (s1 & E1 & (A & b & o & Z & Et & Eo)). unfold Squeeze. rewrite E1. cbn [rbind].
  unfold squeeze_seen. destruct (N.eqb_spec (n mod 8) 0) as [E0|E0]; cbn [negb].
  - set (l := N.to_nat (n / 8)) in *. assert (El : n = 8 * N.of_nat l) by (pose proof (N.div_mod n 8 ltac:(discriminate)); lia).
    destruct (squeeze_ok F B A l fuel s1 b o 0 output Z) as (s' & b' & o' & E & Z' & Et'); [lia|exact Ho|lia|lia|].
    change (8 * N.of_nat 0) with 0 in E. rewrite <- El in E. rewrite E. cbn [rbind]. do 3 eexists. split; [reflexivity|]. split.
    + f_equal. rewrite Eo, out_skip, Et, Nat.sub_0_r. reflexivity.
    + exists A, b', o'. split; [exact Z'|]. split; [lia|exact Eo].
  - do 3 eexists. split; [reflexivity|]. split; [reflexivity|]. now exists A, b, o.
Qed.
Lemma inv_fixed F s B m sq : inv F s B m sq -> fixedOutputLength s = F.
Proof. destruct sq; [intros (A & b & o & Z & _); exact (z_fixed _ _ _ _ _ _ Z)|intros (d & k & v & _ & H); exact (k_fixed _ _ _ _ _ _ H)]. Qed.
Lemma Update_error fuel s data n : (bitsInQueue s mod 8 <> 0 \/ squeezing s = true) -> Update fuel s data n = Ok (s, 1).
Proof.
  intros H. assert (E : forall p db, Absorb fuel s p db = Ok (s, 1)).
  { intros p db. unfold Absorb. destruct (N.eqb_spec (bitsInQueue s mod 8) 0); [|reflexivity]. cbn [negb]. destruct H as [H|H]; [contradiction|now rewrite H]. }
  unfold Update. rewrite !E. destruct (n mod 8 =? 0); reflexivity.
Qed.
Lemma c_run_ok F fuel B : (4 <= fuel)%nat -> forall ops s m sq, inv F s B m sq -> Forall (cop_ok fuel F) ops ->
  c_run fuel s ops = sponge_calls (8 * B) F m sq ops.
Proof.
  intros Hf. induction ops as [|[data n|output n|output] ops IH]; intros s m sq H HO; [reflexivity| | |]; inversion HO as [|? ? HO1 HO2]; subst; cbn [c_run sponge_calls cop_ok] in *.
  - destruct HO1 as (Hd & HL & Hn). destruct sq as [t|].
    + rewrite Update_error; [f_equal; now apply IH|]. right. destruct H as (A & b & o & Z & _). exact (z_sq _ _ _ _ _ _ Z).
    + pose proof H as (d & k & v & Em & K). pose proof (k_k _ _ _ _ _ _ K) as Hk.
      assert (EL : (length m mod 8 = N.to_nat k)%nat).
      { rewrite Em, app_length, bits_of_length, low_bits_length. rewrite Nat.add_comm, Nat.mul_comm, Nat.mod_add by lia. apply Nat.mod_small. lia. }
      rewrite EL. destruct (Nat.eqb_spec (N.to_nat k) 0) as [E0|E0].
      * assert (k = 0) by lia. subst k. change (low_bits (N.to_nat 0) v) with (@nil bool) in Em. rewrite app_nil_r in Em. subst m.
        destruct (Update_ok F fuel s B d data n (holds_of_k _ _ _ _ _ K) Hd HL Hn Hf) as (s' & v' & E & K' & Ev). rewrite E. f_equal. apply IH; [|assumption].
        eexists _, _, v'. split; [|exact K']. unfold update_bits. now rewrite bits_of_app, <- app_assoc, Ev.
      * rewrite Update_error; [f_equal; now apply IH|]. left. rewrite (k_bits _ _ _ _ _ _ K), N.add_comm, N.mul_comm, N.mod_add by discriminate. rewrite N.mod_small; lia.
  - destruct HO1 as (Hn & Ho & Hl). destruct (Squeeze_ok F fuel s B m sq output n H Hn Ho Hl) as (s' & o' & ret & E & S). rewrite E.
    destruct (squeeze_seen (8 * B) m _ output n) as [c t]. destruct S as [-> H']. f_equal. now apply IH.
  - destruct HO1 as (Hn & Ho & Hl). unfold Final. rewrite (inv_fixed _ _ _ _ _ H).
    destruct (Squeeze_ok F fuel s B m sq output F H Hn Ho Hl) as (s' & o' & ret & E & S). rewrite E.
    destruct (squeeze_seen (8 * B) m _ output F) as [c t]. destruct S as [-> H']. f_equal. now apply IH.
Qed.
