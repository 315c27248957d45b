(** Proofs about package keccakpg: every round is a permutation of the states. *)
From Coq Require Import Btauto.
From Verif Require Import Words WordLemmas ListLemmas Mem SLP Bij Mm3Spec Mm3Proofs KeccakModel KeccakSpec KeccakProofs.
Open Scope N_scope.
Local Transparent theta rhopi chi iota.

(** ** Rotations *)
Lemma rot_xor a b k : fits 64 a -> fits 64 b -> k <= 64 -> rotl64 (N.lxor a b) k = N.lxor (rotl64 a k) (rotl64 b k).
Proof.
  intros Ha Hb Hk. apply N.bits_inj. intro i. change rotl64 with (rotlw 64).
  rewrite N.lxor_spec, !rotlw_testbit by (auto; now apply xor_fits). rewrite !N.lxor_spec.
  destruct (i <? 64), (k <=? i); cbn [andb]; auto.
Qed.
Lemma rot_rot a j k : fits 64 a -> j + k <= 64 -> rotl64 (rotl64 a j) k = rotl64 a (j + k).
Proof.
  intros Ha Hk. apply N.bits_inj. intro i. change rotl64 with (rotlw 64).
  rewrite !rotlw_testbit by (try (apply rotlw_fits); auto; lia).
  destruct (N.ltb_spec i 64); cbn [andb]; [|reflexivity].
  destruct (N.leb_spec k i).
  - destruct (N.ltb_spec (i - k) 64); [|lia]. cbn [andb].
    destruct (N.leb_spec j (i - k)), (N.leb_spec (j + k) i); try lia; f_equal; lia.
  - destruct (N.ltb_spec (i + (64 - k)) 64); [|lia]. cbn [andb].
    destruct (N.leb_spec j (i + (64 - k))), (N.leb_spec (j + k) i); try lia; f_equal; lia.
Qed.
Lemma rot_64 a : fits 64 a -> rotl64 a 64 = a.
Proof.
  intros Ha. apply N.bits_inj. intro i. change rotl64 with (rotlw 64). rewrite rotlw_testbit by (auto; lia).
  destruct (N.ltb_spec i 64); cbn [andb].
  - destruct (N.leb_spec 64 i); [lia|]. now rewrite N.add_0_r.
  - symmetry. now apply (fits_high 64).
Qed.
Ltac xor_solve := apply N.bits_inj; let i := fresh in intro i; rewrite ?N.lxor_spec; btauto.

(** ** theta *)
(** The column parities, their mixing, and T P = P + D P. *)
Definition planes := regs_ok 64 5.
Definition par (s : list N) : list N := map (fun i => xor (xor (xor (xor (get s i) (get s (5 + i))) (get s (10 + i))) (get s (15 + i))) (get s (20 + i))) (seq 0 5).
Definition Dp (P : list N) (x : nat) : N := xor (get P ((x + 4) mod 5)) (rotl64 (get P ((x + 1) mod 5)) 1).
Definition addD (s P : list N) : list N := map (fun i => xor (get s i) (Dp P (i mod 5))) (seq 0 25).
Definition T (P : list N) : list N := map (fun x => xor (get P x) (Dp P x)) (seq 0 5).
Lemma theta_addD s : length s = 25%nat -> theta s = addD s (par s).
Proof. intros L. explode 25%nat s. cbv -[rotl64 N.lxor]. reflexivity. Qed.
Lemma par_ok s : state_ok s -> planes (par s).
Proof. intros [L F]. explode 25%nat s. inv_forall. split; [reflexivity|]. all_fit. Qed.
Lemma addD_ok s P : state_ok s -> planes P -> state_ok (addD s P).
Proof. intros [L F] [LP FP]. explode 25%nat s. explode 5%nat P. inv_forall. split; [reflexivity|]. all_fit. Qed.
Lemma T_ok P : planes P -> planes (T P).
Proof. intros [LP FP]. explode 5%nat P. inv_forall. split; [reflexivity|]. all_fit. Qed.
Ltac list_eq := repeat (apply f_equal2; [|]); try reflexivity.
Lemma addD_addD s P : length s = 25%nat -> length P = 5%nat -> addD (addD s P) P = s.
Proof.
  intros L LP. explode 25%nat s. explode 5%nat P. cbv -[rotl64 N.lxor].
  repeat (apply f_equal2; [rewrite N.lxor_assoc, N.lxor_nilpotent, N.lxor_0_r; reflexivity|]). reflexivity.
Qed.
Lemma par_addD s P : length s = 25%nat -> length P = 5%nat -> par (addD s P) = map (fun x => xor (get (par s) x) (Dp P x)) (seq 0 5).
Proof.
  intros L LP. explode 25%nat s. explode 5%nat P. cbv -[rotl64 N.lxor].
  repeat (apply f_equal2; [xor_solve|]). reflexivity.
Qed.
(** Powers of T: with k doublings, lane x gets lanes x - i and x + i rotated by r. *)
Definition Tp (i : nat) (r : N) (P : list N) : list N :=
  map (fun x => xor (get P x) (xor (get P ((x + (5 - i)) mod 5)) (rotl64 (get P ((x + i) mod 5)) r))) (seq 0 5).
Lemma T_Tp P : length P = 5%nat -> T P = Tp 1 1 P.
Proof. intros LP. explode 5%nat P. reflexivity. Qed.
Lemma Tp_ok i r P : (1 <= i <= 4)%nat -> planes P -> planes (Tp i r P).
Proof.
  intros Hi [LP FP]. explode 5%nat P. inv_forall.
  assert (C : (i = 1 \/ i = 2 \/ i = 3 \/ i = 4)%nat) by lia.
  destruct C as [->|[->|[->| ->]]]; (split; [reflexivity|]; all_fit).
Qed.
Lemma Tp_Tp i r P : (1 <= i <= 4)%nat -> 2 * r <= 64 -> planes P -> Tp i r (Tp i r P) = Tp ((2 * i) mod 5) (r + r) P.
Proof.
  intros Hi Hr [LP FP]. explode 5%nat P. inv_forall.
  assert (X : forall a b, fits 64 a -> fits 64 b -> rotl64 (N.lxor a b) r = N.lxor (rotl64 a r) (rotl64 b r)) by (intros; apply rot_xor; auto; lia).
  assert (Y : forall a, fits 64 a -> rotl64 (rotl64 a r) r = rotl64 a (r + r)) by (intros; apply rot_rot; auto; lia).
  assert (C : (i = 1 \/ i = 2 \/ i = 3 \/ i = 4)%nat) by lia.
  destruct C as [->|[->|[->| ->]]]; cbv -[rotl64 N.lxor N.add fits]; rewrite ?X, ?Y by fitx;
    repeat (apply f_equal2; [xor_solve|]); reflexivity.
Qed.
Lemma iter_plus {A} (g : A -> A) n m x : Nat.iter (n + m) g x = Nat.iter n g (Nat.iter m g x).
Proof. induction n as [|n IH]; [reflexivity|]. cbn [Nat.add Nat.iter nat_rect]. unfold Nat.iter in *. cbn [nat_rect]. now rewrite IH. Qed.
Lemma iter_next {A} (g : A -> A) n x : Nat.iter (S n) g x = Nat.iter n g (g x).
Proof. replace (S n) with (n + 1)%nat by lia. apply iter_plus. Qed.
Lemma iter_double n i r : (1 <= i <= 4)%nat -> 2 * r <= 64 -> (forall P, planes P -> Nat.iter n T P = Tp i r P) ->
  forall P, planes P -> Nat.iter (n + n) T P = Tp ((2 * i) mod 5) (r + r) P.
Proof.
  intros Hi Hr H P HP. rewrite iter_plus. rewrite (H P HP), H by now apply Tp_ok. now apply Tp_Tp.
Qed.
Lemma T64 P : planes P -> Nat.iter 64 T P = Tp 4 64 P.
Proof.
  pose proof (fun P (H : planes P) => T_Tp P (proj1 H)) as H1.
  pose proof (iter_double 1 1 1 ltac:(lia) ltac:(lia) H1) as H2. cbn [Nat.add] in H2.
  pose proof (iter_double 2 2 2 ltac:(lia) ltac:(lia) H2) as H4.
  pose proof (iter_double 4 4 4 ltac:(lia) ltac:(lia) H4) as H8.
  pose proof (iter_double 8 3 8 ltac:(lia) ltac:(lia) H8) as H16.
  pose proof (iter_double 16 1 16 ltac:(lia) ltac:(lia) H16) as H32.
  pose proof (iter_double 32 2 32 ltac:(lia) ltac:(lia) H32) as H64.
  exact (H64 P).
Qed.
Lemma T192 P : planes P -> Nat.iter 192 T P = P.
Proof.
  intros HP. change 192%nat with (64 + (64 + 64))%nat. rewrite !iter_plus.
  rewrite (T64 P), (T64 (Tp 4 64 P)), T64; try (repeat apply Tp_ok; auto; lia).
  destruct HP as [LP FP]. explode 5%nat P. inv_forall.
  assert (Y : forall a, fits 64 a -> rotl64 a 64 = a) by apply rot_64.
  cbv -[rotl64 N.lxor fits]. rewrite !Y by fitx.
  repeat (apply f_equal2; [xor_solve|]); reflexivity.
Qed.
Definition Tinv (P : list N) : list N := Nat.iter 191 T P.
Lemma iter_planes n P : planes P -> planes (Nat.iter n T P).
Proof. intros H. induction n; [assumption|]. cbn. now apply T_ok. Qed.
Lemma T_Tinv P : planes P -> T (Tinv P) = P.
Proof. intros H. unfold Tinv. change (T (Nat.iter 191 T P)) with (Nat.iter 192 T P). now apply T192. Qed.
Lemma Tinv_T P : planes P -> Tinv (T P) = P.
Proof. intros H. unfold Tinv. rewrite <- iter_next. now apply T192. Qed.
Definition theta_inv (s : list N) : list N := addD s (Tinv (par s)).
Lemma T_par P : map (fun x => xor (get P x) (Dp P x)) (seq 0 5) = T P. Proof. reflexivity. Qed.
Global Opaque Tinv.
Lemma bij_theta : bijection_on state_ok theta.
Proof.
  apply (bij_inverse _ theta theta_inv).
  - intros s H. rewrite theta_addD by apply H. apply addD_ok; [assumption|now apply par_ok].
  - intros s H. apply addD_ok; [assumption|]. Transparent Tinv. apply iter_planes. now apply par_ok.
  - intros s H. pose proof (par_ok s H) as HP. unfold theta_inv. rewrite theta_addD by apply H.
    rewrite par_addD by (apply H || apply HP). rewrite T_par, Tinv_T by assumption. apply addD_addD; [apply H|apply HP].
  - intros s H. pose proof (par_ok s H) as HP. unfold theta_inv. set (q := Tinv (par s)).
    assert (Hq : planes q) by (apply iter_planes; assumption).
    pose proof (addD_ok s q H Hq) as Ha. rewrite theta_addD by apply Ha.
    replace (par (addD s q)) with q; [apply addD_addD; [apply H|apply Hq]|].
    rewrite par_addD by (apply H || apply Hq).
    assert (E : par s = T q) by (symmetry; now apply T_Tinv). rewrite E. clearbody q. clear -Hq.
    destruct Hq as [Lq Fq]. explode 5%nat q. cbv -[rotl64 N.lxor].
    repeat (apply f_equal2; [xor_solve|]); reflexivity.
Qed.

(** ** rho and pi *)
Definition rotr64 (x n : N) : N := rotrw 64 x n.
(** Lane i of the result comes from lane [rp_src i], rotated by [rp_rot i]. *)
Definition rhopi_inv (s : list N) : list N :=
  fst (fold_left (fun '(out, src) i =>
         let j := nth i piLane 0%nat in
         (upd out src (rotr64 (get s j) (nth i rotationConstants 0)), j)) (seq 0 24) (s, 1%nat)).
Lemma bij_rhopi : bijection_on state_ok rhopi.
Proof.
  apply (bij_inverse _ rhopi rhopi_inv).
  - intros s H. now apply RhoPi_ok.
  - intros s [L F]. explode 25%nat s. inv_forall. split; [reflexivity|].
    match goal with |- Forall (fits 64) ?x => let y := eval cbv -[rotr64] in x in change (Forall (fits 64) y) end.
    repeat (apply Forall_cons; [assumption || (apply rotrw_fits; assumption)|]). apply Forall_nil.
  - intros s [L F]. explode 25%nat s. inv_forall. cbv -[rotr64 rotl64 fits].
    repeat (apply f_equal2; [reflexivity || (apply rotr_rotl; [assumption|discriminate])|]). reflexivity.
  - intros s [L F]. explode 25%nat s. inv_forall. cbv -[rotr64 rotl64 fits].
    repeat (apply f_equal2; [reflexivity || (apply rotl_rotr; [assumption|discriminate])|]). reflexivity.
Qed.

(** ** chi *)
Definition chi_inv (s : list N) : list N :=
  map (fun i => let j := (i - i mod 5)%nat in
                let b := fun m => get s (j + (i + m) mod 5) in
                xor (b 0%nat) (N.land (xor (b 1%nat) ones64) (xor (b 2%nat) (N.land (xor (b 3%nat) ones64) (b 4%nat))))) (seq 0 25).
Lemma ones_bit i : N.testbit ones64 i = (i <? 64).
Proof.
  change ones64 with (N.ones 64). destruct (N.ltb_spec i 64); [now apply N.ones_spec_low|now apply N.ones_spec_high].
Qed.
Ltac bits5 a b c d e :=
  let i := fresh "i" in
  apply N.bits_inj; intro i; rewrite ?N.lxor_spec, ?N.land_spec, ?N.lxor_spec, ?N.land_spec, ?N.lxor_spec, ?N.land_spec, ?N.lxor_spec, ?ones_bit;
  destruct (N.ltb_spec i 64);
  [destruct (N.testbit a i), (N.testbit b i), (N.testbit c i), (N.testbit d i), (N.testbit e i); reflexivity
  |rewrite (fits_high 64 a), (fits_high 64 b), (fits_high 64 c), (fits_high 64 d), (fits_high 64 e) by assumption; reflexivity].
Lemma chi_row a b c d e : fits 64 a -> fits 64 b -> fits 64 c -> fits 64 d -> fits 64 e ->
  let n x := N.lxor x ones64 in
  let k x y z := N.lxor x (N.land (n y) z) in
  k (k a b c) (k b c d) (N.lxor (k c d e) (N.land (n (k d e a)) (k e a b))) = a /\
  (let v x y z t u := N.lxor x (N.land (n y) (N.lxor z (N.land (n t) u))) in
   k (v a b c d e) (v b c d e a) (v c d e a b) = a).
Proof. intros Ha Hb Hc Hd He. cbv zeta. split; bits5 a b c d e. Qed.
Lemma bij_chi : bijection_on state_ok chi.
Proof.
  apply (bij_inverse _ chi chi_inv).
  - intros s H. now apply Chi_ok.
  - intros s [L F]. explode 25%nat s. inv_forall. split; [reflexivity|].
    match goal with |- Forall (fits 64) ?x => let y := eval cbv -[N.lxor N.land ones64] in x in change (Forall (fits 64) y) end.
    repeat (apply Forall_cons; [apply xor_fits; [assumption|]; apply land_fits_r; apply xor_fits; [assumption|]; now apply land_fits_r|]). apply Forall_nil.
  - intros s [L F]. explode 25%nat s. inv_forall. cbv -[N.lxor N.land ones64 fits].
    repeat (apply f_equal2; [apply chi_row; assumption|]). reflexivity.
  - intros s [L F]. explode 25%nat s. inv_forall. cbv -[N.lxor N.land ones64 fits].
    repeat (apply f_equal2; [apply (fun a b c d e A B C D E => proj2 (chi_row a b c d e A B C D E)); assumption|]). reflexivity.
Qed.
(** ** iota and whole rounds *)
Lemma bij_iota c : fits 64 c -> bijection_on state_ok (iota c).
Proof.
  intros Hc. apply bij_involution.
  - intros s [L F]. explode 25%nat s. inv_forall. split; [reflexivity|]. cbn [iota upd get nth]. repeat constructor; auto. now apply xor_fits.
  - intros s [L F]. explode 25%nat s. cbn [iota upd get nth]. f_equal. unfold xor. rewrite N.lxor_assoc, N.lxor_nilpotent. apply N.lxor_0_r.
Qed.
Lemma bij_round i : (i < 24)%nat -> bijection_on state_ok (round_ i).
Proof.
  intros Hi. unfold round_.
  apply (bij_comp _ (fun s => chi (rhopi (theta s))) (iota _)); [|apply bij_iota; now apply RC_table].
  apply (bij_comp _ (fun s => rhopi (theta s)) chi); [|apply bij_chi].
  apply (bij_comp _ theta rhopi); [apply bij_theta|apply bij_rhopi].
Qed.
Lemma bij_Round i : (i < 24)%nat -> bijection_on state_ok (fun s => Round s i).
Proof.
  intros Hi. apply (bij_ext _ (round_ i)); [|now apply bij_round]. intros s H. symmetry. now apply Round_ok.
Qed.
Lemma bij_rounds n : forall r, (r + n <= 24)%nat -> bijection_on state_ok (fun s => fold_left Round (seq r n) s).
Proof.
  induction n as [|n IH]; intros r H; [apply bij_id|]. cbn [seq fold_left].
  apply (bij_comp _ (fun s => Round s r) (fun s => fold_left Round (seq (S r) n) s)); [apply bij_Round; lia|apply IH; lia].
Qed.
Lemma bij_keccak_f n : (n <= 24)%nat -> bijection_on state_ok (keccak_f n).
Proof. intros H. apply (bij_rounds n 0). lia. Qed.
