(** C106, C107.  The numbers of the summary line: the time and its unit, ppi and cpi. *)
From Coq Require Import NArith ZArith Reals Lia Lra List String.
From Coq Require Import ZifyBool ZifyN ZifyNat.
From Flocq Require Import Core.
From Flocq Require BinarySingleNaN.
From Verif Require Import Words WordLemmas HashTableModel HashTableSpec HashTableProofs HashTableMore HashTableProps Probing F64 FloatProofs FloatProofs2 PrintModel PrintProofs PrintProofs2.
Import ListNotations.
Open Scope R_scope.

(** C106.  Both versions of Duration.Seconds. *)
Definition a_seconds (seconds : Z -> f64) : Prop := seconds = seconds_div \/ seconds = seconds_mul.
Lemma shown_ok seconds d : a_seconds seconds -> (- 2 ^ 63 <= d < 2 ^ 63)%Z ->
  let (t, un) := shown_time seconds d in
  finite t = true /\ ap 10 (val t) (IZR d / ns un) /\
  un = (if 1000000000 <=? d then "s" else if 1000000 <=? d then "ms" else "us")%Z%string /\
  ((1000000 <= d)%Z -> 1 <= val t) /\ ((0 <= d < 1000000000)%Z -> 0 <= val t < 1000).
Proof.
  intros S Hd.
  assert (X : exists x, is (seconds d) x /\ ap 6 x (IZR d / 1000000000) /\ ((1000000000 <= d)%Z -> 1 <= x)) by (destruct S as [-> | ->]; [now apply seconds_div_ok|now apply seconds_mul_ok]).
  destruct X as (x & I & A & G).
  assert (M : (d = 1000000)%Z -> snd (cvt (seconds d)) = "ms"%string) by (intros ->; destruct S as [-> | ->]; vm_compute; reflexivity).
  pose proof (cvt_ok _ _ _ Hd I A G M) as Q. unfold shown_time. destruct (cvt (seconds d)) as [t un]. exact Q.
Qed.
(** The unit: exactly what the number of nanoseconds says, for all of int64. *)
Theorem c106_unit : forall seconds d, a_seconds seconds -> (- 2 ^ 63 <= d < 2 ^ 63)%Z ->
  let un := snd (shown_time seconds d) in
  (un = "s"%string <-> (1000000000 <= d)%Z) /\ (un = "ms"%string <-> (1000000 <= d < 1000000000)%Z) /\ (un = "us"%string <-> (d < 1000000)%Z).
Proof.
  intros seconds d S Hd. pose proof (shown_ok seconds d S Hd) as Q. destruct (shown_time seconds d) as [t un]. destruct Q as (_ & _ & Q & _). cbn [snd].
  destruct (Z.leb_spec 1000000000 d); [|destruct (Z.leb_spec 1000000 d)]; subst un; repeat split; intros; try lia; try reflexivity; discriminate.
Qed.
Print Assumptions c106_unit.
(** The number: the nanoseconds in that unit, up to a relative error of 2^-49. *)
Theorem c106_value : forall seconds d, a_seconds seconds -> (- 2 ^ 63 <= d < 2 ^ 63)%Z ->
  let t := fst (shown_time seconds d) in
  let exact := if (1000000000 <=? d)%Z then IZR d / 1000000000 else if (1000000 <=? d)%Z then IZR d / 1000000 else IZR d / 1000 in
  finite t = true /\ Rabs (val t - exact) <= Rabs exact / 2 ^ 49.
Proof.
  intros seconds d S Hd t exact. pose proof (shown_ok seconds d S Hd) as Q. subst t exact. destruct (shown_time seconds d) as [t un]. destruct Q as (F & A & Q & _). cbn [fst].
  split; [exact F|]. assert (E : (if (1000000000 <=? d)%Z then IZR d / 1000000000 else if (1000000 <=? d)%Z then IZR d / 1000000 else IZR d / 1000) = IZR d / ns un).
  { subst un. destruct (1000000000 <=? d)%Z; [reflexivity|]. now destruct (1000000 <=? d)%Z. }
  rewrite E. unfold ap in A. refine (Rle_trans _ _ _ A _). pose proof (Rabs_pos (IZR d / ns un)). unfold u. lra.
Qed.
Print Assumptions c106_value.
(** At least 1 from a millisecond on, and less than 1000 below a second. *)
Theorem c106_range : forall seconds d, a_seconds seconds -> (0 <= d < 2 ^ 63)%Z ->
  let t := fst (shown_time seconds d) in
  ((1000000 <= d)%Z -> 1 <= val t) /\ ((d < 1000000000)%Z -> 0 <= val t < 1000).
Proof.
  intros seconds d S Hd t. pose proof (shown_ok seconds d S ltac:(lia)) as Q. subst t. destruct (shown_time seconds d) as [t un]. destruct Q as (_ & _ & _ & G & L). cbn [fst].
  split; [exact G|]. intros B. apply L. lia.
Qed.
Print Assumptions c106_range.
Example c106_nonvacuous :
  let sf x := BinarySingleNaN.B2SF (fst x) in
  (sf (shown_time seconds_div 1500), snd (shown_time seconds_div 1500)) = (SpecFloat.S754_finite false 6755399441055744 (-52), "us"%string) /\
  (sf (shown_time seconds_div 1000000), snd (shown_time seconds_div 1000000)) = (SpecFloat.S754_finite false 4503599627370496 (-52), "ms"%string) /\
  (sf (shown_time seconds_div 999999), snd (shown_time seconds_div 999999)) = (SpecFloat.S754_finite false 8796084226114977 (-43), "us"%string) /\
  (sf (shown_time seconds_mul 999999), snd (shown_time seconds_mul 999999)) = (SpecFloat.S754_finite false 8796084226114979 (-43), "us"%string) /\
  snd (shown_time seconds_mul 999999999) = "ms"%string /\ snd (shown_time seconds_mul 1000000000) = "s"%string /\ snd (shown_time seconds_mul (-1500000000)) = "us"%string.
Proof. vm_compute. repeat split. Qed.

(** C107.  Open addressing: the counters behind ppi and cpi. *)
Theorem c107_bounds : forall np sz extra prime (hf : key -> N) ks t,
  let t0 := new_table np sz extra true prime in
  (1 <= size t0)%N -> fits 64 (size t0) -> insert_all hf t0 ks = Ret t -> ks <> [] ->
  let n := N.of_nat (length ks) in
  (n <= probes (st t) <= 2 * n - 1)%N /\ (2 * cols (st t) <= (n - 1) * (n - 2))%N /\
  (probes (st t) = n <-> NoDup (map (fun k => home prime (size t0) (hf k)) ks)).
Proof.
  intros np sz extra prime hf ks t t0 H1 H2 E K n. destruct (parked_new np sz extra prime hf ks t H1 H2 E) as (F & T & U & P & X1 & X2). fold t0 in P.
  assert (L : N.of_nat (length (map (fun k => home prime (size t0) (hf k)) ks)) = n) by now rewrite map_length.
  destruct (parked_bounds _ H1 _ _ _ _ _ P) as (A & B & C). rewrite L in A, C. destruct (parked_home _ H1 _ _ _ _ _ P) as (D1 & D2 & _). fold n in X1, X2.
  assert (1 <= n)%N by (destruct ks; [contradiction|unfold n; cbn [length]; lia]).
  split; [lia|]. split; [lia|]. split; intros Q; [apply D1; lia|]. specialize (D2 Q). lia.
Qed.
Print Assumptions c107_bounds.
(** Both bounds are reached when all keys have the same home. *)
Theorem c107_worst : forall np sz extra prime (hf : key -> N) ks t h,
  let t0 := new_table np sz extra true prime in
  (1 <= size t0)%N -> fits 64 (size t0) -> insert_all hf t0 ks = Ret t -> ks <> [] ->
  (forall k, In k ks -> home prime (size t0) (hf k) = h) ->
  let n := N.of_nat (length ks) in
  (probes (st t) = 2 * n - 1)%N /\ (2 * cols (st t) = (n - 1) * (n - 2))%N.
Proof.
  intros np sz extra prime hf ks t h t0 H1 H2 E K S n. destruct (parked_new np sz extra prime hf ks t H1 H2 E) as (F & T & U & P & X1 & X2). fold t0 in P.
  assert (L : N.of_nat (length (map (fun k => home prime (size t0) (hf k)) ks)) = n) by now rewrite map_length.
  destruct (parked_same _ H1 _ _ _ _ _ h P) as (_ & A & B).
  { apply Forall_forall. intros a Ha. apply in_map_iff in Ha. destruct Ha as (k & <- & Hk). symmetry. now apply S. }
  rewrite L in A, B. fold n in X1, X2. assert (1 <= n)%N by (destruct ks; [contradiction|unfold n; cbn [length]; lia]). split; [lia|]. destruct (N.eq_dec n 1) as [->|]; nia.
Qed.
Print Assumptions c107_worst.
Lemma small_1000 z : (0 <= z <= 2 ^ 70)%Z -> (0 <= z <= 2 ^ 1000)%Z.
Proof. intros H. split; [lia|]. apply Z.le_trans with (2 ^ 70)%Z; [lia|]. apply Z.pow_le_mono_r; lia. Qed.
(** ppi as shown: the float64 nearest to the quotient, from 1 (no two keys have the same home) to less than 2. *)
Theorem c107_ppi : forall np sz extra prime (hf : key -> N) ks t,
  let t0 := new_table np sz extra true prime in
  (1 <= size t0)%N -> fits 64 (size t0) -> insert_all hf t0 ks = Ret t -> ks <> [] ->
  (Z.of_nat (length ks) <= 2 ^ 52)%Z ->
  finite (shown_ppi t) = true /\
  val (shown_ppi t) = rnd (IZR (Z.of_N (probes (st t))) / IZR (Z.of_nat (length ks))) /\
  1 <= val (shown_ppi t) < 2 /\
  (val (shown_ppi t) = 1 <-> NoDup (map (fun k => home prime (size t0) (hf k)) ks)).
Proof.
  intros np sz extra prime hf ks t t0 H1 H2 E K B. destruct (c107_bounds np sz extra prime hf ks t H1 H2 E K) as (P & _ & D).
  destruct (c04_stats_oa np sz extra prime hf ks t H1 H2 E) as (I & _). cbv zeta in P. fold t0 in D. set (n := N.of_nat (length ks)) in *. rewrite <- D.
  change (2 ^ 52)%Z with 4503599627370496%Z in B. set (p := Z.of_N (probes (st t))). assert (N1 : (1 <= n)%N) by (destruct ks; [contradiction|unfold n; cbn [length]; lia]).
  replace (Z.of_nat (length ks)) with (Z.of_N n) in * by (unfold n; lia).
  assert (Rn : 1 <= IZR (Z.of_N n) <= 4503599627370496) by (split; apply IZR_le; lia).
  assert (Rp : IZR (Z.of_N n) <= IZR p <= 2 * IZR (Z.of_N n) - 1) by (split; [apply IZR_le; unfold p; lia|]; rewrite <- (mult_IZR 2), <- minus_IZR; apply IZR_le; unfold p; lia).
  set (q := IZR p / IZR (Z.of_N n)).
  assert (Eq : IZR p = q * IZR (Z.of_N n)) by (unfold q; field; lra).
  assert (Q1 : 1 <= q). { apply Rmult_le_reg_r with (IZR (Z.of_N n)); lra. }
  assert (u52 : u * 2 * IZR (Z.of_N n) <= 1) by (unfold u; lra).
  assert (Q2 : q <= 2 - 2 * u). { apply Rmult_le_reg_r with (IZR (Z.of_N n)); lra. }
  assert (Is : is (shown_ppi t) (rnd q)).
  { unfold shown_ppi. rewrite I. fold n p. apply fdiv_ok.
    - apply fofZ_int. change (2 ^ 53)%Z with 9007199254740992%Z. unfold p. lia.
    - apply fofZ_int. change (2 ^ 53)%Z with 9007199254740992%Z. lia.
    - lra.
    - fold q. assert (2 <= bp 1000) by (change 2 with (bp 1); apply bpow_le; lia). unfold u in Q2. lra. }
  destruct Is as [F V]. split; [exact F|]. split; [exact V|]. rewrite V.
  assert (r1 : rnd 1 = 1) by (apply (rnd_int 1); lia).
  assert (r2 : rnd (2 - 2 * u) = 2 - 2 * u).
  { replace (2 - 2 * u) with (IZR 9007199254740991 / bp 52) by (rewrite bp_Z by lia; change (2 ^ 52)%Z with 4503599627370496%Z; unfold u; lra).
    apply rnd_div_pow; lia. }
  assert (r3 : rnd (1 + 2 * u) = 1 + 2 * u).
  { replace (1 + 2 * u) with (IZR 4503599627370497 / bp 52) by (rewrite bp_Z by lia; change (2 ^ 52)%Z with 4503599627370496%Z; unfold u; lra).
    apply rnd_div_pow; lia. }
  assert (U : 0 < u) by (unfold u; lra).
  pose proof (rnd_le _ _ Q1) as R1. rewrite r1 in R1. pose proof (rnd_le _ _ Q2) as R2. rewrite r2 in R2. split; [lra|].
  split; intros A.
  - destruct (N.eq_dec (probes (st t)) n) as [Eq1|Ne]; [exact Eq1|]. exfalso.
    assert (IZR (Z.of_N n) + 1 <= IZR p) by (rewrite <- plus_IZR; apply IZR_le; unfold p; lia).
    assert (Q3 : 1 + 2 * u <= q). { apply Rmult_le_reg_r with (IZR (Z.of_N n)); lra. }
    apply rnd_le in Q3. rewrite r3 in Q3. lra.
  - replace q with 1; [exact r1|]. unfold q, p. rewrite A. field. lra.
Qed.
Print Assumptions c107_ppi.
(** cpi as shown: 100 times the quotient, up to a relative error of 2^-50. *)
Theorem c107_cpi : forall np sz extra prime (hf : key -> N) ks t,
  let t0 := new_table np sz extra true prime in
  (1 <= size t0)%N -> fits 64 (size t0) -> insert_all hf t0 ks = Ret t -> ks <> [] ->
  (Z.of_nat (length ks) <= 2 ^ 32)%Z ->
  let exact := 100 * IZR (Z.of_N (cols (st t))) / IZR (Z.of_nat (length ks)) in
  finite (shown_cpi t) = true /\ Rabs (val (shown_cpi t) - exact) <= exact / 2 ^ 50 /\ exact <= 50 * IZR (Z.of_nat (length ks)).
Proof.
  intros np sz extra prime hf ks t t0 H1 H2 E K B exact. destruct (c107_bounds np sz extra prime hf ks t H1 H2 E K) as (_ & C & _).
  destruct (c04_stats_oa np sz extra prime hf ks t H1 H2 E) as (I & _). cbv zeta in C. set (n := N.of_nat (length ks)) in *.
  change (2 ^ 32)%Z with 4294967296%Z in B. assert (N1 : (1 <= n)%N) by (destruct ks; [contradiction|unfold n; cbn [length]; lia]).
  subst exact. replace (Z.of_nat (length ks)) with (Z.of_N n) in * by (unfold n; lia). set (c := Z.of_N (cols (st t))) in *.
  assert (Rn : 1 <= IZR (Z.of_N n) <= 4294967296) by (split; apply IZR_le; lia).
  assert (Cn : (0 <= 2 * c <= Z.of_N n * Z.of_N n)%Z) by (unfold c; split; [lia|]; assert ((n - 1) * (n - 2) <= n * n)%N by (apply N.mul_le_mono; lia); lia).
  assert (Rc : 0 <= 2 * IZR c <= IZR (Z.of_N n) * IZR (Z.of_N n)) by (rewrite <- (mult_IZR 2), <- mult_IZR; split; apply IZR_le; lia).
  assert (Cb : (0 <= c <= 2 ^ 70)%Z) by (split; [lia|]; change (2 ^ 70)%Z with 1180591620717411303424%Z; nia).
  set (q := IZR c / IZR (Z.of_N n)).
  assert (Eq : IZR c = q * IZR (Z.of_N n)) by (unfold q; field; lra).
  assert (Q0 : 0 <= q). { apply Rmult_le_reg_r with (IZR (Z.of_N n)); lra. }
  assert (Q2 : 2 * q <= IZR (Z.of_N n)). { apply Rmult_le_reg_r with (IZR (Z.of_N n)); lra. }
  replace (100 * IZR c / IZR (Z.of_N n)) with (q * 100) by (unfold q; field; lra).
  assert (b0 : 1 <= bp 990) by (change 1 with (bp 0); apply bpow_le; lia). pose proof bp990 as b1.
  assert (Ti : forall k, 1 <= k -> q * k = 0 \/ bp (-1000) <= Rabs (q * k)).
  { intros k Hk. destruct (Z.eq_dec c 0) as [Z0|Z0]; [left; unfold q; rewrite Z0; unfold Rdiv; ring|right]. assert (1 <= IZR c) by (apply IZR_le; lia).
    assert (q1 : / 4294967296 <= q). { apply Rmult_le_reg_r with (IZR (Z.of_N n)); [lra|]. rewrite <- Eq. lra. }
    rewrite Rabs_pos_eq by nra. pose proof nano_exp as ne. assert (bp (-1000) <= bp (-32)) by (apply bpow_le; lia). change (bp (-32)) with (/ 4294967296) in *. nra. }
  (* float64(Cols) *)
  assert (Ac : ap 2 (rnd (IZR c)) (IZR c)).
  { replace 2 with (0 + 2) by lra. apply rnd_ap; [apply ap_refl|lra|]. destruct (Z.eq_dec c 0) as [->|Z0]; [now left|right]. assert (1 <= IZR c) by (apply IZR_le; lia). rewrite Rabs_pos_eq by lra. pose proof nano_exp. lra. }
  assert (Aq : ap 2 (rnd (IZR c) / IZR (Z.of_N n)) q) by (apply ap_mul; [exact Ac|apply Rlt_le, Rinv_0_lt_compat; lra]).
  assert (Ar : ap 4 (rnd (rnd (IZR c) / IZR (Z.of_N n))) q) by (replace 4 with (2 + 2) by lra; apply rnd_ap; [exact Aq|lra|]; specialize (Ti 1 ltac:(lra)); now rewrite Rmult_1_r in Ti).
  assert (Am : ap 4 (rnd (rnd (IZR c) / IZR (Z.of_N n)) * 100) (q * 100)) by (apply ap_mul; [exact Ar|lra]).
  assert (As : ap 6 (rnd (rnd (rnd (IZR c) / IZR (Z.of_N n)) * 100)) (q * 100)) by (replace 6 with (4 + 2) by lra; apply rnd_ap; [exact Am|lra|apply Ti; lra]).
  assert (Is : is (shown_cpi t) (rnd (rnd (rnd (IZR c) / IZR (Z.of_N n)) * 100))).
  { unfold shown_cpi. rewrite I. fold n c. apply fmul_s; [apply fdiv_s| |].
    - apply fofZ_ok. now apply small_1000.
    - apply fofZ_s. change (2 ^ 53)%Z with 9007199254740992%Z. lia.
    - lra.
    - apply Rle_trans with (2 := b1). apply (ap_big 2 _ _ Aq); [lra|]. rewrite Rabs_pos_eq; lra.
    - apply fofZ_s. lia.
    - apply Rle_trans with (2 := b1). apply (ap_big 4 _ _ Am); [lra|]. rewrite Rabs_pos_eq; lra. }
  destruct Is as [F V]. split; [exact F|]. rewrite V. unfold ap in As. rewrite (Rabs_pos_eq (q * 100)) in As by lra. split; [|lra]. unfold u in As. lra.
Qed.
Print Assumptions c107_cpi.
(** Without an insertion both are NaN. *)
Theorem c107_empty : forall np sz extra prime,
  let t0 := new_table np sz extra true prime in
  BinarySingleNaN.is_nan (shown_ppi t0) = true /\ BinarySingleNaN.is_nan (shown_cpi t0) = true.
Proof.
  intros np sz extra prime t0. destruct (new_table_fields np sz extra true prime) as (_ & _ & S & _). fold t0 in S. unfold shown_ppi, shown_cpi. rewrite S. vm_compute. split; reflexivity.
Qed.
Print Assumptions c107_empty.
Example c107_nonvacuous : exists t,
  insert_all (fun _ => 3%N) (new_table ex_np 8 0 true false) [[1]; [2]; [3]; [4]]%N = Ret t /\
  (probes (st t), cols (st t)) = (7, 3)%N /\
  BinarySingleNaN.B2SF (shown_ppi t) = SpecFloat.S754_finite false 7881299347898368 (-52) /\
  BinarySingleNaN.B2SF (shown_cpi t) = SpecFloat.S754_finite false 5277655813324800 (-46).
Proof. eexists. split; [vm_compute; reflexivity|]. split; [vm_compute; reflexivity|]. split; vm_compute; reflexivity. Qed.
Example c107_spread : exists t,
  insert_all (fun k => hd 0 k)%N (new_table ex_np 8 0 true false) [[1]; [2]; [3]; [4]]%N = Ret t /\
  NoDup (map (fun k => home false 8 (hd 0 k)) [[1]; [2]; [3]; [4]])%N /\
  BinarySingleNaN.B2SF (shown_ppi t) = SpecFloat.S754_finite false 4503599627370496 (-52) /\
  BinarySingleNaN.B2SF (shown_cpi t) = SpecFloat.S754_zero false.
Proof. eexists. split; [vm_compute; reflexivity|]. split; [vm_compute; repeat constructor; cbn; intuition discriminate|]. split; vm_compute; reflexivity. Qed.
