(** Proofs about package keccak under other build settings: the rounds on vector registers. *)
From Verif Require Import Words WordLemmas ListLemmas Mem SLP KeccakModel KeccakSpec KeccakProofs KeccakProofs2 CkProg CkRounds CkVecModel CkSetProg.
Open Scope N_scope.
Local Transparent theta rhopi chi iota.

(** One round on lanes and their column parities. *)
Definition round1 (c : N) (s P : list N) : list N := iota c (chi (thetaB s P)).

(** ** 64-bit registers *)
Definition lanes64 (b : nat) (m : vmem N) : list N := map (fun i => vars m (b + i)%nat) (seq 0 25).
Definition cols64 (m : vmem N) : list N := map (fun i => vars m (50 + i)%nat) (seq 0 5).
Ltac vround := cbv -[N.lxor N.lor N.land shl64 shlw shr ones64 fits].
Lemma v64_AE c m : lanes64 25 (run64 (v64_round c 0 25) m) = round1 c (lanes64 0 m) (cols64 m) /\
  cols64 (run64 (v64_round c 0 25) m) = par (round1 c (lanes64 0 m) (cols64 m)).
Proof. destruct m as [g s i]. vround. split; reflexivity. Qed.
Lemma v64_EA c m : lanes64 0 (run64 (v64_round c 25 0) m) = round1 c (lanes64 25 m) (cols64 m) /\
  cols64 (run64 (v64_round c 25 0) m) = par (round1 c (lanes64 25 m) (cols64 m)).
Proof. destruct m as [g s i]. vround. split; reflexivity. Qed.
Lemma v64_last_EA c m : lanes64 0 (run64 (v64_last c 25 0) m) = round1 c (lanes64 25 m) (cols64 m).
Proof. destruct m as [g s i]. vround. reflexivity. Qed.
Lemma v64_prepare_ok m : lanes64 0 (run64 v64_prepare m) = lanes64 0 m /\ cols64 (run64 v64_prepare m) = par (lanes64 0 m).
Proof.
  destruct m as [g s i]. split; [reflexivity|]. vround.
  repeat (apply f_equal2; [now rewrite !N.lxor_assoc|]). reflexivity.
Qed.
Lemma v64_copy_ok m : lanes64 0 (run64 (v64_copy 0 25) m) = lanes64 25 m /\ cols64 (run64 (v64_copy 0 25) m) = cols64 m.
Proof. destruct m as [g s i]. split; reflexivity. Qed.
Lemma v64_store_ok m : length (vstate m) = 25%nat -> vstate (run64 (v64_store 0) m) = lanes64 0 m.
Proof. destruct m as [g s i]. cbn [vstate]. intros L. explode 25%nat s. reflexivity. Qed.

(** ** 128-bit registers *)
Definition lane_pos : list (nat * bool) :=
  [(0, false); (1, false); (12, false); (13, false); (14, false);
   (15, false); (0, true); (1, true); (18, false); (19, false);
   (5, false); (6, false); (22, false); (23, false); (24, false);
   (25, false); (5, true); (6, true); (28, false); (29, false);
   (30, false); (31, false); (32, false); (33, false); (34, false)]%nat.
Definition half (x : N * N) (h : bool) : N := if h then snd x else fst x.
Definition lanes128 (b : nat) (m : vmem (N * N)) : list N := map (fun '(r, h) => half (vars m (b + r)%nat) h) lane_pos.
Definition cols128 (m : vmem (N * N)) : list N := map (fun '(r, h) => half (vars m r) h) [(115, false); (115, true); (117, false); (117, true); (126, false)]%nat.
Ltac xor_bits := apply N.bits_inj; let i := fresh "i" in intro i; rewrite !N.lxor_spec;
  repeat match goal with |- context [N.testbit ?x i] => destruct (N.testbit x i) end; reflexivity.
Lemma sh1 b g k m s : N.lxor (N.lxor (N.lxor b k) s) (N.lxor g m) = N.lxor (N.lxor (N.lxor (N.lxor b g) k) m) s.
Proof. xor_bits. Qed.
Lemma sh2 b g k m s : N.lxor (N.lxor (N.lxor g m) s) (N.lxor b k) = N.lxor (N.lxor (N.lxor (N.lxor b g) k) m) s.
Proof. xor_bits. Qed.
Lemma sh3 b g k m s : N.lxor s (N.lxor (N.lxor b k) (N.lxor g m)) = N.lxor (N.lxor (N.lxor (N.lxor b g) k) m) s.
Proof. xor_bits. Qed.
Ltac shapes := apply f_equal2; [apply sh1|]; apply f_equal2; [apply sh2|]; apply f_equal2; [apply sh1|];
  apply f_equal2; [apply sh2|]; apply f_equal2; [apply sh3|]; reflexivity.
Lemma v128_AE c m : lanes128 35 (run128 (v128_round c 0 35) m) = round1 c (lanes128 0 m) (cols128 m) /\
  cols128 (run128 (v128_round c 0 35) m) = par (round1 c (lanes128 0 m) (cols128 m)).
Proof. destruct m as [g s i]. vround. rewrite !N.lxor_0_r. split; [reflexivity|shapes]. Qed.
Lemma v128_EA c m : lanes128 0 (run128 (v128_round c 35 0) m) = round1 c (lanes128 35 m) (cols128 m) /\
  cols128 (run128 (v128_round c 35 0) m) = par (round1 c (lanes128 35 m) (cols128 m)).
Proof. destruct m as [g s i]. vround. rewrite !N.lxor_0_r. split; [reflexivity|shapes]. Qed.
Lemma v128_copy_ok m : lanes128 0 (run128 (v128_copy 0 35) m) = lanes128 35 m /\ cols128 (run128 (v128_copy 0 35) m) = cols128 m.
Proof. destruct m as [g s i]. split; reflexivity. Qed.
Lemma v128_store_ok m : length (vstate m) = 25%nat -> vstate (run128 (v128_store 0) m) = lanes128 0 m.
Proof. destruct m as [g s i]. cbn [vstate]. intros L. explode 25%nat s. reflexivity. Qed.

(** ** Loading the lanes *)
Definition xor_words (n : nat) (s d : list N) : list N :=
  map (fun i => if Nat.ltb i n then N.lxor (nth i s 0) (nth i d 0) else nth i s 0) (seq 0 25).
Lemma v64_loads m : lanes64 0 (run64 (v64_load 0) m) = xor_words 0 (vstate m) (vinput m) /\
  lanes64 0 (run64 (v64_load576 0) m) = xor_words 9 (vstate m) (vinput m) /\
  lanes64 0 (run64 (v64_load832 0) m) = xor_words 13 (vstate m) (vinput m) /\
  lanes64 0 (run64 (v64_load1024 0) m) = xor_words 16 (vstate m) (vinput m) /\
  lanes64 0 (run64 (v64_load1088 0) m) = xor_words 17 (vstate m) (vinput m) /\
  lanes64 0 (run64 (v64_load1152 0) m) = xor_words 18 (vstate m) (vinput m) /\
  lanes64 0 (run64 (v64_load1344 0) m) = xor_words 21 (vstate m) (vinput m).
Proof. destruct m as [g s i]. repeat split; reflexivity. Qed.
Definition loaded (l : vprog) (n : nat) (m : vmem (N * N)) : Prop :=
  lanes128 0 (run128 l m) = xor_words n (vstate m) (vinput m) /\ cols128 (run128 l m) = par (xor_words n (vstate m) (vinput m)).
Lemma v128_loads m : loaded (v128_load 0) 0 m /\ loaded (v128_load576 0) 9 m /\ loaded (v128_load832 0) 13 m /\
  loaded (v128_load1024 0) 16 m /\ loaded (v128_load1088 0) 17 m /\ loaded (v128_load1152 0) 18 m /\ loaded (v128_load1344 0) 21 m.
Proof.
  destruct m as [g s i].
  split; [|split; [|split; [|split; [|split; [|split]]]]]; unfold loaded; vround; rewrite ?N.lxor_0_r; split; reflexivity.
Qed.
