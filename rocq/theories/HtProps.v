(** Property theorems C45-C48 and C72-C77 (the command in ht.go). *)
From Coq Require Import NArith ZArith List Arith String Bool Lia Permutation.
From Verif Require Import Words WordLemmas Mem ListLemmas HashTableModel HashTableSpec HashTableProps HashfModel HtModel HtSpec HtProofs HtMore HtKeys HtRuns.
Import ListNotations.
Open Scope N_scope.
Open Scope list_scope.

(** C45.  The words come in counter order, the first position fastest ... *)
Theorem c45_order : forall perms, perms <> [] -> Forall (fun p => p <> []) perms -> Forall (Forall byte) perms ->
  genWords perms = (map (fun i => flat_map encoded (combination perms i))
                        (seq 0 (product (map (@List.length N) perms))), Ok tt).
Proof.
  intros perms Hne Hp Hb. rewrite genWords_lemma by assumption. f_equal. apply map_ext_in. intros i _.
  apply flat_map_utf8. eapply choice_bytes; [exact Hb|apply combination_choice; exact Hp].
Qed.
Print Assumptions c45_order.
(** ... they are exactly the choices of one letter per position, each once if
    the letters of every position are distinct. *)
Theorem c45_every_combination : forall perms, perms <> [] -> Forall (fun p => p <> []) perms -> Forall (Forall byte) perms ->
  (forall w, In w (fst (genWords perms)) <-> exists cs, choice cs perms /\ w = flat_map encoded cs) /\
  List.length (fst (genWords perms)) = product (map (@List.length N) perms) /\
  (Forall (@NoDup N) perms -> NoDup (fst (genWords perms))).
Proof.
  intros perms Hne Hp Hb. split; [|split].
  - intros w. apply genWords_members; assumption.
  - rewrite genWords_lemma by assumption. cbn [fst]. now rewrite map_length, seq_length.
  - apply genWords_nodup; assumption.
Qed.
Print Assumptions c45_every_combination.
(** An empty list yields the empty word and then panics; an empty string
    panics before any word. *)
Theorem c45_panics : genWords [] = ([[]], Panics) /\
  forall perms, In [] perms -> genWords perms = ([], Panics).
Proof.
  split; [reflexivity|]. intros perms H. apply genWords_empty_string; [|exact H]. destruct perms; [destruct H|discriminate].
Qed.
Print Assumptions c45_panics.
Example c45_nonvacuous : genWords [[97; 98]; [99; 100; 200]] =
  ([[97; 99]; [98; 99]; [97; 100]; [98; 100]; [97; 195; 136]; [98; 195; 136]], Ok tt).
Proof. vm_compute. reflexivity. Qed.

(** C46.  Every file is complete lines followed by text without a newline ... *)
Theorem c46_every_file : forall s, exists ls rest, Forall one_line ls /\ one_line rest /\ s = joined ls rest.
Proof. exact decompose. Qed.
Print Assumptions c46_every_file.
(** ... no blank line: all complete lines are delivered, trimmed, and counted; *)
Theorem c46_lines : forall ls rest, Forall one_line ls -> Forall (fun l => ~ blank l) ls -> one_line rest ->
  exists ts, Forall2 trimmed ls ts /\ ReadFile (Some (joined ls rest)) = (ts, Ok (List.length ls)).
Proof. exact readfile_good. Qed.
Print Assumptions c46_lines.
(** the first blank line stops the program after the lines before it. *)
Theorem c46_blank_panics : forall ls l ls' rest, Forall one_line ls -> Forall (fun l => ~ blank l) ls ->
  one_line l -> blank l ->
  exists ts, Forall2 trimmed ls ts /\ ReadFile (Some (joined (ls ++ l :: ls') rest)) = (ts, Panics).
Proof. exact readfile_bad. Qed.
Print Assumptions c46_blank_panics.
(** The trimming is a function. *)
Theorem c46_trimmed_unique : forall l t1 t2, trimmed l t1 -> trimmed l t2 -> t1 = t2.
Proof. exact trimmed_fun. Qed.
Print Assumptions c46_trimmed_unique.
(** Not every line is delivered: text after the last newline is lost. *)
Theorem c46_last_line_refuted : exists s, s <> [] /\ one_line s /\ ReadFile (Some s) = ([], Ok 0%nat).
Proof. exists [97]. repeat split; [discriminate|]. intros [E|[]]; discriminate E. Qed.
Print Assumptions c46_last_line_refuted.
Example c46_nonvacuous :
  ReadFile (Some (joined [[97; 32; 13]; [98]; [32]] [99])) = ([[97]; [98]; []], Ok 3%nat) /\
  ReadFile (Some (joined [[97]; [13]; [98]] [])) = ([[97]], Panics).
Proof. vm_compute. auto. Qed.

(** C47.  Duplicates in a slice: neighbours that are equal; for a sorted slice
    the length minus the number of distinct values. *)
Theorem c47_neighbours : forall u, fst (checkForDups32 u) =
  List.length (filter (fun k => nth k u 0 =? nth (S k) u 0) (seq 0 (List.length u - 1))).
Proof. intros [|c l]; [reflexivity|]. apply check_dups. cbn. lia. Qed.
Print Assumptions c47_neighbours.
Theorem c47_dups : forall u, sorted u -> (fst (checkForDups32 u) + distinct u = List.length u)%nat.
Proof. intros u H. exact (proj1 (check_sorted u H)). Qed.
Print Assumptions c47_dups.
(** The second result is the largest number of repeats of any value but the last. *)
Theorem c47_mrun : forall u, sorted u ->
  snd (checkForDups32 u) = max_of (map (repeats u) (filter (fun v => negb (v =? last u 0)) u)).
Proof. intros u H. exact (proj2 (check_sorted u H)). Qed.
Print Assumptions c47_mrun.
Theorem c47_mrun_refuted : exists u, sorted u /\ snd (checkForDups32 u) <> max_of (map (repeats u) u).
Proof. exists [1; 1]. split; [cbn; lia|]. vm_compute. discriminate. Qed.
Print Assumptions c47_mrun_refuted.
Example c47_nonvacuous : sorted [1; 1; 1; 2; 3; 3; 4; 4; 4; 4] /\
  checkForDups32 [1; 1; 1; 2; 3; 3; 4; 4; 4; 4] = (6%nat, 2%nat).
Proof. split; [cbn; lia|]. vm_compute. reflexivity. Qed.

(** C48. *)
Theorem c48_inverts : forall s bs, hex_of s bs -> (List.length bs <= 1000)%nat -> hexToBytes s = Ok bs.
Proof. exact hexToBytes_ok. Qed.
Print Assumptions c48_inverts.
Theorem c48_panics : forall s, hexToBytes s = Panics <->
  Nat.odd (List.length s) = true \/ (2000 < List.length s)%nat \/ Exists (fun c => ~ exists v, hex_digit c v) s.
Proof. exact hexToBytes_panics. Qed.
Print Assumptions c48_panics.
Theorem c48_total : forall s, hexToBytes s = Panics \/ exists bs, hexToBytes s = Ok bs /\ hex_of s bs.
Proof. exact hexToBytes_total. Qed.
Print Assumptions c48_total.
Example c48_nonvacuous : hex_of [48; 70; 97; 65] [15; 170] /\ hexToBytes [48; 70; 97; 65] = Ok [15; 170].
Proof.
  split; [|vm_compute; reflexivity].
  change [15; 170] with [16 * 0 + 15; 16 * 10 + 10].
  repeat constructor; unfold hex_digit; lia.
Qed.

(** C72.  Reversal: of the bytes, each re-encoded as UTF-8. *)
Theorem c72_reverse : forall s, Forall byte s -> reverse s = flat_map encoded (rev s).
Proof. exact reverse_encoded. Qed.
Print Assumptions c72_reverse.
Theorem c72_ascii : forall s, Forall (fun c => c < 128) s -> reverse s = rev s /\ reverse (reverse s) = s.
Proof.
  intros s H. rewrite reverse_ascii by exact H. split; [reflexivity|].
  rewrite reverse_ascii by (apply Forall_rev'; exact H). apply rev_involutive.
Qed.
Print Assumptions c72_ascii.
Theorem c72_not_a_reversal_refuted : exists s, Forall byte s /\ reverse s <> rev s /\ reverse (reverse s) <> s /\
  List.length (reverse s) <> List.length s.
Proof. exists [200]. split; [constructor; [unfold byte; lia|constructor]|]. vm_compute. repeat split; discriminate. Qed.
Print Assumptions c72_not_a_reversal_refuted.
(** Different lines give different keys, in every file test. *)
Theorem c72_keys_distinct : forall a b, 
  (keyA a = keyA b -> a = b) /\ (keyB a = keyB b -> a = b) /\ (keyC a = keyC b -> a = b) /\ (keyD a = keyD b -> a = b) /\
  (keyE a = keyE b -> a = b) /\ (keyF a = keyF b -> a = b) /\
  (Forall byte a -> Forall byte b -> keyG a = keyG b -> a = b).
Proof.
  assert (Half : forall (a b x y : list N), List.length a = List.length b -> a ++ x = b ++ y -> a = b).
  { induction a as [|c a IH]; intros [|d b] x y L E; try discriminate L; [reflexivity|].
    cbn [app] in E. injection E as -> E. f_equal. eapply IH; [now injection L|exact E]. }
  intros a b. unfold keyA, keyB, keyC, keyD, keyE, keyF, keyG. repeat split.
  - auto.
  - intros E. apply app_inj_tail in E. tauto.
  - intros E. pose proof (f_equal (@List.length N) E) as L. rewrite !app_length in L. cbn [List.length] in L.
    eapply Half; [|exact E]. lia.
  - intros E. cbn [app] in E. congruence.
  - intros E. pose proof (f_equal (@List.length N) E) as L. rewrite !app_length in L.
    eapply Half; [|exact E]. lia.
  - intros E. pose proof (f_equal (@List.length N) E) as L. rewrite !app_length in L.
    eapply Half; [|exact E]. lia.
  - apply reverse_inj.
Qed.
Print Assumptions c72_keys_distinct.
(** TestC is announced as adding four newlines; it also doubles the line. *)
Theorem c72_testC_refuted : forall line, keyC line = line ++ [10; 10; 10; 10] <-> line = [].
Proof.
  intros line. split; [|intros ->; reflexivity]. intros E. apply (f_equal (@List.length N)) in E.
  unfold keyC in E. rewrite !app_length in E. cbn [List.length] in E. destruct line; [reflexivity|cbn [List.length] in E; lia].
Qed.
Print Assumptions c72_testC_refuted.
Example c72_nonvacuous : reverse [97; 98; 200] = [195; 136; 98; 97] /\ reverse [97; 98] = [98; 97] /\
  keyC [97] = [97; 97; 10; 10; 10; 10].
Proof. vm_compute. auto. Qed.

(** C73.  Generated keys.  Integers: distinct exactly up to 2^32 of them. *)
Theorem c73_integers : forall ni, List.length (keysI ni) = Z.to_nat ni /\
  (forall i, (i < Z.to_nat ni)%nat -> let x := N.of_nat i in
     nth i (keysI ni) [] = [x mod 256; x / 256 mod 256; x / 65536 mod 256; x / 16777216 mod 256]) /\
  (NoDup (keysI ni) <-> (ni <= 2 ^ 32)%Z).
Proof.
  intros ni. split; [|split; [|apply keysI_nodup]].
  - unfold keysI. now rewrite map_length, seq_length.
  - intros i Hi. cbv zeta. unfold keysI.
    rewrite nth_indep with (d' := int_key 0) by (rewrite map_length, seq_length; exact Hi).
    rewrite map_nth, seq_nth by exact Hi. apply int_key_le4.
Qed.
Print Assumptions c73_integers.
(** Marching ones, for any key length: every one-bit key once, in bit order. *)
Theorem c73_marching : forall n,
  List.length (march n) = (8 * n)%nat /\ NoDup (march n) /\
  (forall b, (b < 8 * n)%nat -> one_bit n b (nth b (march n) [])) /\
  (forall k, In k (march n) <-> exists b, (b < 8 * n)%nat /\ one_bit n b k).
Proof.
  intros n. split; [apply march_length|]. split; [apply march_nodup|]. split; [apply march_one_bit|apply march_members].
Qed.
Print Assumptions c73_marching.
(** Every three-byte key once. *)
Theorem c73_three_bytes : NoDup (triples 256) /\ N.of_nat (List.length (triples 256)) = 2 ^ 24 /\
  forall k, In k (triples 256) <-> List.length k = 3%nat /\ Forall byte k.
Proof.
  split; [apply triples_nodup|]. split.
  - rewrite triples_length. rewrite !Nat2N.inj_mul. reflexivity.
  - intros k. rewrite triples_members. change (N.of_nat 256) with 256. unfold byte. split.
    + intros (a & b & c & -> & A & B & C). split; [reflexivity|]. repeat constructor; assumption.
    + intros [L F]. destruct k as [|a [|b [|c [|d k]]]]; try discriminate L.
      apply Forall_cons_iff in F. destruct F as [A F]. apply Forall_cons_iff in F. destruct F as [B F].
      apply Forall_cons_iff in F. destruct F as [C _]. exists a, b, c. auto.
Qed.
Print Assumptions c73_three_bytes.
(** [Dups2]: the number of keys minus the number of different hash values; 0
    exactly when the hash is injective on the keys. *)
Theorem c73_dups2 : forall hf ks, (dups2 hf ks + distinct (map hf ks) = List.length ks)%nat.
Proof. exact dups2_lemma. Qed.
Print Assumptions c73_dups2.
Theorem c73_dups2_zero : forall hf, dups2 hf (triples 256) = 0%nat <->
  forall a b, List.length a = 3%nat -> Forall byte a -> List.length b = 3%nat -> Forall byte b -> hf a = hf b -> a = b.
Proof.
  intros hf. destruct c73_three_bytes as (N & _ & M). rewrite (dups2_zero hf (triples 256) N). split.
  - intros H a b La Ba Lb Bb. apply H; apply M; auto.
  - intros H a b Ha Hb. apply M in Ha. apply M in Hb. apply H; tauto.
Qed.
Print Assumptions c73_dups2_zero.
Example c73_nonvacuous :
  nth 300 (keysI 1000) [] = [44; 1; 0; 0] /\ march 2 = [[1; 0]; [2; 0]; [4; 0]; [8; 0]; [16; 0]; [32; 0]; [64; 0]; [128; 0];
    [0; 1]; [0; 2]; [0; 4]; [0; 8]; [0; 16]; [0; 32]; [0; 64]; [0; 128]] /\
  dups2 (fun k => nth 0 k 0) [[1; 2]; [2; 2]; [1; 3]; [1; 4]] = 2%nat.
Proof. vm_compute. auto. Qed.
