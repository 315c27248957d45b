(** C93.  gomap: collisions that no seed removes. *)
From Coq Require Import NArith List Arith Lia.
From Verif Require Import Words WordLemmas ListLemmas Mem SipProofs GomapModel GomapSpec GomapProofs CollSpec Mm3Coll GomapColl.
Import ListNotations.
Open Scope N_scope.

Lemma start_fits V k seed : fits (W V) (start V k seed).
Proof. apply mod_fits. Qed.
Lemma long_neq (p b r : list N) : (0 < length b)%nat -> p ++ b ++ r <> [].
Proof. intros H E. apply (f_equal (@length N)) in E. rewrite !app_length in E. cbn in E. lia. Qed.

(** Every key of two words has a partner of the same size with the same hash, whatever the seed. *)
Theorem c93_short32 : forall b, bytes_ok b -> length b = 8%nat -> exists c, bytes_ok c /\ length c = 8%nat /\ c <> b /\
  forall seed, exists v, Hash32 b seed = Ok v /\ Hash32 c seed = Ok v.
Proof.
  intros b Hb L. destruct (two_words v32 eq_refl ltac:(cbn; lia) ltac:(cbn; lia) ltac:(cbn; lia) eq_refl eq_refl b Hb L) as (c & C1 & C2 & C3 & C4).
  exists c. split; [exact C1|]. split; [exact C2|]. split; [exact C3|]. intros seed. exists (gomap32 b seed).
  split; [apply Hash32_ok; auto; intros ->; discriminate|]. rewrite Hash32_ok by (auto; intros ->; discriminate). unfold gomap32. do 2 f_equal.
  rewrite (start_len v32 c b seed) by (rewrite L, C2; reflexivity).
  rewrite (body_two v32 eq_refl ltac:(cbn; lia) ltac:(cbn; lia) ltac:(cbn; lia) rest32 c C2) by (unfold rest32; rewrite C2; reflexivity).
  rewrite (body_two v32 eq_refl ltac:(cbn; lia) ltac:(cbn; lia) ltac:(cbn; lia) rest32 b L) by (unfold rest32; rewrite L; reflexivity). apply C4, start_fits.
Qed.
Print Assumptions c93_short32.
Theorem c93_short64 : forall b, bytes_ok b -> length b = 16%nat -> exists c, bytes_ok c /\ length c = 16%nat /\ c <> b /\
  forall seed, exists v, Hash64 b seed = Ok v /\ Hash64 c seed = Ok v.
Proof.
  intros b Hb L. destruct (two_words v64 eq_refl ltac:(cbn; lia) ltac:(cbn; lia) ltac:(cbn; lia) eq_refl eq_refl b Hb L) as (c & C1 & C2 & C3 & C4).
  exists c. split; [exact C1|]. split; [exact C2|]. split; [exact C3|]. intros seed. exists (gomap64 b seed).
  split; [apply Hash64_ok; auto; intros ->; discriminate|]. rewrite Hash64_ok by (auto; intros ->; discriminate). unfold gomap64. do 2 f_equal.
  rewrite (start_len v64 c b seed) by (rewrite L, C2; reflexivity).
  rewrite (body_two v64 eq_refl ltac:(cbn; lia) ltac:(cbn; lia) ltac:(cbn; lia) rest64 c C2) by (unfold rest64; rewrite C2; reflexivity).
  rewrite (body_two v64 eq_refl ltac:(cbn; lia) ltac:(cbn; lia) ltac:(cbn; lia) rest64 b L) by (unfold rest64; rewrite L; reflexivity). apply C4, start_fits.
Qed.
Print Assumptions c93_short64.

Lemma partner32 b : bytes_ok b -> length b = 32%nat -> exists c, bytes_ok c /\ length c = 32%nat /\ c <> b /\
  forall p r seed, (length p mod 16 = 0)%nat -> gomap32 (p ++ b ++ r) seed = gomap32 (p ++ c ++ r) seed.
Proof.
  intros Hb L. destruct (two_blocks v32 eq_refl ltac:(cbn; lia) ltac:(cbn; lia) ltac:(cbn; lia) eq_refl eq_refl b Hb L) as (c & C1 & C2 & C3 & C4).
  exists c. split; [exact C1|]. split; [exact C2|]. split; [exact C3|]. intros p r seed Hp. unfold gomap32. f_equal.
  rewrite (start_len v32 (p ++ b ++ r) (p ++ c ++ r) seed) by (rewrite !app_length, L, C2; reflexivity).
  apply (body_blocks v32 eq_refl ltac:(cbn; lia) ltac:(cbn; lia) ltac:(cbn; lia)); [exact L|exact C2|exact Hp| |apply start_fits]. intros s Hs. now apply C4.
Qed.
Lemma partner64 b : bytes_ok b -> length b = 64%nat -> exists c, bytes_ok c /\ length c = 64%nat /\ c <> b /\
  forall p r seed, (length p mod 32 = 0)%nat -> gomap64 (p ++ b ++ r) seed = gomap64 (p ++ c ++ r) seed.
Proof.
  intros Hb L. destruct (two_blocks v64 eq_refl ltac:(cbn; lia) ltac:(cbn; lia) ltac:(cbn; lia) eq_refl eq_refl b Hb L) as (c & C1 & C2 & C3 & C4).
  exists c. split; [exact C1|]. split; [exact C2|]. split; [exact C3|]. intros p r seed Hp. unfold gomap64. f_equal.
  rewrite (start_len v64 (p ++ b ++ r) (p ++ c ++ r) seed) by (rewrite !app_length, L, C2; reflexivity).
  apply (body_blocks v64 eq_refl ltac:(cbn; lia) ltac:(cbn; lia) ltac:(cbn; lia)); [exact L|exact C2|exact Hp| |apply start_fits]. intros s Hs. now apply C4.
Qed.
(** So has every run of two blocks, anywhere in a longer key. *)
Theorem c93_partner32 : forall b, bytes_ok b -> length b = 32%nat -> exists c, bytes_ok c /\ length c = 32%nat /\ c <> b /\
  forall p r seed, bytes_ok p -> bytes_ok r -> (length p mod 16 = 0)%nat -> exists v, Hash32 (p ++ b ++ r) seed = Ok v /\ Hash32 (p ++ c ++ r) seed = Ok v.
Proof.
  intros b Hb L. destruct (partner32 b Hb L) as (c & C1 & C2 & C3 & C4). exists c. split; [exact C1|]. split; [exact C2|]. split; [exact C3|].
  intros p r seed Op Or Hp. exists (gomap32 (p ++ b ++ r) seed). split; [apply Hash32_ok|rewrite (C4 p r seed Hp); apply Hash32_ok];
    first [repeat (apply bytes_ok_app; split); assumption|apply long_neq; lia].
Qed.
Print Assumptions c93_partner32.
Theorem c93_partner64 : forall b, bytes_ok b -> length b = 64%nat -> exists c, bytes_ok c /\ length c = 64%nat /\ c <> b /\
  forall p r seed, bytes_ok p -> bytes_ok r -> (length p mod 32 = 0)%nat -> exists v, Hash64 (p ++ b ++ r) seed = Ok v /\ Hash64 (p ++ c ++ r) seed = Ok v.
Proof.
  intros b Hb L. destruct (partner64 b Hb L) as (c & C1 & C2 & C3 & C4). exists c. split; [exact C1|]. split; [exact C2|]. split; [exact C3|].
  intros p r seed Op Or Hp. exists (gomap64 (p ++ b ++ r) seed). split; [apply Hash64_ok|rewrite (C4 p r seed Hp); apply Hash64_ok];
    first [repeat (apply bytes_ok_app; split); assumption|apply long_neq; lia].
Qed.
Print Assumptions c93_partner64.

Lemma choices_ok x y n m : bytes_ok x -> bytes_ok y -> In m (choices x y n) -> bytes_ok m.
Proof.
  intros Hx Hy. revert m. induction n as [|n IH]; intros m Hm; cbn [choices] in Hm; [destruct Hm as [<-|[]]; constructor|].
  apply in_app_iff in Hm. rewrite !in_map_iff in Hm. destruct Hm as [(z & <- & Hz)|(z & <- & Hz)]; apply bytes_ok_app; split; auto.
Qed.
(** And there are sets of 2^n keys of one size that share a hash under every seed. *)
Theorem c93_multi32 : exists x y, bytes_ok x /\ bytes_ok y /\ length x = 32%nat /\ length y = 32%nat /\ forall n, (1 <= n)%nat ->
  length (choices x y n) = (2 ^ n)%nat /\ NoDup (choices x y n) /\
  forall seed, exists v, forall m, In m (choices x y n) -> Hash32 m seed = Ok v.
Proof.
  destruct (partner32 (repeat 0 32) (repeat0_ok 32) eq_refl) as (c & C1 & C2 & C3 & C4).
  exists (repeat 0 32), c. split; [apply repeat0_ok|]. split; [exact C1|]. split; [reflexivity|]. split; [exact C2|]. intros n Hn.
  split; [apply choices_len|]. split; [apply choices_NoDup; auto|]. intros seed. exists (gomap32 (concat (repeat (repeat 0 32) n)) seed). intros m Hm.
  rewrite Hash32_ok.
  - f_equal. pose proof (choices_first (fun m => gomap32 m seed) 16 (repeat 0 32) c (eq_sym C2) eq_refl ltac:(lia) (fun p r => C4 p r seed) n [] [] m eq_refl Hm) as Q.
    cbn [app] in Q. rewrite !app_nil_r in Q. exact Q.
  - apply (choices_ok (repeat 0 32) c n); auto. apply repeat0_ok.
  - intros ->. pose proof (choices_size (repeat 0 32) c (eq_sym C2) n [] Hm) as Q. rewrite repeat_length in Q. cbn [length] in Q. lia.
Qed.
Print Assumptions c93_multi32.
Theorem c93_multi64 : exists x y, bytes_ok x /\ bytes_ok y /\ length x = 64%nat /\ length y = 64%nat /\ forall n, (1 <= n)%nat ->
  length (choices x y n) = (2 ^ n)%nat /\ NoDup (choices x y n) /\
  forall seed, exists v, forall m, In m (choices x y n) -> Hash64 m seed = Ok v.
Proof.
  destruct (partner64 (repeat 0 64) (repeat0_ok 64) eq_refl) as (c & C1 & C2 & C3 & C4).
  exists (repeat 0 64), c. split; [apply repeat0_ok|]. split; [exact C1|]. split; [reflexivity|]. split; [exact C2|]. intros n Hn.
  split; [apply choices_len|]. split; [apply choices_NoDup; auto|]. intros seed. exists (gomap64 (concat (repeat (repeat 0 64) n)) seed). intros m Hm.
  rewrite Hash64_ok.
  - f_equal. pose proof (choices_first (fun m => gomap64 m seed) 32 (repeat 0 64) c (eq_sym C2) eq_refl ltac:(lia) (fun p r => C4 p r seed) n [] [] m eq_refl Hm) as Q.
    cbn [app] in Q. rewrite !app_nil_r in Q. exact Q.
  - apply (choices_ok (repeat 0 64) c n); auto. apply repeat0_ok.
  - intros ->. pose proof (choices_size (repeat 0 64) c (eq_sym C2) n [] Hm) as Q. rewrite repeat_length in Q. cbn [length] in Q. lia.
Qed.
Print Assumptions c93_multi64.

(** The partners of zero bytes. *)
Example c93_nonvacuous :
  let a := [0; 0; 225; 45; 0; 132; 183; 248] in
  let b := [0; 0; 225; 45; 0; 0; 0; 0; 0; 0; 0; 0; 0; 0; 0; 0; 0; 0; 0; 128; 0; 0; 0; 0; 0; 0; 0; 0; 0; 0; 0; 0] in
  let c := [0; 0; 0; 0; 193; 122; 31; 213; 0; 0; 0; 4; 235; 125; 84; 219] in
  let d := [0; 0; 0; 0; 193; 122; 31; 213; 0; 0; 0; 0; 0; 0; 0; 0; 0; 0; 0; 0; 0; 0; 0; 0; 0; 0; 0; 0; 0; 0; 0; 0; 0; 0; 0; 0; 0; 0; 0; 128; 0; 0; 0; 0; 0; 0; 0; 0; 0; 0; 0; 0; 0; 0; 0; 0; 0; 0; 0; 0; 0; 0; 0; 0] in
  Hash32 (repeat 0 8) 12345 = Hash32 a 12345 /\ Hash32 (repeat 0 8) 12345 <> Hash32 a 54321 /\
  Hash32 (repeat 7 16 ++ repeat 0 32 ++ [1]) 3 = Hash32 (repeat 7 16 ++ b ++ [1]) 3 /\ Hash32 (repeat 0 32 ++ b) 5 = Hash32 (b ++ b) 5 /\
  Hash64 (repeat 0 16) 12345 = Hash64 c 12345 /\ Hash64 (repeat 0 16) 12345 <> Hash64 c 54321 /\
  Hash64 (repeat 7 32 ++ repeat 0 64 ++ [1]) 3 = Hash64 (repeat 7 32 ++ d ++ [1]) 3.
Proof. vm_compute. repeat split; discriminate. Qed.
