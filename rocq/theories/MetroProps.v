(** Properties C29, C30, C61, C62: package metro. *)
From Verif Require Import Words WordLemmas Mem Mm3Spec MetroModel MetroSpec MetroProofs MetroMore MetroExact.
Open Scope N_scope.

(** C29: Hash64_1 ignores the last byte of every key whose length is 4 modulo 8. *)
Theorem c29_last_byte_ignored : forall p x y seed, (length (p ++ [x]) mod 8 = 4)%nat ->
  hash64_1 (p ++ [x]) seed = hash64_1 (p ++ [y]) seed.
Proof.
  intros p x y seed H. rewrite !hash64_1_gen. f_equal. apply last_byte_ignored.
  rewrite app_length in H. cbn [length] in H.
  pose proof (Nat.mod_upper_bound (length p) 8 ltac:(lia)).
  rewrite (Nat.div_mod_eq (length p) 8) in H. rewrite <- Nat.add_assoc, Nat.add_comm, Nat.mul_comm, Nat.mod_add in H by lia.
  remember (length p mod 8)%nat as r. do 8 (destruct r as [|r]; [cbn in H; lia|]). lia.
Qed.
Print Assumptions c29_last_byte_ignored.
(** The published algorithm, and Hash64_2, do not. *)
Theorem c29_distinct_keys_refuted : exists k k' seed h, bytes_ok k /\ bytes_ok k' /\ k <> k' /\
  hash64_1 k seed = Ok h /\ hash64_1 k' seed = Ok h /\
  metro64 p64_1 k seed <> metro64 p64_1 k' seed /\ hash64_2 k seed <> hash64_2 k' seed.
Proof.
  exists [1; 2; 3; 4], [1; 2; 3; 5], 0. eexists. split; [repeat constructor|]. split; [repeat constructor|].
  split; [discriminate|]. split; [vm_compute; reflexivity|]. split; [vm_compute; reflexivity|].
  split; vm_compute; discriminate.
Qed.
Print Assumptions c29_distinct_keys_refuted.
Example c29_nonvacuous : hash64_1 [9; 9; 9; 0] 7 = hash64_1 [9; 9; 9; 255] 7 /\ hash64_1 [9; 9; 9] 7 <> hash64_1 [9; 9; 8] 7.
Proof. split; [exact (c29_last_byte_ignored [9; 9; 9] 0 255 7 eq_refl)|vm_compute; discriminate]. Qed.

(** C30: none of the four functions ever panics, whatever the key. *)
Theorem c30_never_panics : forall key seed,
  (exists h, hash64_1 key seed = Ok h) /\ (exists h, hash64_2 key seed = Ok h) /\
  (exists h, hash128_1 key seed = Ok h) /\ (exists h, hash128_2 key seed = Ok h).
Proof. intros key seed. rewrite hash64_1_gen, hash64_2_gen, hash128_1_gen, hash128_2_gen. eauto 10. Qed.
Print Assumptions c30_never_panics.
Example c30_nonvacuous : hash128_1 (repeat 7 95) 3 <> hash128_1 (repeat 7 96) 3.
Proof. vm_compute. discriminate. Qed.

(** C61: three of them are the published functions; the fourth is exactly when the
    length is not 4 modulo 8. *)
Theorem c61_published : forall key seed,
  hash64_2 key seed = Ok (metro64 p64_2 key seed) /\
  hash128_1 key seed = Ok (metro128 p128_1 key seed) /\
  hash128_2 key seed = Ok (metro128 p128_2 key seed) /\
  ((length key mod 8 <> 4)%nat -> hash64_1 key seed = Ok (metro64 p64_1 key seed)).
Proof.
  intros key seed. rewrite hash64_1_gen, hash64_2_gen, hash128_1_gen, hash128_2_gen. repeat split; auto.
  intros H. now rewrite threshold_irrelevant.
Qed.
Print Assumptions c61_published.
Theorem c61_published_refuted : exists key seed, bytes_ok key /\ hash64_1 key seed <> Ok (metro64 p64_1 key seed).
Proof. exists [1; 2; 3; 4], 0. split; [repeat constructor|]. vm_compute. discriminate. Qed.
Print Assumptions c61_published_refuted.
(** The exception is sharp: a length is free of it exactly if it is not 4 modulo 8;
    and whatever the key without its last byte and whatever the seed, at most two of
    the 256 last bytes give the published hash. *)
Theorem c61_two_in_256 : forall p seed x y z, bytes_ok p -> (length p mod 8 = 3)%nat -> x < 256 -> y < 256 -> z < 256 -> NoDup [x; y; z] ->
  ~ Forall (fun c => hash64_1 (p ++ [c]) seed = Ok (metro64 p64_1 (p ++ [c]) seed)) [x; y; z].
Proof.
  intros p seed x y z Hp H Hx Hy Hz D F. inversion F as [|? ? F1 F']; subst. inversion F' as [|? ? F2 F'']; subst. inversion F'' as [|? ? F3 _]; subst.
  rewrite hash64_1_gen in F1, F2, F3. inversion F1 as [E1]. inversion F2 as [E2]. inversion F3 as [E3].
  apply (published_last_byte p seed x y z Hp H Hx Hy Hz D). rewrite <- E1, <- E2, <- E3.
  rewrite (last_byte_ignored p64_1 p x y seed H), (last_byte_ignored p64_1 p y z seed H). auto.
Qed.
Print Assumptions c61_two_in_256.
Example c61_two_in_256_nonvacuous : (length [7; 7; 7] mod 8 = 3)%nat /\ bytes_ok [7; 7; 7] /\ NoDup [1; 2; 3] /\
  hash64_1 ([7; 7; 7] ++ [1]) 5 = hash64_1 ([7; 7; 7] ++ [2]) 5 /\ metro64 p64_1 ([7; 7; 7] ++ [1]) 5 <> metro64 p64_1 ([7; 7; 7] ++ [2]) 5.
Proof.
  split; [reflexivity|]. split; [repeat constructor|]. split; [repeat constructor; cbn; intuition discriminate|].
  split; [vm_compute; reflexivity|]. vm_compute. discriminate.
Qed.
Theorem c61_exact : forall n,
  (forall key seed, bytes_ok key -> length key = n -> hash64_1 key seed = Ok (metro64 p64_1 key seed)) <-> (n mod 8 <> 4)%nat.
Proof.
  intros n. split.
  - intros A E. assert (L : (length (repeat 0%N (n - 1)) mod 8 = 3)%nat).
    { rewrite repeat_length. pose proof (Nat.div_mod_eq n 8) as D. rewrite E in D. symmetry. apply Nat.mod_unique with (n / 8)%nat; lia. }
    assert (B : bytes_ok (repeat 0 (n - 1))) by (apply Forall_forall; intros x I; apply repeat_spec in I; subst; reflexivity).
    assert (Pn : (1 <= n)%nat) by (destruct n; [discriminate E|lia]).
    apply (c61_two_in_256 (repeat 0 (n - 1)) 0 0 1 2 B L); try reflexivity; [repeat constructor; cbn; intuition discriminate|].
    assert (X : forall c, c < 256 -> hash64_1 (repeat 0 (n - 1) ++ [c]) 0 = Ok (metro64 p64_1 (repeat 0 (n - 1) ++ [c]) 0)).
    { intros c Hc. apply A; [apply bytes_ok_app; split; [exact B|repeat constructor; exact Hc]|]. rewrite app_length, repeat_length. cbn [length]. lia. }
    repeat constructor; apply X; reflexivity.
  - intros H key seed _ <-. now apply c61_published.
Qed.
Print Assumptions c61_exact.
Example c61_exact_nonvacuous : (12 mod 8 = 4)%nat /\ (13 mod 8 <> 4)%nat.
Proof. split; [reflexivity|discriminate]. Qed.
(** The vectors of metro_test.go (from the reference distribution). *)
Definition key63 : list N := map (fun i => 48 + N.of_nat i mod 10) (seq 0 63).
Definition hex64 (x : N) : N := le_load (be_store 8 x).
Example c61_vectors :
  hash64_1 key63 0 = Ok (hex64 0x658F044F5C730E40) /\ hash64_1 key63 1 = Ok (hex64 0xAE49EBB0A856537B) /\
  hash64_2 key63 0 = Ok (hex64 0x073CAAB960623211) /\ hash64_2 key63 1 = Ok (hex64 0xCF518E9CF58402C0) /\
  hash128_1 key63 0 = Ok (hex64 0xED9997ED9D0A8B0F, hex64 0xF3F266399477788F) /\
  hash128_1 key63 1 = Ok (hex64 0xDDA6BA67F7DE755E, hex64 0xFDF6BEABECCFD1F4) /\
  hash128_2 key63 0 = Ok (hex64 0x7BBA6FE119CF35D4, hex64 0x5507EDF3505359AB) /\
  hash128_2 key63 1 = Ok (hex64 0x2DA6AF149A5CDBC1, hex64 0x2B09DB0846D69EF0).
Proof. repeat split; vm_compute; reflexivity. Qed.

(** C62: every 64-bit MetroHash has an even number of one bits ... *)
Theorem c62_even_parity : forall key seed h,
  hash64_1 key seed = Ok h \/ hash64_2 key seed = Ok h -> odd_parity h = false.
Proof.
  intros key seed h. rewrite hash64_1_gen, hash64_2_gen.
  intros [E|E]; inversion E; [destruct (metro64_form p64_1 5 key seed) as (x & _ & ->); apply (final_even p64_1 x 33)
                             |unfold metro64; destruct (metro64_form p64_2 4 key seed) as (x & _ & ->); apply (final_even p64_2 x 29)]; auto; lia.
Qed.
Print Assumptions c62_even_parity.
(** ... and Hash64_2 takes at most 2^60 values, Hash64_1 at most 2^63: the results
    are enumerated by a function of 60 (63) bits. *)
Theorem c62_few_results : exists g1 g2 : N -> N, forall key seed,
  (exists i, i < 2 ^ 63 /\ hash64_1 key seed = Ok (g1 i)) /\
  (exists i, i < 2 ^ 60 /\ hash64_2 key seed = Ok (g2 i)).
Proof.
  exists (fun i => m64_final p64_1 (N.shiftl i 1)), (fun i => m64_final p64_2 (N.shiftl i 4)). intros key seed.
  rewrite hash64_1_gen, hash64_2_gen. split.
  - destruct (metro64_form p64_1 5 key seed) as (x & Hx & ->). destruct (final_1_count x Hx) as (i & Hi & E). exists i. now rewrite <- E.
  - unfold metro64. destruct (metro64_form p64_2 4 key seed) as (x & Hx & ->). destruct (final_2_count x Hx) as (i & Hi & E). exists i. now rewrite <- E.
Qed.
Print Assumptions c62_few_results.
(** So a value like 1 is never returned. *)
Theorem c62_onto_refuted : forall key seed, hash64_1 key seed <> Ok 1 /\ hash64_2 key seed <> Ok 1.
Proof.
  intros key seed. split; intros E.
  - now assert (H : odd_parity 1 = false) by (apply (c62_even_parity key seed); auto).
  - now assert (H : odd_parity 1 = false) by (apply (c62_even_parity key seed); auto).
Qed.
Print Assumptions c62_onto_refuted.
Example c62_nonvacuous : odd_parity 1 = true /\ odd_parity 3 = false /\ (exists h, hash64_1 [1] 0 = Ok h /\ h <> 0).
Proof. repeat split. eexists. split; [vm_compute; reflexivity|discriminate]. Qed.
