(** Property theorems C10-C15 and C51 (SipHash).  Only statements; proofs elsewhere. *)
From Coq Require Import ZArith.
From Verif Require Import Words WordLemmas DigestSpec Blocks SipModel SipSpec SipProofs
  SipAsmModel SipAsmProg SipAsmProofs Bij SipBij SipVectors.
Open Scope N_scope.

Definition key_lo (key : list N) : N := le_load (firstn 8 key).
Definition key_hi (key : list N) : N := le_load (firstn 8 (skipn 8 key)).

(** C10.  Streaming equals one-shot: any sequence of Write calls (given by the
    list of their arguments) followed by Sum64/Sum. *)
Theorem c10_stream64 : forall key d chunks,
  sip_new key = Some d -> Forall bytes_ok chunks ->
  sip_history d (map DWrite chunks ++ [DSum64]) =
  map (fun p => OWrote (length p)) chunks ++ [OWord (sip_hash (key_lo key) (key_hi key) (concat chunks))].
Proof. exact sip_stream64. Qed.
Print Assumptions c10_stream64.
Theorem c10_stream128 : forall key d chunks inp,
  sip_new128 key = Some d -> Forall bytes_ok chunks ->
  sip_history d (map DWrite chunks ++ [DSum inp]) =
  map (fun p => OWrote (length p)) chunks ++
  [OBytes (inp ++ let '(r0, r1) := sip_hash128 (key_lo key) (key_hi key) (concat chunks) in
                  le_store 8 r0 ++ le_store 8 r1)].
Proof. exact sip_stream128. Qed.
Print Assumptions c10_stream128.
Example c10_nonvacuous :
  exists d, sip_new vec_key = Some d /\
  sip_history d (map DWrite [[]; [0; 1; 2]; [3; 4; 5; 6; 7; 8; 9; 10; 11; 12; 13]; []; [14]] ++ [DSum64]) =
  [OWrote 0; OWrote 3; OWrote 11; OWrote 0; OWrote 1; OWord 0xa129ca6149be45e5].
Proof. eexists. split; [reflexivity|]. vm_compute. reflexivity. Qed.
Example c10_nonvacuous_128 :
  exists d, sip_new128 vec_key = Some d /\
  sip_history d (map DWrite [[]; [0; 1; 2]] ++ [DSum [5]]) =
  [OWrote 0; OWrote 3; OBytes [5; 0x9c; 0x70; 0xb6; 0x0c; 0x52; 0x67; 0xa9; 0x4e; 0x5f; 0x33; 0xb6; 0xb0; 0x29; 0x85; 0xed; 0x51]].
Proof. eexists. split; [reflexivity|]. vm_compute. reflexivity. Qed.

(** C11.  Whole histories: the digest shows exactly the hash of the bytes
    written since the last Reset, whatever was called in between; Sum appends
    Size() bytes. *)
Theorem c11_history64 : forall key d ops,
  sip_new key = Some d -> Forall dop_ok ops ->
  sip_history d ops =
  spec_history (fun m => le_store 8 (sip_hash (key_lo key) (key_hi key) m))
               (sip_hash (key_lo key) (key_hi key)) [] ops.
Proof. exact sip_history64. Qed.
Print Assumptions c11_history64.
Theorem c11_history128 : forall key d ops,
  sip_new128 key = Some d -> Forall dop_ok ops -> ~ In DSum64 ops ->
  sip_history d ops =
  spec_history (fun m => le_store 8 (fst (sip_hash128 (key_lo key) (key_hi key) m)) ++
                         le_store 8 (snd (sip_hash128 (key_lo key) (key_hi key) m)))
               (fun _ => 0) [] ops.
Proof. exact sip_history128. Qed.
Print Assumptions c11_history128.
Theorem c11_new : forall size key,
  (sip_new_digest size key = None <-> ~ (size = 8%nat \/ size = 16%nat) \/ (length key < 16)%nat) /\
  (forall d, sip_new_digest size key = Some d -> sip_size d = size /\
     forall inp, firstn (length inp) (sip_sum d inp) = inp /\ length (sip_sum d inp) = (length inp + sip_size d)%nat).
Proof. exact sip_new_facts. Qed.
Print Assumptions c11_new.
Example c11_nonvacuous :
  exists d, sip_new vec_key = Some d /\
  sip_history d [DWrite [9; 9]; DSum [1]; DReset; DWrite (vec_in 10); DSum64; DWrite [10; 11; 12; 13; 14]; DSum64; DReset; DSum []] =
  [OWrote 2; OBytes (1 :: le_store 8 (sip_hash vec_k0 vec_k1 [9; 9])); OUnit; OWrote 10;
   OWord (le_load [243; 185; 221; 148; 197; 187; 93; 122]); OWrote 5; OWord 0xa129ca6149be45e5; OUnit;
   OBytes [49; 14; 14; 221; 71; 219; 111; 114]].
Proof. eexists. split; [reflexivity|]. vm_compute. reflexivity. Qed.
Example c11_nonvacuous_128 : exists d, sip_new128 vec_key = Some d /\ sip_size d = 16%nat /\
  sip_history d [DWrite [9]; DReset; DSum []; DWrite [0]; DSum []] =
  [OWrote 1; OUnit; OBytes [0xa3; 0x81; 0x7f; 0x04; 0xba; 0x25; 0xa8; 0xe6; 0x6d; 0xf6; 0x72; 0x14; 0xc7; 0x55; 0x02; 0x93]; OWrote 1;
   OBytes [0xda; 0x87; 0xc1; 0xd8; 0x6b; 0x99; 0xaf; 0x44; 0x34; 0x76; 0x59; 0x11; 0x9b; 0x22; 0xfc; 0x45]].
Proof. eexists. split; [reflexivity|]. split; [reflexivity|vm_compute; reflexivity]. Qed.

(** C12.  The assembly routines return what the Go code returns, from any
    register contents, without ever loading outside the slice (the machine is
    stuck on such a load). *)
Theorem c12_asm_hash : forall c r, call_ok c -> length r = 10%nat ->
  exists n, forall fuel, (n <= fuel)%nat ->
  mrun fuel c asm_hash_prog (entry r) = Some [sip_hash (c_k0 c) (c_k1 c) (c_mem c); 0].
Proof. exact asm_hash_correct. Qed.
Print Assumptions c12_asm_hash.
Theorem c12_asm_hash128 : forall c r, call_ok c -> length r = 10%nat ->
  exists n, forall fuel, (n <= fuel)%nat ->
  mrun fuel c asm_hash128_prog (entry r) =
    Some (let '(r0, r1) := sip_hash128 (c_k0 c) (c_k1 c) (c_mem c) in [r0; r1]).
Proof. exact asm_hash128_correct. Qed.
Print Assumptions c12_asm_hash128.
Example c12_nonvacuous :
  let c := Call vec_k0 vec_k1 (2 ^ 64 - 15) (vec_in 15) in
  call_ok c /\ mrun 1000 c asm_hash_prog (entry [1;2;3;4;5;6;7;8;9;10]) = Some [0xa129ca6149be45e5; 0].
Proof. split; [split; [vm_compute; discriminate|split; [reflexivity|repeat constructor]]|vm_compute; reflexivity]. Qed.

(** C13.  siphashpg agrees with siphash; panics exactly on a bad key length or
    non-positive round counts. *)
Theorem c13_pg_agrees : forall inp k, length k = 16%nat -> bytes_ok inp ->
  pg_siphash inp k 2 4 false = Some (sip_hash (key_lo k) (key_hi k) inp, 0) /\
  pg_siphash inp k 2 4 true = Some (sip_hash128 (key_lo k) (key_hi k) inp).
Proof. exact pg_agrees. Qed.
Print Assumptions c13_pg_agrees.
Theorem c13_pg_panics : forall inp k cr dr dbl,
  pg_siphash inp k cr dr dbl = None <-> length k <> 16%nat \/ (cr <= 0)%Z \/ (dr <= 0)%Z.
Proof. exact pg_panics. Qed.
Print Assumptions c13_pg_panics.
Theorem c13_pg_any_rounds : forall inp k cr dr dbl,
  length k = 16%nat -> (0 < cr)%Z -> (0 < dr)%Z -> bytes_ok inp ->
  pg_siphash inp k cr dr dbl =
  Some (if dbl then sip_spec128 (Z.to_nat cr) (Z.to_nat dr) (key_lo k) (key_hi k) inp
        else (sip_spec (Z.to_nat cr) (Z.to_nat dr) (key_lo k) (key_hi k) inp, 0)).
Proof. exact pg_spec. Qed.
Print Assumptions c13_pg_any_rounds.
Example c13_nonvacuous :
  pg_siphash (vec_in 15) vec_key 2 4 false = Some (0xa129ca6149be45e5, 0) /\
  pg_siphash (vec_in 3) (vec_in 15) 2 4 false = None /\
  pg_siphash (vec_in 3) vec_key 1 3 false <> pg_siphash (vec_in 3) vec_key 2 4 false.
Proof. vm_compute. repeat split; discriminate. Qed.

(** C14.  Rounds and absorption of common data never merge two states. *)
Theorem c14_round_bijective : bijection_on sst_ok sip_round /\ bijection_on sst_ok pg_sipround.
Proof. exact rounds_bij. Qed.
Print Assumptions c14_round_bijective.
Theorem c14_absorb_bijective : forall p, bytes_ok p ->
  bijection_on sst_ok (fun s => fst (absorb 8 sip_block s p)).
Proof. exact sip_absorb_bij. Qed.
Print Assumptions c14_absorb_bijective.
(** Two different keys never lead to the same state over the same data: the
    complete state right before the last word, after it, and after the
    finalisation rounds all differ. *)
Theorem c14_keys_never_merge : forall k0 k1 k0' k1' p m n,
  fits 64 k0 -> fits 64 k1 -> fits 64 k0' -> fits 64 k1' -> bytes_ok p -> fits 64 m ->
  (k0, k1) <> (k0', k1') ->
  Nat.iter n sip_round (sip_compress (fst (absorb 8 sip_block (sip_iv k0 k1) p)) m) <>
  Nat.iter n sip_round (sip_compress (fst (absorb 8 sip_block (sip_iv k0' k1') p)) m).
Proof. exact sip_keys_never_merge. Qed.
Print Assumptions c14_keys_never_merge.
Example c14_nonvacuous :
  sst_ok (sip_iv 1 2) /\ sip_round (1, 2, 3, 4) = (12885164039, 2147893258, 70411693850624, 562655657991).
Proof. split; [apply sip_iv_ok; reflexivity|vm_compute; reflexivity]. Qed.
Example c14_keys_nonvacuous : (1, 2) <> (1, 3) /\ bytes_ok (vec_in 16) /\
  fst (absorb 8 sip_block (sip_iv 1 2) (vec_in 16)) <> fst (absorb 8 sip_block (sip_iv 1 3) (vec_in 16)).
Proof. split; [discriminate|]. split; [repeat constructor|vm_compute; discriminate]. Qed.

(** C15.  U64tou8le and U8tou64le are mutually inverse. *)
Theorem c15_le_roundtrip :
  (forall v, fits 64 v -> length (u64tou8le v) = 8%nat /\ bytes_ok (u64tou8le v) /\
     forall rest, u8tou64le (u64tou8le v ++ rest) = Some v) /\
  (forall p v, length p = 8%nat -> bytes_ok p -> u8tou64le p = Some v -> u64tou8le v = p) /\
  (forall p, u8tou64le p = None <-> (length p < 8)%nat) /\
  (forall p, (8 <= length p)%nat -> bytes_ok p ->
     exists v, u8tou64le p = Some v /\ fits 64 v /\
       forall i, (i < 8)%nat -> (v / 256 ^ N.of_nat i) mod 256 = nth i p 0).
Proof. exact le_roundtrip. Qed.
Print Assumptions c15_le_roundtrip.
Example c15_nonvacuous :
  u64tou8le 0x0102030405060708 = [8; 7; 6; 5; 4; 3; 2; 1] /\
  u8tou64le [8; 7; 6; 5; 4; 3; 2; 1; 99] = Some 0x0102030405060708 /\ u8tou64le [1; 2; 3] = None.
Proof. vm_compute. auto. Qed.

(** C51.  Hash and Hash128 are SipHash-2-4 as published. *)
Theorem c51_is_siphash_2_4 : forall k0 k1 m, bytes_ok m ->
  sip_hash k0 k1 m = sip_spec 2 4 k0 k1 m /\ sip_hash128 k0 k1 m = sip_spec128 2 4 k0 k1 m.
Proof. exact sip_is_spec. Qed.
Print Assumptions c51_is_siphash_2_4.
Example c51_nonvacuous : bytes_ok (vec_in 15) /\ sip_spec 2 4 vec_k0 vec_k1 (vec_in 15) = 0xa129ca6149be45e5.
Proof. split; [repeat constructor|vm_compute; reflexivity]. Qed.
