(** C116: the hashes under different names. *)
From Coq Require Import NArith ZArith List Arith Lia String.
From Verif Require Import Words WordLemmas Mem KeccakModel HashfModel HashfSpec HashfProofs HashfProps NamesSpec.
From Verif Require JenkinsSpec JenkinsProofs6 SpookySpec SipSpec MetroSpec FarmSpec.
Import ListNotations.
Open Scope N_scope.

Lemma tells_reference e grow name bytes seed h : ext_ok e -> seed < 2 ^ 64 -> counter name = false ->
  reference e name bytes seed = Some h -> tells e grow name bytes seed h.
Proof.
  intros He Hs Hc Hr w k Hw Hk Hl E. pose proof (Hashf_right e grow w name k seed He Hw Hk Hl Hs Hc) as R. unfold right in R.
  rewrite E, Hr in R. destruct R as (w' & R & _). now exists w'.
Qed.
Ltac told He Hs := apply (tells_reference _ _ _ _ _ _ He Hs); reflexivity.

(** Two of the 64-bit names are made of two 32-bit names. *)
Theorem c116_two_words e grow x hi lo bytes seed : ext_ok e -> seed < 2 ^ 64 -> In (x, hi, lo) two_words ->
  exists h l, tells e grow hi bytes seed h /\ tells e grow lo bytes seed l /\ h < 2 ^ 32 /\ l < 2 ^ 32 /\ tells e grow x bytes seed (h * 2 ^ 32 + l).
Proof.
  intros He Hs I. destruct I as [I|[I|[]]]; injection I as <- <- <-.
  - pose proof (JenkinsProofs6.lookup3_ok bytes (low32 seed) (low32 seed)) as [Rc Rb].
    exists (snd (JenkinsSpec.lookup3 bytes (low32 seed) (low32 seed))), (fst (JenkinsSpec.lookup3 bytes (low32 seed) (low32 seed))).
    split; [told He Hs|]. split; [told He Hs|]. destruct (JenkinsSpec.lookup3 bytes (low32 seed) (low32 seed)) as [c b] eqn:E. split; [exact Rb|]. split; [exact Rc|].
    apply tells_reference; [exact He|exact Hs|reflexivity|]. unfold reference. cbn [assoc table String.eqb Ascii.eqb Bool.eqb]. now rewrite E.
  - pose proof (lookup8v_fits bytes seed) as F.
    exists (high32 (JenkinsSpec.lookup8v bytes seed)), (low32 (JenkinsSpec.lookup8v bytes seed)).
    split; [told He Hs|]. split; [told He Hs|]. split; [apply N.div_lt_upper_bound; [discriminate|exact F]|]. split; [apply N.mod_lt; discriminate|].
    unfold high32, low32. rewrite (N.mul_comm (_ / _)), <- N.div_mod by discriminate. told He Hs.
Qed.
Print Assumptions c116_two_words.

(** Five names are the exclusive or of two others. *)
Theorem c116_folds e grow x a b bytes seed : ext_ok e -> seed < 2 ^ 64 -> In (x, a, b) folds ->
  exists h l, tells e grow a bytes seed h /\ tells e grow b bytes seed l /\ tells e grow x bytes seed (N.lxor h l).
Proof.
  intros He Hs I. destruct I as [I|[I|[I|[I|[I|[]]]]]]; injection I as <- <- <-; (eexists; eexists; split; [told He Hs|]; split; [told He Hs|]).
  1: rewrite N.lxor_comm; told He Hs.
  all: told He Hs.
Qed.
Print Assumptions c116_folds.

(** spooky64 is spooky128h, and for 32-bit seeds spooky32 is its low half; siphash64 is siphash64pg with seed 0, whatever
    the seed. *)
Theorem c116_same e grow bytes seed : ext_ok e -> seed < 2 ^ 64 ->
  (exists h, tells e grow "spooky64" bytes seed h /\ tells e grow "spooky128h" bytes seed h /\
     (seed < 2 ^ 32 -> tells e grow "spooky32" bytes seed (h mod 2 ^ 32))) /\
  (exists h, tells e grow "siphash64" bytes seed h /\ tells e grow "siphash64pg" bytes 0 h).
Proof.
  intros He Hs. split.
  - exists (fst (SpookySpec.spookyhash_v2 bytes seed seed)). split; [told He Hs|]. split; [told He Hs|]. intros S.
    apply tells_reference; [exact He|exact Hs|reflexivity|]. unfold reference. cbn [assoc table String.eqb Ascii.eqb Bool.eqb].
    unfold low32. now rewrite (N.mod_small seed) by exact S.
  - exists (SipSpec.sip_spec 2 4 0 0 bytes). split; [told He Hs|]. apply tells_reference; [exact He|reflexivity|reflexivity|reflexivity].
Qed.
Print Assumptions c116_same.
(** For larger seeds it is not. *)
Theorem c116_spooky32_refuted e grow : ext_ok e -> exists bytes seed h h', seed < 2 ^ 64 /\ tells e grow "spooky64" bytes seed h /\
  tells e grow "spooky32" bytes seed h' /\ h' <> h mod 2 ^ 32.
Proof.
  intros He.
  exists [104; 105], (2 ^ 32). eexists. eexists. assert (Hs : 2 ^ 32 < 2 ^ 64) by reflexivity. split; [exact Hs|].
  split; [told He Hs|]. split; [told He Hs|]. vm_compute. discriminate.
Qed.
Print Assumptions c116_spooky32_refuted.

Example c116_nonvacuous : let w := init [[104; 105]] in let k := mkSlice 0 0 2 2 in
  ext_ok toy /\ world_ok w /\ slice_in (mem w) k /\ read (mem w) k = [104; 105] /\
  (exists h l, value (Hashf toy (fun _ n => n) w "j332b" k 7) = Some h /\ value (Hashf toy (fun _ n => n) w "j332c" k 7) = Some l /\
     value (Hashf toy (fun _ n => n) w "j364" k 7) = Some (h * 2 ^ 32 + l) /\ h <> l) /\
  (exists h l, value (Hashf toy (fun _ n => n) w "MetroHash128-1h" k 7) = Some h /\ value (Hashf toy (fun _ n => n) w "MetroHash128-1l" k 7) = Some l /\
     value (Hashf toy (fun _ n => n) w "MetroHash128-1xor" k 7) = Some (N.lxor h l) /\ h <> l) /\
  value (Hashf toy (fun _ n => n) w "siphash64" k 7) <> value (Hashf toy (fun _ n => n) w "siphash64pg" k 7).
Proof.
  cbv zeta. split; [exact toy_ok|]. split; [apply init_ok; repeat constructor|]. split; [repeat split; cbn; lia|]. split; [reflexivity|].
  split; [|split]; [do 2 eexists; do 3 (split; [vm_compute; reflexivity|]); vm_compute; discriminate..|vm_compute; discriminate].
Qed.
