(** C103: the streaming digests of packages jenkins, murmur3 and siphash in memory. *)
From Coq Require Import NArith ZArith List Arith Lia Bool.
From Verif Require SipProps.
From Verif Require Import Words ListLemmas Mem KeccakModel SipModel SipSpec JenkinsModel Mm3Model DigMemModel DigMemSpec DigMemProofs DigMemProofs2 DigMemProofs3.
Import ListNotations.
Open Scope N_scope.

(** Whatever a program does with its arrays, and whatever capacities the runtime chooses: the
    results and the program's memory are those of digests that share no memory with anyone. *)
Theorem c103_memory grow ops : mops_ok grow [] [] ops -> Forall no_copy ops ->
  mem_run grow [] [] [] ops = val_run grow [] [] ops.
Proof.
  intros H N. apply (mem_run_ok grow ops [] [] [] [] [] []); [exact inv_start|exact H|].
  apply no_copy_one; [exact N|]. intros [|i]; reflexivity.
Qed.
Print Assumptions c103_memory.

(** The same with copies of digests, as long as of a digest and its copies at most one is written
    to after the copying, without a Reset before. *)
Theorem c103_snapshots grow ops : mops_ok grow [] [] ops -> one_writer [] ops ->
  mem_run grow [] [] [] ops = val_run grow [] [] ops.
Proof. intros H N. apply (mem_run_ok grow ops [] [] [] [] [] []); [exact inv_start|exact H|exact N]. Qed.
Print Assumptions c103_snapshots.

(** Without that condition it is false. *)
Theorem c103_copies_refuted : exists grow ops, mops_ok grow [] [] ops /\
  exists a b ms, mem_run grow [] [] [] ops = Ok ([[a]; [b]], ms) /\ val_run grow [] [] ops <> Ok ([[a]; [b]], ms) /\ a = b.
Proof.
  exists (fun _ _ => 8%nat), [DAlloc [1; 2; 3]; DNew (K364 0); DWrite 0 0 0 1; DCopy 0; DWrite 0 0 1 1; DWrite 1 0 2 1; DNum 0; DNum 1].
  split; [cbv; repeat split; lia|]. eexists _, _, _. split; [vm_compute; reflexivity|]. split; [|reflexivity].
  intros H. vm_compute in H. discriminate H.
Qed.
Print Assumptions c103_copies_refuted.

(** What happens then: with room behind the bytes x written before the copying, p written to the
    original and q of the same length written to the copy, both digests have x ++ q. *)
Theorem c103_copies_alias grow k x p q rest : x <> [] -> length p = length q -> (length x + length q <= grow 0%nat (length x))%nat ->
  (exists s, k = K332 s \/ k = K364 s \/ k = K232 s) ->
  one_writer [true; true] rest -> mops_ok grow [x ++ p ++ q] [v_write (v_write (v_new k) x) q; v_write (v_write (v_new k) x) q] rest ->
  mem_run grow [] [] [] ([DAlloc (x ++ p ++ q); DNew k; DWrite 0 0 0 (length x); DCopy 0;
      DWrite 0 0 (length x) (length p); DWrite 1 0 (length x + length p) (length q)] ++ rest) =
  val_run grow [] [] ([DAlloc (x ++ p ++ q); DNew k; DWrite 0 0 0 (length x); DCopy 0;
      DWrite 0 0 (length x + length p) (length q); DWrite 1 0 (length x + length p) (length q)] ++ rest).
Proof.
  intros H1 H2 H3 H4 H5 H6. pose proof (alias grow x p q H1 H2 H3 k rest H4 H5 H6) as A. unfold pre in A.
  rewrite H2 in A. rewrite H2. exact A.
Qed.
Print Assumptions c103_copies_alias.

(** A siphash digest keeps no view of its key either: with the array of the key overwritten after
    New, and that of the message after Write, the answer is SipHash-2-4 of the former contents. *)
Theorem c103_siphash grow key p junk junk' : length key = 16%nat -> bytes_ok p -> length junk = 16%nat -> length junk' = length p ->
  mem_run grow [] [] [] [DAlloc key; DAlloc p; DSip 8 0 0 16; DAssign 0 0 junk; DWrite 0 1 0 (length p); DAssign 1 0 junk'; DNum 0] =
  Ok ([[sip_spec 2 4 (le_load (firstn 8 key)) (le_load (skipn 8 key)) p]], [junk; junk']).
Proof.
  intros Hk Hp Hj Hj'.
  assert (K : exists d, sip_new key = Some d).
  { destruct (sip_new key) as [d|] eqn:E; [now exists d|]. exfalso. unfold sip_new in E. apply SipProofs.sip_new_panics in E. destruct E as [E|E]; lia. }
  destruct K as (d & K).
  assert (H : sip_sum64 (fst (sip_write d p)) = sip_hash (SipProps.key_lo key) (SipProps.key_hi key) p).
  { pose proof (SipProps.c10_stream64 key d [p] K (Forall_cons _ Hp (Forall_nil _))) as H. cbn in H. injection H as H. rewrite app_nil_r in H. exact H. }
  unfold SipProps.key_lo, SipProps.key_hi in H. rewrite (proj1 (SipProps.c51_is_siphash_2_4 _ _ p Hp)) in H.
  rewrite (firstn_all2 (n := 8) (skipn 8 key)) in H by (rewrite skipn_length; lia). rewrite <- H.
  rewrite c103_memory.
  - cbn [val_run app nth_error upd length nth]. unfold sip_new in K. cbn [skipn]. rewrite firstn_all2 by lia. rewrite K.
    cbn [nth_error upd v_write v_num rbind app store array nth]. unfold store. cbn [array nth upd skipn].
    rewrite firstn_all. cbn [Nat.add firstn app].
    rewrite Hj, Hj', !skipn_all2 by lia. now rewrite !app_nil_r.
  - cbn [mops_ok app nth skipn]. rewrite firstn_all2 by lia. unfold sip_new in K. rewrite K. unfold in_bounds.
    cbn [nth_error app length nth store array upd]. unfold store. cbn [array nth upd length]. repeat split; lia.
  - repeat constructor.
Qed.
Print Assumptions c103_siphash.

(** Three digests are given pieces of one array, which is overwritten between the calls; Sum writes
    behind the piece it is given, in the program's own array or in a new one. *)
Definition c103_program : list mop :=
  [DAlloc [1; 2; 3; 4; 5; 6; 7; 8; 9; 10; 11; 12]; DNew (K364 7); DNew K32; DNew K128; DWrite 0 0 0 5; DWrite 1 0 2 3; DWrite 2 0 1 7;
   DAssign 0 0 [99; 98; 97; 96]; DWrite 0 0 0 2; DWrite 1 0 0 6; DSum 1 0 0 2; DNum 2; DSum 0 0 10 2; DReset 1; DWrite 1 1 0 4; DNum 1; DNum 0].
Example c103_nonvacuous : mops_ok (fun c n => 2 * n)%nat [] [] c103_program /\ Forall no_copy c103_program /\
  exists r ms, mem_run (fun c n => 2 * n)%nat [] [] [] c103_program = Ok (r, ms) /\ length r = 5%nat /\ length ms = 2%nat /\ firstn 2 (nth 0 ms []) = [99; 98].
Proof. split; [vm_compute; repeat split; lia|]. split; [repeat constructor|]. eexists _, _. split; [vm_compute; reflexivity|]. repeat split. Qed.
(** A snapshot of a running digest. *)
Definition c103_snapshot : list mop :=
  [DAlloc [1; 2; 3; 4]; DNew (K332 7); DWrite 0 0 0 2; DCopy 0; DNum 1; DWrite 0 0 2 2; DNum 1; DCopy 0; DWrite 2 0 0 3; DNum 0; DNum 2].
Example c103_snapshot_nonvacuous : mops_ok (fun c n => 2 * n)%nat [] [] c103_snapshot /\ one_writer [] c103_snapshot /\
  exists r ms, mem_run (fun c n => 2 * n)%nat [] [] [] c103_snapshot = Ok (r, ms) /\ length r = 4%nat.
Proof. split; [vm_compute; repeat split; lia|]. split; [cbn; intuition|]. eexists _, _. split; [vm_compute; reflexivity|]. reflexivity. Qed.
(** Two siphash digests whose key and message come from one array, which is overwritten in between. *)
Definition c103_sip_program : list mop :=
  [DAlloc (map N.of_nat (seq 0 32)); DSip 8 0 0 16; DAssign 0 0 [9; 9; 9]; DSip 16 0 0 17; DWrite 0 0 16 5; DAssign 0 16 [1; 1; 1];
   DWrite 0 0 16 11; DWrite 1 0 3 20; DSum 1 0 0 4; DNum 0; DReset 0; DWrite 0 0 0 6; DNum 0].
Example c103_sip_nonvacuous : mops_ok (fun c n => 2 * n)%nat [] [] c103_sip_program /\ Forall no_copy c103_sip_program /\
  (exists r ms, mem_run (fun c n => 2 * n)%nat [] [] [] c103_sip_program = Ok (r, ms) /\ length r = 3%nat /\ length (nth 0 r []) = 20%nat) /\
  mem_run (fun c n => 2 * n)%nat [] [] [] [DAlloc [1; 2; 3]; DSip 8 0 0 3] = Panics.
Proof.
  split; [vm_compute; repeat split; lia|]. split; [repeat constructor|]. split; [|vm_compute; reflexivity].
  eexists _, _. split; [vm_compute; reflexivity|]. split; reflexivity.
Qed.
Example c103_alias_nonvacuous : let grow := (fun c n => 2 * n)%nat in let rest := [DNum 0; DNum 1] in
  (length [1; 2] + length [4] <= grow 0 (length [1; 2]))%nat /\ one_writer [true; true] rest /\
  mops_ok grow [[1; 2] ++ [3] ++ [4]] [v_write (v_write (v_new (K232 5)) [1; 2]) [4]; v_write (v_write (v_new (K232 5)) [1; 2]) [4]] rest.
Proof. vm_compute. repeat split; lia. Qed.
