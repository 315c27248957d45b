#!/usr/bin/env python3
"""Generate rocq/theories/SipVectors.v from siphash/siphash_test.go."""
import re, os
src = open('/repo/siphash/siphash_test.go').read()
def rows(name):
    m = re.search(r'var %s = \[\]\[\]byte\{(.*?)\n\}' % name, src, re.S)
    return [[int(x, 16) for x in re.findall(r'0x[0-9a-f]+', r)] for r in re.findall(r'\{(.*?)\}', m.group(1))]
def coq(rs):
    return '[\n  ' + ';\n  '.join('[' + '; '.join(map(str, r)) + ']' for r in rs) + ']'
g64, g128 = rows('goldenRef'), rows('goldenRef128')
assert len(g64) == 64 and len(g128) == 64
out = '''(** Generated by tools/gen_sipvec.py: the test vectors of
    siphash/siphash_test.go evaluated on the model (these are tests of the
    transcription, not proofs). *)
From Coq Require Import ZArith.
From Verif Require Import Words SipModel SipAsmModel SipAsmProg.
Open Scope N_scope.

Definition vec_key : list N := map N.of_nat (seq 0 16).
Definition vec_k0 := le_load (firstn 8 vec_key).
Definition vec_k1 := le_load (skipn 8 vec_key).
Definition vec_in (i : nat) : list N := map N.of_nat (seq 0 i).

(** siphash_test.go:66-131 *)
Definition golden_ref : list (list N) := %s.
(** siphash_test.go:133-198 *)
Definition golden_ref128 : list (list N) := %s.

Example golden64 : map (fun i => le_store 8 (sip_hash vec_k0 vec_k1 (vec_in i))) (seq 0 64) = golden_ref.
Proof. vm_compute. reflexivity. Qed.
Example golden128 : map (fun i => let '(a, b) := sip_hash128 vec_k0 vec_k1 (vec_in i) in le_store 8 a ++ le_store 8 b)
  (seq 0 64) = golden_ref128.
Proof. vm_compute. reflexivity. Qed.
Example golden64_asm : map (fun i => option_map (fun o => le_store 8 (hd 0 o))
    (mrun 2000 (Call vec_k0 vec_k1 4096 (vec_in i)) asm_hash_prog (entry (repeat 77 10)))) (seq 0 64)
  = map Some golden_ref.
Proof. vm_compute. reflexivity. Qed.
Example golden_digest : map (fun i => option_map (fun d => sip_sum (sip_write_d (sip_write_d d (firstn 5 (vec_in i))) (skipn 5 (vec_in i))) [])
    (sip_new vec_key)) (seq 0 64) = map Some golden_ref.
Proof. vm_compute. reflexivity. Qed.
(** siphash_test.go:17-52 *)
Example golden_misc :
  sip_hash 0 0 [72; 101; 108; 108; 111; 32; 119; 111; 114; 108; 100] = 0xc9e8a3021f3822d9 /\\
  sip_hash 0 0 [] = 0x1e924b9d737700d7 /\\
  sip_hash 0 0 [49;50;51;52;53;54;55;56;49;50;51] = 0xf95d77ccdb0649f /\\
  sip_hash 0 0 (repeat 0 8) = 0xe849e8bb6ffe2567 /\\
  sip_hash 0 0 (repeat 0 1535) = 0xe74d1c0ab64b2afa.
Proof. vm_compute. auto. Qed.
(** siphashpg/siphash_test.go uses the same table. *)
Example golden_pg : map (fun i => option_map (fun r => le_store 8 (fst r)) (pg_siphash (vec_in i) vec_key 2%%Z 4%%Z false)) (seq 0 64)
  = map Some golden_ref.
Proof. vm_compute. reflexivity. Qed.
''' % (coq(g64), coq(g128))
open(os.path.join(os.path.dirname(os.path.abspath(__file__)), '../rocq/theories/SipVectors.v'), 'w').write(out)
