#!/usr/bin/env python3
"""Transcribes encrypt and decrypt of threefish/threefish{256,512,1024}.go into
SLP programs (writes rocq/theories/ThreefishProg.v).  With n words of state:
b0..b(n-1) -> registers 0..n-1, k0..kn -> n..2n, t0..t2 -> 2n+1..2n+3, tmp -> 2n+4.
The file is cut into groups of four rounds for readability only."""
import re, sys
out = ["""(** Generated by tools/threefish_prog.py from threefish/threefish256.go,
    threefish512.go and threefish1024.go: the bodies of encrypt and decrypt, one
    assignment per Go statement.  With n words of state, register i < n is b_i,
    register n+i is k_i, register 2n+1+i is t_i, register 2n+4 is tmp.
    ((x << k) | (x >> (64 - k))) is written [URotl k], ((x >> k) | (x << (64 - k)))
    is written [URotr k]; these are the definitions of rotlw and rotrw in Words.v. *)
From Coq Require Import NArith List.
From Verif Require Import SLP.
Import ListNotations.
Open Scope N_scope.
"""]
for n, bits, e0, d0 in ((4, 256, 83, 432), (8, 512, 83, 767), (16, 1024, 83, 1584)):
    L = open(f'/repo/threefish/threefish{bits}.go').read().split('\n')
    def reg(x):
        if x == 'tmp': return 2*n+4
        i = int(x[1:])
        return {'b': i, 'k': n+i, 't': 2*n+1+i}[x[0]]
    def atom(x):
        x = x.strip()
        return f'(EC {x})' if x.isdigit() else f'(EV {reg(x)})'
    def summ(s):
        xs = s.split('+'); e = atom(xs[0])
        for x in xs[1:]: e = f'(E2 BAdd {e} {atom(x)})'
        return e
    def stmt(st):
        m = re.fullmatch(r'(b\d+) ([+-])= (.*)', st)
        if m:
            d = reg(m.group(1)); op = {'+': 'BAdd', '-': 'BSub'}[m.group(2)]
            return f'Set_ {d} (E2 {op} (EV {d}) {summ(m.group(3))})'
        m = re.fullmatch(r'(b\d+) = \(\((b\d+) << (\d+)\) \| \((b\d+) >> \(64 - (\d+)\)\)\) \^ (b\d+)', st)
        if m:
            assert m.group(2) == m.group(4) and m.group(3) == m.group(5), st
            return f'Set_ {reg(m.group(1))} (E2 BXor (E1 (URotl {m.group(3)}) (EV {reg(m.group(2))})) (EV {reg(m.group(6))}))'
        m = re.fullmatch(r'tmp = (b\d+) \^ (b\d+)', st)
        if m:
            return f'Set_ {reg("tmp")} (E2 BXor (EV {reg(m.group(1))}) (EV {reg(m.group(2))}))'
        m = re.fullmatch(r'(b\d+) = \(tmp >> (\d+)\) \| \(tmp << \(64 - (\d+)\)\)', st)
        if m:
            assert m.group(2) == m.group(3), st
            return f'Set_ {reg(m.group(1))} (E1 (URotr {m.group(2)}) (EV {reg("tmp")}))'
        raise Exception(st)
    for name, start in (('enc', e0), ('dec', d0)):
        body = []; outs = []; k = start; first = last = None
        assert L[start-1].startswith(f'func (tf *threefish{bits}) {name}rypt(input, output []uint64)')
        seen = {}
        while L[k] != '}':
            st = L[k].split('//')[0].strip(); k += 1
            if not st or st == 'var tmp uint64': continue
            m = re.fullmatch(r'(b|k|t)(\d+) := (input|tf\.expanedKey|tf\.expanedTweak)\[(\d+)\]', st)
            if m:
                assert m.group(2) == m.group(4)
                assert {'b': 'input', 'k': 'tf.expanedKey', 't': 'tf.expanedTweak'}[m.group(1)] == m.group(3)
                seen.setdefault(m.group(1), []).append(int(m.group(2))); continue
            m = re.fullmatch(r'output\[(\d+)\] = (.*)', st)
            if m:
                outs.append((int(m.group(1)), summ(m.group(2)))); continue
            assert not outs
            if first is None: first = k
            last = k
            body.append(stmt(st))
        assert sorted(seen['b']) == list(range(n)) and sorted(seen['k']) == list(range(n+1)) and sorted(seen['t']) == [0, 1, 2]
        outs.sort(); assert [i for i, _ in outs] == list(range(n)); outs = [e for _, e in outs]
        groups = []
        if name == 'dec':
            groups.append(body[:n]); body = body[n:]; size = 13*n//2
        else: size = 9*n//2
        assert len(body) % size == 0, (len(body), size)
        groups += [body[i:i+size] for i in range(0, len(body), size)]
        out.append(f'(** threefish{bits}.go:{first}-{last}. *)\nDefinition {name}{bits}_groups : list prog :=\n  [' +
                   ';\n   '.join('[' + ';\n    '.join(g) + ']' for g in groups) + '].')
        out.append(f'(** output[i] = ..., in increasing order of i, threefish{bits}.go:{last+2}-{k}. *)\nDefinition {name}{bits}_out : list exp :=\n  [' + ';\n   '.join(outs) + '].')
open('/verif/rocq/theories/ThreefishProg.v', 'w').write('\n'.join(out) + '\n')
