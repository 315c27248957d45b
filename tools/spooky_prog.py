#!/usr/bin/env python3
"""Transcribes the straight-line mixers of spooky/spooky.go into SLP programs
(prints Gallina).  Registers: s0..s11 / h0..h11 -> 0..11, data[i] -> 12+i."""
import re
L = open('/repo/spooky/spooky.go').read().split('\n')
def reg(x):
    m = re.fullmatch(r'[sh](\d+)', x)
    if m: return f'(EV {m.group(1)})'
    m = re.fullmatch(r'data\[(\d+)\]', x)
    return f'(EV {12 + int(m.group(1))})'
def stmts(a, b):
    out = []
    for line in L[a-1:b]:
        row = []
        for st in line.split(';'):
            st = st.strip()
            if not st: continue
            m = re.fullmatch(r'[sh](\d+)\s*(\+|\^)=\s*(\S+)', st)
            if m:
                op = {'+': 'BAdd', '^': 'BXor'}[m.group(2)]
                row.append(f'Set_ {m.group(1)} (E2 {op} (EV {m.group(1)}) {reg(m.group(3))})')
                continue
            m = re.fullmatch(r'[sh](\d+)\s*=\s*Rot64\([sh](\d+),(\d+)\)', st)
            assert m, st
            row.append(f'Set_ {m.group(1)} (E1 (URotl {m.group(3)}) (EV {m.group(2)}))')
        out.append('; '.join(row))
    return ';\n   '.join(out)
for name, fn, a, b in (('mix_prog', 'Mix', 77, 88), ('end_partial_prog', 'EndPartial', 110, 121),
                       ('end_add_prog', 'the additions of End', 127, 129),
                       ('short_mix_prog', 'ShortMix', 202, 213), ('short_end_prog', 'ShortEnd', 230, 240)):
    print(f'(** {fn}, spooky.go:{a}-{b}. *)')
    print(f'Definition {name} : prog :=\n  [{stmts(a, b)}].')
