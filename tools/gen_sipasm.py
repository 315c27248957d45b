#!/usr/bin/env python3
"""Transcribe siphash/hash_amd64.s and hash128_amd64.s into the instruction
lists of rocq/theories/SipAsmProg.v, one instruction per source line."""
import re, sys, os
root = os.path.dirname(os.path.dirname(os.path.abspath(__file__)))
REGS = {'AX','BX','CX','DX','SI','DI','R8','R9','R10','R11'}
def num(s): return str(int(s, 16) if s.lower().startswith('0x') else int(s))
ARGS = {'k0+0(FP)':'A_k0','k1+8(FP)':'A_k1','b_len+24(FP)':'A_len','b_base+16(FP)':'A_base'}
RETS = {'ret+40(FP)':'0','r0+40(FP)':'0','r1+48(FP)':'1'}
def one(op, args):
    a = args
    isr = lambda x: x in REGS
    mem = lambda x: re.match(r'^(0x[0-9A-Fa-f]+|\d*)\((\w+)\)\((\w+)\*1\)$', x)
    if op == 'MOVQ':
        s, d = a
        if s in ARGS: return f'IMovArg {ARGS[s]} {d}'
        if d in RETS: return f'IStoreRet {RETS[d]} {s}'
        if s.startswith('$'): return f'IMovImm {num(s[1:])} {d}'
        m = mem(s)
        if m: return f'ILoad64 {num(m.group(1) or "0")} {m.group(2)} {m.group(3)} {d}'
        assert isr(s) and isr(d); return f'IMov {s} {d}'
    if op == 'MOVBQZX':
        m = mem(a[0]); return f'ILoad8 {num(m.group(1) or "0")} {m.group(2)} {m.group(3)} {a[1]}'
    if op == 'LEAQ':
        m = mem(a[0]); assert num(m.group(1) or '0') == '0'
        return f'ILea {m.group(2)} {m.group(3)} {a[1]}'
    if op in ('ADDQ','XORQ','SUBQ','ORQ','ANDQ') :
        n = {'ADDQ':'Add','XORQ':'Xor','SUBQ':'Sub','ORQ':'Or','ANDQ':'And'}[op]
        if a[0].startswith('$'): return f'I{n}Imm {num(a[0][1:])} {a[1]}'
        assert isr(a[0]) and isr(a[1]); return f'I{n} {a[0]} {a[1]}'
    if op == 'XORB':
        assert a[1] in ('AL','CL'); return f'IXorbImm {num(a[0][1:])} {a[1][0]}X'
    if op in ('SHLQ','RORQ'): return f'I{op[:3].capitalize()}Imm {num(a[0][1:])} {a[1]}'
    if op == 'XCHGQ': return f'IXchg {a[0]} {a[1]}'
    if op == 'CMPQ':
        if a[1].startswith('$'): return f'ICmpImm {a[0]} {num(a[1][1:])}'
        return f'ICmp {a[0]} {a[1]}'
    if op in ('JE','JA','JMP'): return f'I{op.capitalize()} L_{a[0]}'
    if op == 'RET': return 'IRet'
    raise Exception((op, args))
def transcribe(path, name):
    out = []
    for ln, line in enumerate(open(path), 1):
        line = line.split('//')[0].strip()
        if not line or line.startswith('TEXT'): continue
        m = re.match(r'^(\w+):(.*)$', line)
        if m:
            out.append((f'ILabel L_{m.group(1)}', ln)); line = m.group(2).strip()
            if not line: continue
        parts = line.split(None, 1)
        args = re.sub(r'\s', '', parts[1]).split(',') if len(parts) > 1 else []
        out.append((one(parts[0], args), ln))
    s = f'(** {os.path.relpath(path, "/repo")}:{out[0][1]}-{out[-1][1]}, one entry per instruction or label, in order. *)\n'
    s += f'Definition {name} : list instr := [\n'
    s += ';\n'.join(f'  (* {ln} *) {i}' for i, ln in out)
    return s + '\n].\n'
txt = '(** Generated by tools/gen_sipasm.py from the assembly sources. *)\nFrom Verif Require Import Words SipAsmModel.\n\n'
txt += transcribe('/repo/siphash/hash_amd64.s', 'asm_hash_prog') + '\n' + transcribe('/repo/siphash/hash128_amd64.s', 'asm_hash128_prog')
open(root + '/rocq/theories/SipAsmProg.v', 'w').write(txt)
