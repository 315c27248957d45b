#!/usr/bin/env python3
"""Transcribes the macros of keccak/KeccakF-1600-64.macros.h (the branch of
UseBebigokimisa) and the list of rounds of KeccakF-1600-unrolling.macros.h into SLP
programs (prints Gallina).  Lane variables Xba..Xsu for X = A, E are the registers
x + 0 .. x + 24, where x (0 for A, 25 for E) is a parameter as in the macro; Ca..Cu are
50..54, Da..Du 55..59, Bba..Bsu 60..84."""
import re
D='/repo/keccak/'
L=open(D+'KeccakF-1600-64.macros.h').read().split('\n')
U=open(D+'KeccakF-1600-unrolling.macros.h').read().split('\n')
V='aeiou'; R='bgkms'
def lane(s): return 5*R.index(s[0])+V.index(s[1])
def macro(lines, head, n=0):
    k=[i for i,l in enumerate(lines) if l.startswith('#define '+head)][n]
    out=[]; i=k+1
    while lines[i-1].rstrip().endswith('\\') and i<len(lines):
        out.append((i+1,lines[i].rstrip().rstrip('\\').strip())); i+=1
    while out and not out[-1][1]: out.pop()
    return k+1, out[-1][0], [s for _,s in out if s]
def reg(t):
    m=re.fullmatch(r'([AE])##(\w\w)',t)
    if m: return f'({m.group(1).lower()} + {lane(m.group(2))})'
    m=re.fullmatch(r'([AE])(\w\w)',t)
    if m: return f'{(0 if m.group(1)=="A" else 25)+lane(m.group(2))}'
    m=re.fullmatch(r'C(\w)',t)
    if m: return f'{50+V.index(m.group(1))}'
    m=re.fullmatch(r'D(\w)',t)
    if m: return f'{55+V.index(m.group(1))}'
    m=re.fullmatch(r'B(\w\w)',t)
    assert m,t
    return f'{60+lane(m.group(1))}'
# expression parser: precedence of C: ~, &, ^, |
def toks(s): return re.findall(r'ROL64|KeccakF1600RoundConstants\[i\]|[AE]##\w\w|\w+|[()~&^|,]',s)
class P:
    def __init__(s,t): s.t=t; s.i=0
    def peek(s): return s.t[s.i] if s.i<len(s.t) else None
    def take(s,x=None):
        y=s.t[s.i]; s.i+=1
        assert x is None or x==y,(x,y,s.t); return y
    def bin(s,op,name,sub):
        e=sub()
        while s.peek()==op: s.take(); e=f'(E2 {name} {e} {sub()})'
        return e
    def orr(s): return s.bin('|','BOr',s.xor)
    def xor(s): return s.bin('^','BXor',s.and_)
    def and_(s): return s.bin('&','BAnd',s.un)
    def un(s):
        x=s.take()
        if x=='~': return f'(E1 UNot {s.un()})'
        if x=='(': e=s.orr(); s.take(')'); return e
        if x=='ROL64':
            s.take('('); v=reg(s.take()); s.take(','); k=int(s.take()); s.take(')')
            return f'(ROL64 {v} {k})'
        if x=='KeccakF1600RoundConstants[i]': return '(EC c)'
        return f'(EV {reg(x)})'
def stmt(s):
    m=re.fullmatch(r'(\S+)\s*(\^?=)\s*(.*);',s); assert m,s
    p=P(toks(m.group(3))); e=p.orr(); assert p.i==len(p.t),s
    d=reg(m.group(1))
    if m.group(2)=='^=': e=f'(E2 BXor (EV {d}) {e})'
    return f'Set_ {d} {e}'
def prog(name,head,args,n=0):
    a,b,ss=macro(L,head,n)
    print(f'(** {head.split("(")[0]}, KeccakF-1600-64.macros.h:{a}-{b}. *)')
    print(f'Definition {name} {args}: prog :=\n  [' + ';\n   '.join(stmt(s) for s in ss)+'].')
print('''(** Generated by tools/ckeccak_prog.py from keccak/KeccakF-1600-64.macros.h and
    KeccakF-1600-unrolling.macros.h; see there for the numbering of the variables. *)
From Coq Require Import NArith List.
From Verif Require Import SLP.
Import ListNotations.
Open Scope nat_scope.

(** ROL64, KeccakF-1600-opt64.c:86. *)
Definition ROL64 (a : nat) (offset : N) : exp := E2 BXor (E1 (UShl offset) (EV a)) (E1 (UShr (64 - offset)) (EV a)).''')
prog('prepareTheta','prepareTheta','')
prog('thetaRhoPiChiIotaPrepareTheta','thetaRhoPiChiIotaPrepareTheta(','(c : N) (a e : nat) ')
prog('thetaRhoPiChiIota','thetaRhoPiChiIota(','(c : N) (a e : nat) ')
# constants
k=[i for i,l in enumerate(L) if 'KeccakF1600RoundConstants[24]' in l][0]
cs=[]; i=k+1
if True:
    while '}' not in L[i-1]:
        cs += re.findall(r'0x[0-9a-fA-F]+',L[i]); i+=1
    i-=1
assert len(cs)==24
print(f'(** KeccakF1600RoundConstants, KeccakF-1600-64.macros.h:{k+1}-{i+1}. *)')
print('Definition KeccakF1600RoundConstants : list N := ['+';\n  '.join('; '.join(cs[j:j+4]) for j in range(0,24,4))+']%N.')
# copyFromStateAndXor
for bits in (576,832,1024,1088,1152,1344):
    a,b,ss=macro(L,f'copyFromStateAndXor{bits}bits')
    row=[]
    for j,s in enumerate(ss):
        m=re.fullmatch(r'X##(\w\w) = state\[\s*(\d+)\](?:\^input\[\s*(\d+)\])?;',s); assert m,s
        assert lane(m.group(1))==j==int(m.group(2)) and (m.group(3) is None or int(m.group(3))==j)
        row.append('true' if m.group(3) else 'false')
    assert len(row)==25
    print(f'(** copyFromStateAndXor{bits}bits, KeccakF-1600-64.macros.h:{a}-{b}: lane i is state[i]^input[i] (true) or state[i]. *)')
    print(f'Definition xored{bits} : list bool := ['+'; '.join(row)+'].')
for nm in ('copyFromState(X','copyToState(state'):
    a,b,ss=macro(L,nm)
    for j,s in enumerate(ss):
        assert re.fullmatch(r'X##%s%s = state\[\s*%d\];|state\[\s*%d\] = X##%s%s;'%(R[j//5],V[j%5],j,j,R[j//5],V[j%5]),s),s
    print(f'(* {nm.split("(")[0]}, KeccakF-1600-64.macros.h:{a}-{b}, copies lane i from/to state[i] (checked by the script). *)')
k=[i for i,l in enumerate(U) if 'Unrolling == 24' in l][0]
row=[];i=k+2
assert 'prepareTheta' in U[i]; i+=1
while 'copyToState' not in U[i]:
    m=re.fullmatch(r'\s*(\w+)\(\s*(\d+), (\w), (\w)\) \\',U[i]); assert m,U[i]
    r={'A':'0','E':'25'}
    row.append(f'{m.group(1)} (nth {m.group(2)} KeccakF1600RoundConstants 0%N) {r[m.group(3)]} {r[m.group(4)]}'); i+=1
print(f'(** rounds, KeccakF-1600-unrolling.macros.h:{k+2}-{i+1}, without the final copyToState(state, A). *)')
print('Definition rounds24 : list prog :=\n  [prepareTheta;\n   '+';\n   '.join(row)+'].')
