#!/usr/bin/env python3
"""Transcribes the macros of package keccak for the build settings that are not the ones of
KeccakF-1600-opt64-settings.h (prints Gallina): the branch of KeccakF-1600-64.macros.h
without UseBebigokimisa as SLP programs, KeccakF-1600-simd64.macros.h and
KeccakF-1600-simd128.macros.h as programs of CkVecModel, and the loops of
KeccakF-1600-unrolling.macros.h.
Variables: in the first two files Xba..Xsu for X = A, E are x + 0 .. x + 24 (x = 0, 25),
Ca..Cu 50..54, Da..Du 55..59, Bba..Bsu 60..84.  In the third Xbage, Xbegi, Xbigo, Xbogu,
Xbuga, Xkame, Xkemi, Xkimo, Xkomu, Xkuma are x + 0 .. x + 9 and Xba..Xsu x + 10 .. x + 34
(x = 0 for A, 35 for E, 80 for B), Abae, Abio, Agae, .. Asio are 70..79 (E and B have no such
variables), Cae, Cei, Cio, Cou, Cua, Dei, Dou 115..121, Ca..Cu 122..126, Da..Du 127..131,
Zero 132."""
import re,sys,io,contextlib
with contextlib.redirect_stdout(io.StringIO()):
    sys.path.insert(0, __file__.rsplit('/',1)[0]); import ckeccak_prog as K
D=K.D; U=K.U
def load(f): return open(D+f).read().split('\n')
S64=load('KeccakF-1600-simd64.macros.h'); S128=load('KeccakF-1600-simd128.macros.h')
V=K.V; lane=K.lane
print('''(** Generated by tools/ckeccak_settings.py from keccak/KeccakF-1600-64.macros.h,
    KeccakF-1600-simd64.macros.h, KeccakF-1600-simd128.macros.h and
    KeccakF-1600-unrolling.macros.h; see there for the numbering of the variables. *)
From Coq Require Import NArith List.
From Verif Require Import SLP CkProg CkVecModel.
Import ListNotations.
Open Scope nat_scope.

(** ** KeccakF-1600-64.macros.h without UseBebigokimisa; copyStateVariables with and without *)''')
assert len([l for l in K.L if l.startswith('#define prepareTheta')])==1
K.prog('plain_round','thetaRhoPiChiIotaPrepareTheta(','(c : N) (a e : nat) ',1)
K.prog('plain_last','thetaRhoPiChiIota(','(c : N) (a e : nat) ',1)
# copyStateVariables(X, Y)
def csv64(lines,f):
    a,b,ss=K.macro(lines,'copyStateVariables(')
    return a,b,[(lane(m.group(1)),lane(m.group(2))) for m in (re.fullmatch(r'X##(\w\w) = Y##(\w\w);',s) for s in ss)]
a,b,ps=csv64(K.L,'')
print(f'(** copyStateVariables, KeccakF-1600-64.macros.h:{a}-{b}. *)')
print('Definition copyStateVariables (x y : nat) : prog :=\n  ['+';\n   '.join(f'Set_ (x + {p}) (EV (y + {q}))' for p,q in ps)+'].')
# ---- vector programs
PK=['bage','begi','bigo','bogu','buga','kame','kemi','kimo','komu','kuma']
LD=['bae','bio','gae','gio','kae','kio','mae','mio','sae','sio']
XC=['Cae','Cei','Cio','Cou','Cua','Dei','Dou']
def vreg64(t):
    m=re.fullmatch(r'([AEXY])##(\w\w)',t)
    if m: return f'({m.group(1).lower()} + {lane(m.group(2))})'
    m=re.fullmatch(r'([AEB])(\w\w)',t)
    if m: return str({'A':0,'E':25,'B':60}[m.group(1)]+lane(m.group(2)))
    m=re.fullmatch(r'([CD])(\w)',t); assert m,t
    return str({'C':50,'D':55}[m.group(1)]+V.index(m.group(2)))
def vreg128(t):
    if t=='Zero': return '132'
    if t in XC: return str(115+XC.index(t))
    m=re.fullmatch(r'([AEXY])##(\w+)',t)
    if m:
        x,n=m.group(1).lower(),m.group(2)
        if n in PK: return f'({x} + {PK.index(n)})'
        if n in LD:
            assert x=='x',t      # only copyFromState(A, ..): declared for A only
            return f'{70+LD.index(n)}'
        return f'({x} + {10+lane(n)})'
    m=re.fullmatch(r'B(\w+)',t)
    if m: return str(80+(PK.index(m.group(1)) if m.group(1) in PK else 10+lane(m.group(1))))
    m=re.fullmatch(r'([CD])(\w)',t); assert m,t
    return str({'C':122,'D':127}[m.group(1)]+V.index(m.group(2)))
TOK=re.compile(r'\s*(KeccakF1600RoundConstants\[i\]|(?:state|input)\[\s*\d+\]|\w+(?:##\w+)?(?:\.v128|\.v64\[[01]\])?|[(),])')
class VP:
    def __init__(s,t,reg):
        s.reg=reg; s.t=[]; p=0
        while p<len(t):
            m=TOK.match(t,p); assert m,t; s.t.append(m.group(1)); p=m.end()
        s.i=0
    def take(s,x=None):
        y=s.t[s.i]; s.i+=1; assert x is None or x==y,(x,y,s.t); return y
    def args(s,n):
        s.take('('); r=[]
        for k in range(n):
            if k: s.take(',')
            r.append(s.e())
        s.take(')'); return ' '.join(r)
    def mem(s,t):
        m=re.fullmatch(r'(state|input)\[\s*(\d+)\]',t); assert m,t
        return ('MState' if m.group(1)=='state' else 'MInput')+' '+m.group(2)
    def e(s):
        x=s.take()
        if x in('XOR64','XOR128'): return f'(VXor {s.args(2)})'
        if x in('ANDnu64','ANDnu128'): return f'(VAndn {s.args(2)})'
        if x in('ROL64','ROL64in128'):
            s.take('('); a=s.e(); s.take(','); k=int(s.take()); s.take(')'); return f'(VRol {a} {k})'
        if x=='GET64LO': return f'(VLo {s.args(2)})'
        if x=='GET64HI': return f'(VHi {s.args(2)})'
        if x=='COPY64HI2LO': return f'(VHi2Lo {s.args(1)})'
        if x=='ZERO128': s.take('('); s.take(')'); return 'VZero'
        if x=='CONST64': s.take('('); s.take('KeccakF1600RoundConstants[i]'); s.take(')'); return '(VConst c)'
        if x in('LOAD64','LOAD128','LOAD128u'):
            s.take('('); t=s.take(); s.take(')')
            m=re.fullmatch(r'(.*)\.v64\[([01])\]',t)
            if m: assert x=='LOAD64'; return f'(VHalf {s.reg(m.group(1))} {"true" if m.group(2)=="1" else "false"})'
            return {'LOAD64':'(VMem64 ','LOAD128':'(VMem128 true ','LOAD128u':'(VMem128 false '}[x]+s.mem(t)+')'
        return f'(VV {s.reg(x.replace(".v128",""))})'
def vstmt(s,reg):
    m=re.fullmatch(r'XOReq(64|128)\(([\w#.]+), (.*)\);',s)
    if m:
        p=VP(m.group(3),reg); e=p.e(); assert p.i==len(p.t); d=reg(m.group(2).replace('.v128',''))
        return f'VSet {d} (VXor (VV {d}) {e})'
    m=re.fullmatch(r'STORE64\(state\[\s*(\d+)\], (.*)\);',s)
    if m: return f'VStore {m.group(1)} (VV {reg(m.group(2))})'
    m=re.fullmatch(r'state\[\s*(\d+)\] = (.*)\.v64\[([01])\];',s)
    if m: return f'VStoreHalf {m.group(1)} {reg(m.group(2))} {"true" if m.group(3)=="1" else "false"}'
    m=re.fullmatch(r'(\S+) = (.*);',s); assert m,s
    p=VP(m.group(2),reg); e=p.e(); assert p.i==len(p.t),s
    return f'VSet {reg(m.group(1).replace(".v128",""))} {e}'
def vprog(lines,file,name,head,args,reg):
    a,b,ss=K.macro(lines,head)
    out=[]
    for s in ss:
        if s=='computeD': out.append(None); continue
        out.append(vstmt(s,reg))
    print(f'(** {head.split("(")[0]}, {file}:{a}-{b}. *)')
    pre=''
    if out[0] is None: pre='computeD ++ '; out=out[1:]
    assert None not in out
    print(f'Definition {name} {args}: vprog :=\n  {pre}['+';\n   '.join(out)+'].')
BITS=(576,832,1024,1088,1152,1344)
def family(lines,file,n,reg):
    print(f'\n(** ** {file} *)')
    vprog(lines,file,f'v{n}_round','thetaRhoPiChiIotaPrepareTheta(','(c : N) (a e : nat) ',reg)
    for b in BITS: vprog(lines,file,f'v{n}_load{b}',f'copyFromStateAndXor{b}bits(','(x : nat) ',reg)
    vprog(lines,file,f'v{n}_load','copyFromState(','(x : nat) ',reg)
    vprog(lines,file,f'v{n}_copy','copyStateVariables(','(x y : nat) ',reg)
f='KeccakF-1600-simd64.macros.h'
family(S64,f,64,vreg64)
vprog(S64,f,'v64_prepare','prepareTheta','',vreg64)
vprog(S64,f,'v64_last','thetaRhoPiChiIota(','(c : N) (a e : nat) ',vreg64)
vprog(S64,f,'v64_store','copyToState(','(x : nat) ',vreg64)
f='KeccakF-1600-simd128.macros.h'
# computeD has to precede the rounds
vprog(S128,f,'computeD','computeD','',vreg128)
family(S128,f,128,vreg128)
# A##bage in copyToState(state, X): A is not a parameter of the macro, so this is Abage
a,b,ss=K.macro(S128,'copyToState(')
def regto(t): return vreg128(t) if not t.startswith('A##') else str(PK.index(t[3:]))
print(f'(** copyToState, KeccakF-1600-simd128.macros.h:{a}-{b}: A##bage and A##begi are Abage and Abegi, whatever X is. *)')
print('Definition v128_store (x : nat) : vprog :=\n  ['+';\n   '.join(vstmt(s,regto) for s in ss)+'].')
k=[i for i,l in enumerate(S128) if l.startswith('#define prepareTheta')][0]; assert S128[k]=='#define prepareTheta'
k=[i for i,l in enumerate(S128) if l.startswith('#define thetaRhoPiChiIota(')][0]
assert S128[k]=='#define thetaRhoPiChiIota(i, A, E) thetaRhoPiChiIotaPrepareTheta(i, A, E)'
# constants are the same in the three files
for g in (S64,S128):
    k=[i for i,l in enumerate(g) if 'KeccakF1600RoundConstants[24]' in l][0]
    j=k; cs=[]
    while '}' not in g[j]: j+=1
    cs=re.findall(r'0x[0-9a-fA-F]+',' '.join(g[k:j+1])); assert cs==K.cs
# unrollings
print('''
(** ** KeccakF-1600-unrolling.macros.h *)
(** The macros that the definitions of rounds call: a round, the last round, and the copy. *)
Inductive call := Rd (off : nat) (x y : bool) | Last (off : nat) (x y : bool) | Copy (x y : bool).
(** Which lanes a macro works on, A (false) or E (true), as in KeccakF-1600-unrolling.macros.h:18. *)
Definition A_ : bool := false.
Definition E_ : bool := true.''')
i=0; rows=[]
while i<len(U):
    m=re.match(r'#(?:el)?if \(Unrolling == (\d+)\)',U[i])
    if m:
        u=int(m.group(1)); j=i+1; assert U[j]=='#define rounds \\'; assert U[j+1].strip()=='prepareTheta \\'; j+=2
        step=0; cs=[]
        if U[j].strip().startswith('for('):
            mm=re.fullmatch(r'for\(i=0; i<24; i(?:\+=(\d+)|\+\+)\) \{ \\',U[j].strip()); assert mm,U[j]
            step=int(mm.group(1) or 1); j+=1
        while True:
            s=U[j].strip().rstrip('\\').strip()
            if s.startswith('copyToState'): assert s=='copyToState(state, A)'; break
            if s=='}': j+=1; continue
            mm=re.fullmatch(r'thetaRhoPiChiIota(PrepareTheta)?\((i?)\+?\s*(\d*)\s*, (\w), (\w)\)',s)
            if mm:
                assert bool(mm.group(2))==(step>0)
                cs.append(f'{"Rd" if mm.group(1) else "Last"} {mm.group(3) or 0} {mm.group(4)}_ {mm.group(5)}_')
            else:
                mm=re.fullmatch(r'copyStateVariables\((\w), (\w)\)',s); assert mm,s
                cs.append(f'Copy {mm.group(1)}_ {mm.group(2)}_')
            j+=1
        print(f'(** Unrolling == {u}, KeccakF-1600-unrolling.macros.h:{i+2}-{j+1}'+(': the body of the loop.' if step else ': no loop.')+' *)')
        print(f'Definition body{u} : list call := ['+'; '.join(cs)+'].')
        rows.append((u,step)); i=j
    i+=1
print('(** The unrollings there are, KeccakF-1600-unrolling.macros.h:15-124, with the step of the loop (24: no loop). *)')
print('Definition unrollings : list (nat * list call) := ['+'; '.join(f'({s or 24}, body{u})' for u,s in rows)+'].')
