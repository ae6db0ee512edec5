#!/usr/bin/env python3
"""Generates rocq/theories/InitCert.v: right inverses of the element matrices of
the oxides and of the liquid components (certificates, checked in InitProofs.v)."""
import re
from fractions import Fraction as F
T=open('/verif/rocq/theories/Tables.v').read()
E=open('/verif/rocq/theories/ElemTable.v').read()
elems=re.findall(r'\("(\w+)",',E)
def table(n):
    m=re.search(r'Definition tbl_%s .*?:= \[(.*?)\]\.'%n,T,re.S); return re.findall(r'"([^"]*)"',m.group(1))
def parse(f):
    v={}
    def go(s,m):
        for a,b in re.findall(r'([A-Z][a-z]?)([-+.\d]*)',s): v[a]=v.get(a,0)+F(b or '1')*m
    i=0
    for g in re.finditer(r'([^()]*)(?:\(([^()]*)\)([-+.\d]*))?',f):
        go(g.group(1),1)
        if g.group(2) is not None: go(g.group(2),F(g.group(3) or '1'))
    return v
def inv(M):
    n=len(M); A=[r[:]+[F(int(i==j)) for j in range(n)] for i,r in enumerate(M)]
    for c in range(n):
        p=next(r for r in range(c,n) if A[r][c]!=0); A[c],A[p]=A[p],A[c]
        d=A[c][c]; A[c]=[x/d for x in A[c]]
        for r in range(n):
            if r!=c and A[r][c]!=0: k=A[r][c]; A[r]=[x-k*y for x,y in zip(A[r],A[c])]
    return [r[n:] for r in A]
out=['(** Generated by /verif/tools/gen_cert.py. Certificates: for each element index k of',
 '    the listed rows, row k of a right inverse of the element matrix of the oxides',
 '    (or of the first 19 liquid components). Nothing is trusted: see InitProofs.v. *)',
 'From Coq Require Import List QArith.','Import ListNotations.','Local Open Scope Q_scope.','']
def q(x): return str(x.numerator) if x.denominator==1 else '%d#%d'%(x.numerator,x.denominator)
def q2(x): return '(%s)'%q(x) if x<0 or x.denominator!=1 else q(x)
for name,tab in [('bulk','bulk'),('melts','meltsLiquid'),('pMelts','pMeltsLiquid')]:
    fs=[parse(f) for f in table(tab)][:19]
    els=sorted({e for v in fs for e in v},key=elems.index); assert len(els)==19,(name,els)
    M=[[v.get(e,F(0)) for e in els] for v in fs]
    P=inv(M) # M P = I ; P rows indexed by els
    out.append('Definition cert_%s : list (nat * list Q) := ['%name)
    out.append(';\n'.join('  (%d%%nat, [%s])'%(elems.index(e)+1,'; '.join(q2(x) for x in P[k])) for k,e in enumerate(els)))
    out.append('].\n')
assert table('meltsLiquid')[:19]==table('xMeltsLiquid')[:19]==table('meltsFluidLiquid')[:19]
open('/verif/rocq/theories/InitCert.v','w').write('\n'.join(out))
