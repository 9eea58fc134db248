"""Generates rocq/theories/ClausenData.v: integer coefficient lists for the proof of C28.
S1: |B_2k| / (2k (2k+1)!), S2: (4^k - 1) |B_2k| / (2k (2k+1)!), times a common denominator; they are checked by computation in Coq."""
import os
from fractions import Fraction as F
from math import factorial, gcd
def bern(n):
    A=[0]*(n+1);B=[]
    for m in range(n+1):
        A[m]=F(1,m+1)
        for j in range(m,0,-1): A[j-1]=j*(A[j-1]-A[j])
        B.append(A[0])
    return B
n1,n2=16,34
B=bern(2*n2+2)
S1=[F(0)]+[abs(B[2*k])/(2*k*factorial(2*k+1)) for k in range(1,n1+1)]
S2=[F(0)]+[(4**k-1)*abs(B[2*k])/(2*k*factorial(2*k+1)) for k in range(1,n2+1)]
def ints(l):
    d=1
    for a in l: d=d*a.denominator//gcd(d,a.denominator)
    return d,[int(a*d) for a in l]
ln2=sum(F(2,(2*k+1)*3**(2*k+1)) for k in range(60))
l2=int(ln2*10**30)
out='(** * Coefficient lists for C28.  GENERATED by tools/gen_clausen.py *)\nFrom Coq Require Import ZArith List.\nImport ListNotations.\nOpen Scope Z_scope.\n'
for nm,l in (('S1',S1),('S2',S2)):
    d,c=ints(l)
    out+='Definition w%s : Z := %d.\nDefinition %sZ : list Z := [%s].\n'%(nm,d,nm,'; '.join(map(str,c)))
out+='(** ln 2 times 10^30, rounded down *)\nDefinition ln2Z : Z := %d.\n'%l2
open(os.path.join(os.path.dirname(__file__),'..','rocq','theories','ClausenData.v'),'w').write(out)
