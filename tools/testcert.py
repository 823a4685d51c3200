#!/usr/bin/env python3
"""Writes rocq/theories/TestCert.v: certificates for the known answers of testsuit/test_ecc.cpp."""
import os
p=0xffffffff00000001000000000000000000000000ffffffffffffffffffffffff
a=p-3
P=(84977697328889810205905983495378814169915355456656637049711992216827273875390,113984765640120748176992606851862342793053973752254499151000631165261995767165)
Q=(63697252059872284381272932401874909409951463282505777844481084789510570568792,42108181942940304799197775515120260512991621230487422734550324972312644964859)
def slope(A,B):
    if A==B: return (3*A[0]*A[0]+a)*pow(2*A[1],-1,p)%p
    return (A[1]-B[1])*pow(A[0]-B[0],-1,p)%p
def third(l,A,B):
    x=(l*l-A[0]-B[0])%p
    return x,(l*(A[0]-x)-A[1])%p
def chain(k,G):
    R=G; out=[]
    for b in bin(k)[3:]:
        l=slope(R,R); R=third(l,R,R); out.append('Dbl %#x %#x %#x'%(l,R[0],R[1]))
        if b=='1':
            l=slope(R,G); R=third(l,R,G); out.append('AddG %#x %#x %#x'%(l,R[0],R[1]))
    return out
def root(y):
    r=pow(y,(p+1)//4,p)
    assert r*r%p==y
    return r
o=[]
o.append('''(** Certificates for the known answers of testsuit/test_ecc.cpp, written by tools/testcert.py: chains of doublings and
    additions of the first point, the slopes of the line through the two points and through the first and the mirrored
    second, square roots of the ordinates. *)
From Coq Require Import ZArith List.
From Verif Require Import ECCert.
Import ListNotations.
Open Scope Z_scope.
''')
for k in (10,99,90912389):
    o.append('Definition chain%d : list step := [\n  %s].\n'%(k,';\n  '.join(chain(k,P))))
o.append('Definition slope_add : Z := %#x.'%slope(P,Q))
o.append('Definition slope_sub : Z := %#x.'%slope(P,(Q[0],-Q[1])))
o.append('Definition root_P : Z := %#x.'%root(P[1]))
o.append('Definition root_Q : Z := %#x.'%root(Q[1]))
open(os.path.join(os.path.dirname(__file__),'..','rocq','theories','TestCert.v'),'w').write('\n'.join(o)+'\n')
