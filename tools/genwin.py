"""Certificates that the windows of fixed-base multiplication of the generators are regular: theories/WindowBN.v, WindowBLS.v."""
import sys; sys.path.insert(0,'/verif/tools')
from curve import *
N=85
def gen(C,A,B,out):
    c=Curve(C);p=c.p
    def num(z): return "(%d)"%z if z<0 else str(z)
    def dbl(P):
        u,v=P
        lam=(3*u*u+2*A*u+1)*inv(2*B*v%p,p)%p
        u3=(B*lam*lam-A-2*u)%p; v3=(lam*(u-u3)-v)%p
        e=[3*u*u+2*A*u+1-2*B*lam*v, B*lam*lam-A-2*u-u3, lam*(u-u3)-v-v3]
        assert all(x%p==0 for x in e)
        return (u3,v3),[lam,u3,v3]+[x//p for x in e]
    def add(P,Q):
        u,v=P; u2,w=Q
        lam=(w-v)*inv((u2-u)%p,p)%p
        u3=(B*lam*lam-A-u-u2)%p; v3=(lam*(u-u3)-v)%p
        e=[lam*(u2-u)-(w-v), B*lam*lam-A-u-u2-u3, lam*(u-u3)-v-v3]
        assert all(x%p==0 for x in e)
        return (u3,v3),[lam,u3,v3]+[x//p for x in e]
    R=c.mont(c.g); g=R; ws=[]
    for i in range(N):
        # registers, newest first: R | 2R R | 4R 2R R | 5R 4R 2R R | 6R 5R 4R 2R R | 8R ...
        R2,s1=dbl(R); R4,s2=dbl(R2); R5,s3=add(R4,R); R6,s4=add(R5,R); R8,s5=dbl(R4)
        for j in (0,1): assert (R6[j]-R5[j]-R2[j]+R[j])%p
        f=lambda h,s: h+" "+" ".join(map(num,s))
        ws.append("[ "+"\n    ; ".join([f("MDbl 0",s1),f("MDbl 0",s2),f("MAdd 0 2 false",s3),f("MAdd 0 3 false",s4),f("MDbl 2",s5)])+" ]")
        R=R8
    n=c.name
    open(out,'w').write(f'''(** Generated by tools/genwin.py: the multiples 1, 2, 4, 5, 6 and 8 of 8^i G in
    Montgomery coordinates, i < {N}, for the generator G of the {n} JubJub curve. *)

From Verif Require Import CurveOrder.
Open Scope Z_scope.

Definition {n}_gu : Z := {g[0]}.
Definition {n}_gv : Z := {g[1]}.
Definition {n}_windows : list (list mstep) :=
  [ {(chr(10)+"  ; ").join(ws)} ].
''')
gen(BN,168698,-168700,'/verif/rocq/theories/WindowBN.v')
gen(BLS,40962,-40964,'/verif/rocq/theories/WindowBLS.v')
