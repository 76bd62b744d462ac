import sys; sys.path.insert(0,'/verif/tools')
from curve import *
def gen(C,A,B,out):
    c=Curve(C);p=c.p;l=c.l;dn,dd=C['dn'],C['dd']
    regs=[] # index order of creation: (k,u,v)
    class SLP:
        def __init__(s,u,v): s.r=[(1,u%p,v%p)]; s.o=[]
        def idx(s,i): return len(s.r)-1-i
        def step(s,lam,u1,v1,u3,v3,e1,e2):
            pass
        def dbl(s,i):
            k,u,v=s.r[i]
            lam=(3*u*u+2*A*u+1)*inv(2*B*v%p,p)%p
            u3=(B*lam*lam-A-2*u)%p; v3=(lam*(u-u3)-v)%p
            e1=3*u*u+2*A*u+1-2*B*lam*v; e2=B*lam*lam-A-2*u-u3; e3=lam*(u-u3)-v-v3
            assert e1%p==0 and e2%p==0 and e3%p==0
            s.o.append("MDbl %d %s"%(s.idx(i)," ".join("(%d)"%z if z<0 else str(z) for z in (lam,u3,v3,e1//p,e2//p,e3//p))))
            s.r.append((2*k,u3,v3)); return len(s.r)-1
        def add(s,i,j,neg):
            k,u,v=s.r[i];k2,u2,v2=s.r[j]
            w=-v2 if neg else v2
            assert u!=u2
            lam=(w-v)*inv((u2-u)%p,p)%p
            u3=(B*lam*lam-A-u-u2)%p; v3=(lam*(u-u3)-v)%p
            e1=lam*(u2-u)-(w-v); e2=B*lam*lam-A-u-u2-u3; e3=lam*(u-u3)-v-v3
            assert e1%p==0 and e2%p==0 and e3%p==0
            s.o.append("MAdd %d %d %s %s"%(s.idx(i),s.idx(j),"true" if neg else "false"," ".join("(%d)"%z if z<0 else str(z) for z in (lam,u3,v3,e1//p,e2//p,e3//p))))
            s.r.append((k-k2 if neg else k+k2,u3,v3)); return len(s.r)-1
    n=2
    while leg(n,p)==1:n+=1
    i=sqrt(p-1,p); rd=sqrt(n*dn*dd,p); ru=sqrt(n*c.u,p)
    # order 8 point deterministic
    x=2
    while 1:
        x+=1
        y=sqrt((x*x+1)*inv(1-c.d*x*x,p),p)
        if y is None: continue
        T=c.mul(l,(x,y))
        if c.mul(4,T)!=(0,1): break
    x8,y8=T
    r8=sqrt(n*dd*(dd+dn)*(1-y8*y8),p)
    x3,y3=c.gM
    s0=SLP(x3,y3); j=0
    for _ in range(3): j=s0.dbl(j)
    _,gu,gv=s0.r[-1]
    assert c.mont(c.g)==(gu,gv)
    s=SLP(gu,gv)
    W=5
    two=s.dbl(0)
    tab={1:0}
    prev=0
    for m in range(3,1<<(W-1),2):
        prev=s.add(prev,two,False); tab[m]=prev
    k=(l-1)//2
    # wNAF
    digs=[];kk=k
    while kk:
        if kk&1:
            d=kk%(1<<W)
            if d>=(1<<(W-1)): d-=1<<W
            kk-=d
        else: d=0
        digs.append(d); kk>>=1
    acc=tab[digs[-1]]; assert digs[-1]>0
    for d in reversed(digs[:-1]):
        acc=s.dbl(acc)
        if d: acc=s.add(acc,tab[abs(d)],d<0)
    assert s.r[acc][0]==k and acc==len(s.r)-1
    fin=s.add(acc,0,False)
    assert s.r[fin][1]==s.r[acc][1] and s.r[fin][2]+s.r[acc][2]==p
    N=c.name
    T=f'''(** Generated by tools/gencurve.py: certificate for the {N} JubJub curve. *)

From Verif Require Import Certs.
From Verif Require Export CurveCert Curves.
Open Scope Z_scope.

Definition {N}_prog0 : list mstep :=
  [ {(chr(10)+"  ; ").join(s0.o)} ].
Definition {N}_prog : list mstep :=
  [ {(chr(10)+"  ; ").join(s.o)} ].
Definition {N}_cert : curve_cert := mkCert
  {n} {i} {rd} {ru}
  {x8} {y8} {r8}
  {c.seed} {x3} {y3}
  {N}_prog0 {gu} {gv} {N}_prog.
Lemma {N}_r_prime : prime (Zpos {N}_r).
Proof. exact prime_{p}. Qed.
Lemma {N}_l_prime : prime (Zpos {N}_l).
Proof. exact prime_{l}. Qed.
Lemma {N}_check : cert_check (Zpos {N}_r) (Zpos {N}_l) ({dn}) {dd} {A} ({B}) {c.u} {N}_cert = true.
Proof. vm_compute. reflexivity. Qed.
'''
    open(out,'w').write(T); print(N,len(s.o))
gen(BN,168698,-168700,'/verif/rocq/theories/CurveBN.v')
gen(BLS,40962,-40964,'/verif/rocq/theories/CurveBLS.v')
