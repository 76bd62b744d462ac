# Generates BnG2.v: a point of the BN256 twist outside the subgroup, with a certificate for r * P.
q=21888242871839275222246405745257275088696311157297823662689037894645226208583
r=21888242871839275222246405745257275088548364400416034343698204186575808495617
inv=lambda a:pow(a,q-2,q)
def mul(a,b): return ((a[0]*b[0]-a[1]*b[1])%q,(a[0]*b[1]+a[1]*b[0])%q)
def div(a,b):
    n=inv(b[0]*b[0]+b[1]*b[1]); return mul(a,(b[0]*n%q,-b[1]*n%q))
def add(a,b): return ((a[0]+b[0])%q,(a[1]+b[1])%q)
def sub(a,b): return ((a[0]-b[0])%q,(a[1]-b[1])%q)
def sq1(a):
    s=pow(a,(q+1)//4,q); return s if s*s%q==a%q else None
def sq2(a):
    n=sq1((a[0]*a[0]+a[1]*a[1])%q)
    if n is None: return None
    for s in (n,-n):
        x=sq1((a[0]+s)*inv(2)%q)
        if x:
            y=(x,a[1]*inv(2*x)%q)
            if mul(y,y)==(a[0]%q,a[1]%q): return y
b=div((3,0),(9,1))
k=0
while 1:
    k+=1; x=(k,0); y=sq2(add(mul(mul(x,x),x),b))
    if y: break
P=(x,y)
def Z(v): return "(%d)"%v if v<0 else str(v)
out=[]
def step(l,e,X,Y,name):
    assert all(v%q==0 for v in e)
    out.append("%s %s"%(name," ".join(Z(v) for v in list(l)+[X[0],X[1],Y[0],Y[1]]+[v//q for v in e])))
def dbl(S):
    (x0,x1),(y0,y1)=S
    l=div(mul((3,0),mul(S[0],S[0])),add(S[1],S[1])); l0,l1=l
    X=sub(sub(mul(l,l),S[0]),S[0]); Y=sub(mul(l,sub(S[0],X)),S[1])
    assert 0<y0<q
    d0,d1=x0-X[0],x1-X[1]
    step(l,[2*(l0*y0-l1*y1)-3*(x0-x1)*(x0+x1), 2*(l0*y1+l1*y0)-6*x0*x1,
       (l0-l1)*(l0+l1)-2*x0-X[0], 2*l0*l1-2*x1-X[1], l0*d0-l1*d1-y0-Y[0], l0*d1+l1*d0-y1-Y[1]],X,Y,"W")
    return (X,Y)
def addp(S):
    (x0,x1),(y0,y1)=S; (a0,a1),(b0,b1)=P
    l=div(sub(P[1],S[1]),sub(P[0],S[0])); l0,l1=l
    X=sub(sub(mul(l,l),S[0]),P[0]); Y=sub(mul(l,sub(S[0],X)),S[1])
    assert x0!=a0 and 0<x0<q
    d0,d1=x0-X[0],x1-X[1]; e0,e1=a0-x0,a1-x1
    step(l,[l0*e0-l1*e1-b0+y0, l0*e1+l1*e0-b1+y1,
       (l0-l1)*(l0+l1)-x0-a0-X[0], 2*l0*l1-x1-a1-X[1], l0*d0-l1*d1-y0-Y[0], l0*d1+l1*d0-y1-Y[1]],X,Y,"W")
    return (X,Y)
S=P
for c in bin(r)[3:]:
    S=dbl(S)
    if c=='1': S=addp(S)
print("(** Generated by tools/geng2.py: a point of the BN256 twist and the steps of its multiplication by r. *)\n")
print("From Verif Require Export G2Cert.\nOpen Scope Z_scope.\n")
print("Definition bn_x : Z * Z := (%d, %d).\nDefinition bn_y : Z * Z := (%d, %d)."%(P[0]+P[1]))
print("Definition bn_steps : list wstep :=\n  [ "+"\n  ; ".join(out)+" ].")
import sys; print(len(out),file=sys.stderr)
