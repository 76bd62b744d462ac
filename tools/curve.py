import hashlib
BN=dict(name='bn',p=21888242871839275222246405745257275088548364400416034343698204186575808495617,l=2736030358979909402780800718157159386076813972158567259200215660948447373041,dn=-168696,dd=168700,u=337401)
BLS=dict(name='bls',p=0x73eda753299d7d483339d80809a1d80553bda402fffe5bfeffffffff00000001,l=6554484396890773809930967563523245729705921265872317281365359162392183254199,dn=-10240,dd=10241,u=81929)
def inv(a,p): return pow(a,p-2,p)
def leg(a,p): return pow(a,(p-1)//2,p)
def sqrt(a,p):
    a%=p
    if a==0: return 0
    if leg(a,p)!=1: return None
    q=p-1;s=0
    while q%2==0:q//=2;s+=1
    z=2
    while leg(z,p)!=p-1:z+=1
    m=s;c=pow(z,q,p);t=pow(a,q,p);r=pow(a,(q+1)//2,p)
    while t!=1:
        i=0;t2=t
        while t2!=1:t2=t2*t2%p;i+=1
        b=pow(c,1<<(m-i-1),p);m=i;c=b*b%p;t=t*c%p;r=r*b%p
    return r
class Curve:
    def __init__(s,C):
        s.name=C['name'];s.p=p=C['p'];s.l=C['l'];s.u=C['u']
        s.d=C['dn']*inv(C['dd'],p)%p
        s.A=2*(1-s.d)*inv(1+s.d,p)%p; s.B=-4*inv(1+s.d,p)%p
        t=int.from_bytes(hashlib.blake2s(b"edwards_g",digest_size=32,person=b"__fawkes").digest(),'big')%p
        s.seed=t
        s.g=s.from_scalar(t)
    def add(s,P,Q):
        p=s.p;x1,y1=P;x2,y2=Q;t=s.d*x1*x2*y1*y2%p
        return ((x1*y2+y1*x2)*inv(1+t,p)%p,(y1*y2+x1*x2)*inv(1-t,p)%p)
    def mul(s,k,P):
        R=(0,1)
        while k:
            if k&1:R=s.add(R,P)
            P=s.add(P,P);k>>=1
        return R
    def on(s,P):
        x,y=P;return (y*y-x*x-1-s.d*x*x*y*y)%s.p==0
    def from_scalar(s,t):
        p=s.p;t=(t+1)%p;tau=t*t*s.u%p
        x2=-inv(s.A,p)*(1+inv(tau,p))%p
        g=lambda x:(x*x*(x+s.A)+x)*inv(s.B,p)%p
        fe=lambda y:y if y%2==0 else (-y)%p
        y=sqrt(g(x2),p)
        if y is not None: M=(x2,fe(y))
        else:
            x3=x2*tau%p; M=(x3,fe(sqrt(g(x3),p)))
        s.gM=M; s.gcase=2 if y is not None else 3
        e=(M[0]*inv(M[1],p)%p,(M[0]-1)*inv(M[0]+1,p)%p)
        return s.mul(8,e)
    def mont(s,P):
        p=s.p;x,y=P;u=(1+y)*inv(1-y,p)%p;return (u,u*inv(x,p)%p)
if __name__=='__main__':
    for C in(BN,BLS):
        c=Curve(C); print(c.name,c.A if c.A<c.p//2 else c.A-c.p,c.B if c.B<c.p//2 else c.B-c.p,c.on(c.g),c.mul(c.l,c.g),c.gcase)
        p=c.p
        print('2p/l',2*p/c.l, 'u leg',leg(c.u,p)==p-1,'d leg',leg(c.d,p)==p-1, 'gu', (c.u,))
        # order 8 point
        import random
        while 1:
            x=random.randrange(p); y=sqrt((x*x+1)*inv(1-c.d*x*x,p),p)
            if y is None: continue
            T=c.mul(c.l,(x,y))
            if c.mul(4,T)!=(0,1): break
        print('T8',T,c.mul(8,T)); cc=T[1]**2%p; print('nonsq', leg((1-cc)*(1+c.d),p)==p-1)
