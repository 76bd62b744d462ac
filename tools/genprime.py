# Prints the lemmas proving a number prime (Pocklington, see Primality.v): genprime.py n
import sys, random
from math import gcd
def mr(n):
    if n<2: return False
    for q in (2,3,5,7,11,13,17,19,23,29,31,37):
        if n%q==0: return n==q
    d=n-1;s=0
    while d%2==0:d//=2;s+=1
    for a in (2,3,5,7,11,13,17,19,23,29,31,37):
        x=pow(a,d,n)
        if x in(1,n-1):continue
        for _ in range(s-1):
            x=x*x%n
            if x==n-1:break
        else:return False
    return True
def rho(n):
    if n%2==0:return 2
    while 1:
        y=x=random.randrange(n);c=random.randrange(1,n);m=256;g=r=q=1
        while g==1:
            x=y
            for _ in range(r):y=(y*y+c)%n
            k=0
            while k<r and g==1:
                ys=y
                for _ in range(min(m,r-k)):
                    y=(y*y+c)%n;q=q*abs(x-y)%n
                g=gcd(q,n);k+=m
            r*=2
        if g==n:
            g=1
            while g==1:
                ys=(ys*ys+c)%n;g=gcd(abs(x-ys),n)
        if g!=n:return g
def factor(n,hints=()):
    out=[]
    for h in hints:
        while n%h==0: n//=h; out.append(h)
    st=[n]
    while st:
        n=st.pop()
        if n==1:continue
        if mr(n):out.append(n);continue
        d=rho(n);st+=[d,n//d]
    return sorted(out)
done=set()
def emit(n,hints=()):
    if n in done: return
    done.add(n)
    if n<1200*1200:
        print("Lemma prime_%d : prime %d.\nProof. apply trial_prime. vm_compute. reflexivity. Qed.\n"%(n,n)); return
    f=factor(n-1,hints)
    pr=sorted(set(f),reverse=True); use=[];prod=1
    for q in pr:
        use.append((q,1)); prod*=q   # multiplicity one is enough to reach the bound in practice
        if prod*prod>n: break
    assert prod*prod>n
    for q,_ in use: emit(q)
    a=2
    while not (pow(a,n-1,n)==1 and all(gcd(pow(a,(n-1)//q,n)-1,n)==1 for q,_ in use)): a+=1
    print("Lemma prime_%d : prime %d.\nProof.\n  apply (pocklington_shared %d %d [%s])."%(n,n,n,a,"; ".join("(%d, %d)"%x for x in use)))
    print("  - "+" ".join("constructor; [exact prime_%d|]."%q for q,_ in use)+" constructor.\n  - vm_compute. reflexivity.\nQed.\n")
if __name__=="__main__":
    sys.setrecursionlimit(10000)
    emit(int(sys.argv[1]),[int(x) for x in sys.argv[2:]])
