"""secp256k1 arithmetic and certificate helpers shared by the generators."""
P=2**256-2**32-977
N=0xFFFFFFFFFFFFFFFFFFFFFFFFFFFFFFFEBAAEDCE6AF48A03BBFD25E8CD0364141
GX=55066263022277343669578718895168534326250603453777594175500187360389116729240
GY=32670510020758816978083085130507043184471273380659243275938904335757337482424
G=(GX,GY)
def inv(a): return pow(a,-1,P)
def dblw(A):
    """doubling with witness (l,q1,q2,q3); every intermediate is exact over the integers"""
    x,y=A
    l=3*x*x*inv(2*y)%P
    q1=(2*y*l-3*x*x)//P; assert q1*P==2*y*l-3*x*x
    x3=(l*l-2*x)%P; q2=(l*l-2*x-x3)//P
    y3=(l*(x-x3)-y)%P; q3=(l*(x-x3)-y-y3)//P
    return (x3,y3),(l,q1,q2,q3)
def addw(A,B):
    x1,y1=A; x2,y2=B; assert x1!=x2
    l=(y2-y1)*inv(x2-x1)%P
    q1=(l*(x2-x1)-(y2-y1))//P; assert q1*P==l*(x2-x1)-(y2-y1)
    x3=(l*l-x1-x2)%P; q2=(l*l-x1-x2-x3)//P
    y3=(l*(x1-x3)-y1)%P; q3=(l*(x1-x3)-y1-y3)//P
    return (x3,y3),(l,q1,q2,q3)
def add(A,B):
    if A is None: return B
    if B is None: return A
    if A[0]==B[0]:
        if (A[1]+B[1])%P==0: return None
        return dblw(A)[0]
    return addw(A,B)[0]
def neg(A): return (A[0],(-A[1])%P)
def mul(k,A):
    R=None
    while k:
        if k&1: R=add(R,A)
        A=add(A,A); k>>=1
    return R
def naf(k):
    d=[]
    while k:
        if k&1:
            z=2-(k%4); d.append(z); k-=z
        else: d.append(0)
        k//=2
    return d
def powchain(n,a,e):
    x=1; out=[]
    for c in bin(e)[2:]:
        y=x*x; q=y//n; y-=q*n
        if c=='1':
            z=y*a; q2=z//n; x=z-q2*n; out.append((q,q2))
        else: x=y; out.append((q,None))
    return x,out
