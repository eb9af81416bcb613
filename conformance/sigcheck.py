# Pure-Python verification, written independently of the model.
import hashlib
p=2**255-19; L=2**252+27742317777372353535851937790883648493
d=(-121665*pow(121666,p-2,p))%p
I=pow(2,(p-1)//4,p)
def xrec(y):
    xx=(y*y-1)*pow(d*y*y+1,p-2,p); x=pow(xx,(p+3)//8,p)
    if (x*x-xx)%p: x=x*I%p
    if (x*x-xx)%p: return None
    return x
def eadd(P,Q):
    x1,y1=P;x2,y2=Q;k=d*x1*x2*y1*y2
    return ((x1*y2+x2*y1)*pow(1+k,p-2,p)%p,(y1*y2+x1*x2)*pow(1-k,p-2,p)%p)
def emul(P,e):
    Q=(0,1)
    while e:
        if e&1: Q=eadd(Q,P)
        P=eadd(P,P); e>>=1
    return Q
By=4*pow(5,p-2,p)%p; Bx=xrec(By); Bx=p-Bx if Bx&1 else Bx
def edec(b):
    n=int.from_bytes(b,'little'); s=n>>255; y=n&((1<<255)-1)
    x=xrec(y)
    if x is None: return None
    if x&1!=s: x=p-x
    return (x%p,y)
def eenc(P): return (P[1]|((P[0]&1)<<255)).to_bytes(32,'little')
def ed_verify(pk,m,sig):
    if len(sig)!=64 or len(pk)!=32: return False
    A=edec(pk);R=edec(sig[:32])
    if A is None or R is None: return False
    S=int.from_bytes(sig[32:],'little')
    if S>=L: return False
    h=int.from_bytes(hashlib.sha512(sig[:32]+pk+m).digest(),'little')%L
    return emul((Bx,By),S)==eadd(R,emul(A,h))
def ed_sign(seed,m):
    h=hashlib.sha512(seed).digest(); a=int.from_bytes(h[:32],'little'); a&=(1<<254)-8; a|=1<<254
    A=eenc(emul((Bx,By),a)); r=int.from_bytes(hashlib.sha512(h[32:]+m).digest(),'little')%L
    R=eenc(emul((Bx,By),r)); k=int.from_bytes(hashlib.sha512(R+A+m).digest(),'little')%L
    return A,R+((r+k*a)%L).to_bytes(32,'little')
class EC:
    def __init__(s,p,b,n,gx,gy,h,w): s.p,s.b,s.n,s.g,s.h,s.w=p,b,n,(gx,gy),h,w
    def add(s,P,Q):
        if P is None: return Q
        if Q is None: return P
        if P[0]==Q[0]:
            if (P[1]+Q[1])%s.p==0: return None
            l=(3*P[0]*P[0]-3)*pow(2*P[1],-1,s.p)
        else: l=(Q[1]-P[1])*pow(Q[0]-P[0],-1,s.p)
        x=(l*l-P[0]-Q[0])%s.p
        return (x,(l*(P[0]-x)-P[1])%s.p)
    def mul(s,P,e):
        R=None
        while e:
            if e&1: R=s.add(R,P)
            P=s.add(P,P); e>>=1
        return R
    def verify(s,pk,m,sig):
        w=s.w
        if len(pk)!=2*w+1 or pk[0]!=4 or len(sig)!=2*w: return False
        P=(int.from_bytes(pk[1:1+w],'big'),int.from_bytes(pk[1+w:],'big'))
        if (P[1]**2-P[0]**3+3*P[0]-s.b)%s.p: return False
        r=int.from_bytes(sig[:w],'big');t=int.from_bytes(sig[w:],'big')
        if not(0<r<s.n and 0<t<s.n): return False
        z=int.from_bytes(s.h(m).digest(),'big'); i=pow(t,-1,s.n)
        X=s.add(s.mul(s.g,z*i%s.n),s.mul(P,r*i%s.n))
        return X is not None and X[0]%s.n==r
P256=EC(2**256-2**224+2**192+2**96-1,0x5ac635d8aa3a93e7b3ebbd55769886bc651d06b0cc53b0f63bce3c3e27d2604b,0xffffffff00000000ffffffffffffffffbce6faada7179e84f3b9cac2fc632551,0x6b17d1f2e12c4247f8bce6e563a440f277037d812deb33a0f4a13945d898c296,0x4fe342e2fe1a7f9b8ee7eb4a7c0f9e162bce33576b315ececbb6406837bf51f5,hashlib.sha256,32)
P384=EC(2**384-2**128-2**96+2**32-1,0xb3312fa7e23ee7e4988e056be3f82d19181d9c6efe8141120314088f5013875ac656398d8a2ed19d2a85c8edd3ec2aef,0xffffffffffffffffffffffffffffffffffffffffffffffffc7634d81f4372ddf581a0db248b0a77aecec196accc52973,0xaa87ca22be8b05378eb1c71ef320ad746e1d3b628ba79b9859f741e082542a385502f25dbf55296c3a545e3872760ab7,0x3617de4a96262c6f5d9e98bf9292dc29f8f41dbd289a147ce9da3113b5f0b8c00a60b1ce1d7e819d7a431d7c90ea0e5f,hashlib.sha384,48)
DI={'sha1':bytes.fromhex('3021300906052b0e03021a05000414'),'sha256':bytes.fromhex('3031300d060960864801650304020105000420'),'sha512':bytes.fromhex('3051300d060960864801650304020305000440')}
def rsa_verify(h,n,e,m,sig):
    N=int.from_bytes(n,'big');k=(N.bit_length()+7)//8
    if len(sig)!=k: return False
    v=pow(int.from_bytes(sig,'big'),int.from_bytes(e,'big'),N).to_bytes(k,'big')
    t=DI[h]+hashlib.new(h,m).digest()
    return v==b'\0\1'+b'\xff'*(k-3-len(t))+b'\0'+t
