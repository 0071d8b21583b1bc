import struct, random, math
from fractions import Fraction
def pow10_floor(p,q):
    est=((p.bit_length()-q.bit_length())*1233)//4096-1
    def ge(k): return q*10**k<=p if k>=0 else q<=p*10**(-k)
    return est+2 if ge(est+2) else est+1 if ge(est+1) else est
def rne(p,q):
    d,r=divmod(p,q)
    if 2*r<q: return d
    if 2*r>q: return d+1
    return d if d%2==0 else d+1
def fl(d,k): return float(f"{d}e{k}")
def shortest(v):
    p,q=v.as_integer_ratio()
    for nd in range(1,18):
        x=pow10_floor(p,q); s=nd-1-x
        P=p*10**s if s>=0 else p; Q=q if s>=0 else q*10**(-s)
        near=rne(P,Q); far=near+1 if near==P//Q else P//Q
        def res(d): return (str(10**(nd-1)),x+1) if d==10**nd else (str(d),x)
        if nd==17 or fl(near,x-(nd-1))==v: return res(near)
        if fl(far,x-(nd-1))==v: return res(far)
def rep(ds,x):
    ds=ds.rstrip('0'); n=len(ds)
    if -4<=x<16:
        if x<0: return '0.'+'0'*(-x-1)+ds
        if n<=x+1: return ds+'0'*(x+1-n)+'.0'
        return ds[:x+1]+'.'+ds[x+1:]
    e=('-' if x<0 else '+')+str(abs(x)).zfill(2)
    return ds+'e'+e if n==1 else ds[0]+'.'+ds[1:]+'e'+e
bad=0;n=0
def chk(v):
    global bad,n
    n+=1
    r=rep(*shortest(v))
    if r!=repr(v):
        bad+=1
        if bad<10: print(v,r,repr(v))
for i in range(-1074,1024): 
    for d in (-1,0,1):
        v=math.ldexp(1.0,i)
        if d==-1: v=math.nextafter(v,0)
        if d==1: v=math.nextafter(v,math.inf)
        if v>0 and v<math.inf: chk(v)
random.seed(1)
for _ in range(150000):
    v=struct.unpack('d',struct.pack('Q',random.getrandbits(63)))[0]
    if v==v and 0<v<math.inf: chk(v)
for _ in range(50000): chk(float(random.getrandbits(random.randint(1,70))+1))
for _ in range(50000): chk(random.randint(1,10**random.randint(1,17))/10)
for _ in range(50000): chk(math.ldexp(random.getrandbits(random.randint(1,54))|1,random.randint(-10,12)))
for k in range(1,3000): chk(k*5e-324)
print(n,bad)
