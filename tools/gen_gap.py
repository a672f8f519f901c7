"""Writes rocq/theories/FltGapData.v: Farey neighbours of 10^E / 2^f for FltGap.v."""
from fractions import Fraction as F
import math
DMAX=2**25+1024; MMAX=2**25
EPS=F(5,2**54)
def flog2(r):
    p=r.numerator.bit_length()-r.denominator.bit_length()
    if F(2)**p>r: p-=1
    return p
def farey(al):
    # neighbours p/q<=al<p'/q' maximal with q+q'>=DMAX or p+p'>=MMAX
    a,b,c,d=0,1,1,0
    while True:
        # step: go as far as possible on one side
        if (b+d>=DMAX) or (a+c>=MMAX): return a,b,c,d
        m=F(a+c,b+d)
        if m<=al:
            # a/b <- (a+k c)/(b+k d) max k such that <= al
            # (a+kc) <= al (b+kd) -> k (c - al d) <= al b - a
            k=math.floor((al*b-a)/(c-al*d))
            # limit
            kk=k
            ks=[]
            if d: ks.append((DMAX-1-b-d)//d+1)
            if c: ks.append((MMAX-1-a-c)//c+1)
            k=max(1,min([k]+[max(1,x) for x in [min(ks)]]))
            a,b=a+k*c,b+k*d
        else:
            k=None
            # (c+k a)/(d+k b) > al : c+ka > al d + k al b -> k (al b - a) < c - al d
            if al*b-a>0:
                k=math.ceil((c-al*d)/(al*b-a))-1
            ks=[]
            if b: ks.append((DMAX-1-b-d)//b+1)
            if a: ks.append((MMAX-1-a-c)//a+1)
            lim=max(1,min(ks))
            k=lim if k is None else max(1,min(k,lim))
            c,d=c+k*a,d+k*b
rows=[];exc=set()
for E in range(-53,39):
    t=F(10)**E
    flo=flog2(t)-25; fhi=flog2(DMAX*t)-24+1
    flo=max(flo,-150); fhi=min(max(fhi,-150),103)
    cs=[]
    for f in range(flo,fhi+1):
        al=t/F(2)**f
        A,B=al.numerator,al.denominator
        if 5*DMAX*A<2**54 or 10*MMAX*B<2**54: cs.append("CG"); continue
        a,b,c,d=farey(al)
        assert c*b-a*d==1 and b>0
        for (x,y,s) in ((a,b,1),(c,d,-1)):
            if y and s*(al-F(x,y))/al<=EPS:
                j=1
                while j*y<DMAX and j*x<MMAX: exc.add((j*y,E)); j+=1
        cs.append(f"CF {a} {b} {c} {d}")
    rows.append((E,flo,cs))
out='''(** Certificates for the gap between short decimals and the midpoints of the f32 format, used by
    [FltGap.v]. Row [(E, f0, cs)]: for f = f0, f0 + 1, ... one certificate each that no D / M with
    D < 2^25 + 1024, M < 2^25 is very close to 2^f / 10^E. [CF p q p' q']: neighbouring fractions
    around 10^E / 2^f. [CG]: the integers involved are small. The data is checked, not trusted. *)
From Verif Require Import Base.
Local Open Scope Z_scope.
Inductive cert := CG | CF (p q p' q' : Z).
(** the decimals D * 10^E that are closer to a midpoint than the bound *)
Definition gap_exceptions : list (Z * Z) := [%s].
'''%"; ".join(f"({d}, {e})" for d,e in sorted(exc))
out+="Definition gap_rows : list (Z * Z * list cert) := [\n"
def nn(x): return f"({x})" if x<0 else str(x)
L=[]
for E,flo,cs in rows:
    txt="";line="   "
    for i,c in enumerate(cs):
        c=c+(";" if i<len(cs)-1 else "")
        if len(line)+len(c)>110: txt+=line+"\n"; line="   "
        line+=" "+c
    txt+=line
    L.append(f"  ({nn(E)}, {nn(flo)}, [\n{txt}])")
out+=";\n".join(L)+"\n].\n"
open('/verif/rocq/theories/FltGapData.v','w').write(out)
print(len(out),sum(len(r[2]) for r in rows),exc)
