#!/usr/bin/env python3
"""Writes rocq/theories/EdCert.v: polynomial identities behind the Edwards group
law.  Each is a consequence of the curve equations of the points, written with
e = 1/d as x^2 y^2 = e (y^2 - x^2 - 1); the cofactors are found here by
multivariate division and checked in Coq by `ring`."""
import os
root=os.path.dirname(os.path.dirname(os.path.abspath(__file__)))
VARS=['x1','y1','x2','y2','x3','y3','e']
N=len(VARS)
class P:
    def __init__(s,d=None): s.d={k:v for k,v in (d or {}).items() if v}
    def __add__(a,b):
        b=co(b); d=dict(a.d)
        for k,v in b.d.items(): d[k]=d.get(k,0)+v
        return P(d)
    __radd__=__add__
    def __neg__(a): return P({k:-v for k,v in a.d.items()})
    def __sub__(a,b): return a+(-co(b))
    def __rsub__(a,b): return co(b)-a
    def __mul__(a,b):
        b=co(b); d={}
        for k,v in a.d.items():
            for l,w in b.d.items():
                m=tuple(i+j for i,j in zip(k,l)); d[m]=d.get(m,0)+v*w
        return P(d)
    __rmul__=__mul__
    def __pow__(a,n):
        r=co(1)
        for _ in range(n): r=r*a
        return r
    def coq(s):
        if not s.d: return 'F0'
        out=[]
        for k,v in sorted(s.d.items(),reverse=True):
            fs=[]
            if abs(v)!=1: fs.append('toF %d'%abs(v))
            for n,i in zip(VARS,k): fs+= [n]*i
            if not fs: fs=['F1']
            t='*'.join(fs)
            out.append(('-' if v<0 else '+',t))
        r=''
        for i,(s_,t) in enumerate(out):
            if i==0: r+= ('- '+t if s_=='-' else t)
            else: r+=' %s %s'%(s_,t)
        return r
def co(x): return x if isinstance(x,P) else P({(0,)*N:x})
def var(n): 
    i=VARS.index(n); return P({tuple(1 if j==i else 0 for j in range(N)):1})
x1,y1,x2,y2,x3,y3,e=[var(v) for v in VARS]
def R(i):
    x,y=var('x%d'%i),var('y%d'%i)
    return x*x*y*y-e*(y*y-x*x-1)
def reduce(p):
    q={1:P(),2:P(),3:P()}
    p=P(p.d)
    rem=P()
    changed=True
    while True:
        hit=None
        for k,v in p.d.items():
            for i in (1,2,3):
                if k[2*i-2]>=2 and k[2*i-1]>=2: hit=(k,v,i);break
            if hit: break
        if not hit: return q,p
        k,v,i=hit
        m=list(k); m[2*i-2]-=2; m[2*i-1]-=2
        t=P({tuple(m):v})
        q[i]=q[i]+t
        p=p-t*R(i)
out=['''(* Generated by tools/gen_edcert.py.  Polynomial identities used for the group law
   on the Edwards curve; the cofactors are certificates checked by ring. *)
From Verif Require Export PrimeField.
Local Open Scope F_scope.

Lemma by_cert a b q1 r1 q2 r2 q3 r3 : a - b = q1 * r1 + q2 * r2 + q3 * r3 ->
  r1 = F0 -> r2 = F0 -> r3 = F0 -> a = b.
Proof. intros H -> -> ->. apply F_sub_0. rewrite H. ring. Qed.
''']
def lemma(name,npts,lhs,rhs,lhs_s,rhs_s):
    q,r=reduce(lhs-rhs)
    assert not r.d,name
    vs=' '.join('x%d y%d'%(i,i) for i in range(1,npts+1))+' e'
    hyp=' -> '.join('x%d*x%d*y%d*y%d - e*(y%d*y%d - x%d*x%d - F1) = F0'%((i,)*8) for i in range(1,npts+1))
    args=[]
    for i in (1,2,3):
        if i<=npts: args+=['('+q[i].coq()+')','(x%d*x%d*y%d*y%d - e*(y%d*y%d - x%d*x%d - F1))'%((i,)*8)]
        else: args+=['F0','F0']
    hs=' '.join('H%d'%i for i in range(1,npts+1))
    out.append('Lemma %s %s : %s ->\n  %s =\n  %s.\nProof.\n  intros %s.\n  apply (by_cert _ _ %s); [ring|%s].\nQed.\n'%(
        name,vs,hyp,lhs_s,rhs_s,hs,'\n    '.join(' '.join(args[2*i:2*i+2]) for i in range(3)),
        '|'.join('exact H%d'%i if i<=npts else 'reflexivity' for i in (1,2,3))))
def ev(s): return eval(s,{'x1':x1,'y1':y1,'x2':x2,'y2':y2,'x3':x3,'y3':y3,'e':e,'F1':co(1),'F0':co(0)})
def L(name,npts,lhs,rhs): lemma(name,npts,ev(lhs),ev(rhs),lhs,rhs)
A='(e + x1*x2*y1*y2)'; B='(e - x1*x2*y1*y2)'; N_='(x1*y2 + x2*y1)'; M='(y1*y2 + x1*x2)'
def sq(s): return s+'*'+s
L('cert_closure',2,'e*e*e*'+sq(N_)+'*'+sq(M), 'e*e*'+sq(M)+'*'+sq(A)+' - e*e*'+sq(N_)+'*'+sq(B)+' - '+sq(A)+'*'+sq(B))
A1='(e + x2*x3*y2*y3)'; B1='(e - x2*x3*y2*y3)'; N1='(x2*y3 + x3*y2)'; M1='(y2*y3 + x2*x3)'
def comb(Nx,Dx,Ny,Dy,x,y):
    X=f'({Nx}*{Dy}*{y} + {x}*{Ny}*{Dx})'; XD=f'({Dx}*{Dy} + e*{Nx}*{Ny}*{x}*{y})'
    Y=f'({Ny}*{y}*{Dx} + {Nx}*{x}*{Dy})'; YD=f'({Dx}*{Dy} - e*{Nx}*{Ny}*{x}*{y})'
    return X,XD,Y,YD
LX,LXD,LY,LYD=comb(N_,A,M,B,'x3','y3')
RX,RXD,RY,RYD=comb(N1,A1,M1,B1,'x1','y1')
L('cert_assoc_x',3,LX+'*'+RXD,RX+'*'+LXD)
L('cert_assoc_y',3,LY+'*'+RYD,RY+'*'+LYD)
yP='(y1*y2 - x1*x2)'
L('cert_diff',2,f'(y1 + y2)*(y1 + y2)*({B} - e*{M})*({A} - e*{yP})',f'(y2 - y1)*(y2 - y1)*({B} + e*{M})*({A} + e*{yP})')
open(os.path.join(root,'rocq/theories/EdCert.v'),'w').write('\n'.join(out))
