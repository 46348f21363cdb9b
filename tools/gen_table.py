#!/usr/bin/env python3
"""Writes rocq/theories/Table.v (the tables of const.go, transcribed) and
rocq/theories/TableCert.v (affine coordinates of the table's points and of the
points of an addition chain for the order of the base point; checked in Coq)."""
import re
p=2**255-19
d=(-121665*pow(121666,p-2,p))%p
SRC="/repo/signify/internal/edwards25519/const.go"
src=open(SRC).read()
def entries(text):
    fes=[[int(x) for x in f.replace("\n"," ").split(",") if x.strip()] for f in re.findall(r"FieldElement\{([-\d,\s]+)\}",text)]
    assert all(len(f)==10 for f in fes) and len(fes)%3==0
    return [fes[i:i+3] for i in range(0,len(fes),3)]
ibi=src.index("var bi ="); ibase=src.index("var base =")
bi=entries(src[ibi:ibase]); base=entries(src[ibase:])
assert len(bi)==8 and len(base)==256
def fe(f): return "(Fe "+" ".join("(%d)"%x if x<0 else str(x) for x in f)+")"
def pc(e): return "PCGE "+" ".join(fe(f) for f in e)
o=["""(* GENERATED by tools/gen_table.py from signify/internal/edwards25519/const.go;
   committed as source.  The precomputed multiples of the base point. *)
From Verif Require Export Group.

(* var bi (const.go:32-73) *)
Definition bi : list PreComputedGE := ["""]
o.append(";\n".join("  "+pc(e) for e in bi)+"].\n")
o.append("(* var base (const.go:77-1422), row by row *)")
for i in range(32):
    o.append("Definition base_%d : list PreComputedGE := [\n"%i+";\n".join("  "+pc(e) for e in base[8*i:8*i+8])+"].")
o.append("Definition base : list (list PreComputedGE) := [\n  "+"; ".join("base_%d"%i for i in range(32))+"].")
open("/verif/rocq/theories/Table.v","w").write("\n".join(o)+"\n")

inv=lambda a:pow(a,p-2,p)
def add(P,Q):
    x1,y1=P;x2,y2=Q
    t=d*x1*x2*y1*y2%p
    return ((x1*y2+x2*y1)*inv(1+t)%p,(y1*y2+x1*x2)*inv(1-t)%p)
B=(15112221349535400772501151409588531511454012693041857206046113283949847762202,46316835694926478169428394003475163141307993866256225615783033603165251855960)
pt=lambda P:"(%d, %d)"%P
pts=lambda l:"[\n    "+";\n    ".join(pt(P) for P in l)+"]"
rows=[];R=B;tab=[]
for i in range(32):
    row=[R]
    for j in range(7): row.append(add(row[-1],R))
    dbl=[];Q=row[7]
    for j in range(5):
        Q=add(Q,Q); dbl.append(Q)
    R=Q; tab.append(row)
    rows.append((row,dbl[:4] if i<31 else []))
# order of B: signed base-16 digits as in GeScalarMultBase
l=2**252+27742317777372353535851937790883648493
e=[(l>>(4*i))&15 for i in range(64)]
c=0
for i in range(63):
    e[i]+=c; c=(e[i]+8)>>4; e[i]-=c<<4
e[63]+=c
assert sum(x*16**i for i,x in enumerate(e))==l and all(-8<=x<=8 for x in e)
def neg(P): return ((-P[0])%p,P[1])
def term(i): 
    x=e[i]
    if x==0: return None
    P=tab[i//2][abs(x)-1]
    return neg(P) if x<0 else P
acc=(0,1); odd=[];even=[]
for i in range(1,64,2):
    t=term(i)
    if t is not None: acc=add(acc,t)
    odd.append((e[i],acc))
mid=[]
for _ in range(4): acc=add(acc,acc); mid.append(acc)
for i in range(0,64,2):
    t=term(i)
    if t is not None: acc=add(acc,t)
    even.append((e[i],acc))
assert acc==(0,1)
# odd multiples of B
B2=add(B,B); od=[B]
for i in range(7): od.append(add(od[-1],B2))
tri=lambda l:"[\n    "+";\n    ".join("(%d, %s)"%(x,pt(P)) for x,P in l)+"]"
o=["""(* GENERATED by tools/gen_table.py; committed as source.  Affine coordinates, as
   data for the checks in TableFacts.v: nothing here is trusted. *)
From Verif Require Import Bytes.
Local Open Scope Z_scope.

(* row i: (j+1) * 256^i * B for j = 0..7, then 16, 32, 64, 128 times 256^i * B *)
Definition cert_rows : list (list (Z * Z) * list (Z * Z)) := ["""]
o.append(";\n".join("  (%s,\n   %s)"%(pts(a),pts(b) if b else "[]") for a,b in rows)+"].")
o.append("(* 2B; B, 3B, ..., 15B *)\nDefinition cert_2B : Z * Z := %s.\nDefinition cert_odd : list (Z * Z) := %s."%(pt(B2),pts(od)))
o.append("(* signed base-16 digits of the order, and the partial sums: odd positions,\n   four doublings, even positions *)")
o.append("Definition order_odd : list (Z * (Z * Z)) := %s.\nDefinition order_mid : list (Z * Z) := %s.\nDefinition order_even : list (Z * (Z * Z)) := %s."%(tri(odd),pts(mid),tri(even)))
open("/verif/rocq/theories/TableCert.v","w").write("\n".join(o)+"\n")
