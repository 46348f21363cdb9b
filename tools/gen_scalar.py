#!/usr/bin/env python3
"""Transcribes ScMulAdd and ScReduce of
/repo/signify/internal/edwards25519/edwards25519.go into rocq/theories/ScalarRed.v.
Both functions are straight-line code on int64 limbs; the statements come in four
shapes (three-line carries, three-line floor carries, seven-line foldings, and the
products of ScMulAdd), each recognised textually here and named by one constructor."""
import re
SRC="/repo/signify/internal/edwards25519/edwards25519.go"
L=[l.strip() for l in open(SRC).read().split("\n")]
CONST=[("+",666643),("+",470296),("+",654183),("-",997805),("+",136657),("-",683901)]
def ops(a,b):
    """lines a..b (1-based, inclusive) as a list of (op, first line)"""
    out=[];n=a
    while n<=b:
        l=L[n-1]
        if l=="" or l.startswith("var carry"): n+=1; continue
        m=re.match(r"^carry\[(\d+)\] = (\(s(\d+) \+ \(1 << 20\)\)|s(\d+)) >> 21$",l)
        if m:
            k=int(m.group(1)); assert int(m.group(3) or m.group(4))==k,l
            assert L[n]==f"s{k+1} += carry[{k}]",L[n]
            assert L[n+1]==f"s{k} -= carry[{k}] << 21",L[n+1]
            out.append(("Carry" if m.group(3) else "Floor",k,n)); n+=3; continue
        m=re.match(r"^s(\d+) \+= s(\d+) \* 666643$",l)
        assert m,(n,l)
        k=int(m.group(2))
        for i,(sg,c) in enumerate(CONST): assert L[n-1+i]==f"s{k-12+i} {sg}= s{k} * {c}",L[n-1+i]
        assert L[n+5]==f"s{k} = 0"
        out.append(("Fold",k,n)); n+=7
    return out
def loads(a,b,var,arr):
    """lines a..b: limbs loaded from bytes, as (mask?, load3/4, offset, shift)"""
    r=[]
    for i,n in enumerate(range(a,b+1)):
        l=L[n-1]
        m=re.match(r"^%s(\d+) := (2097151 & )?\(?load(\d)\(%s\[(\d*):\]\)(?: >> (\d+)\))?$"%(var,arr),l)
        assert m and int(m.group(1))==i,l
        r.append((bool(m.group(2)),int(m.group(3)),int(m.group(4) or 0),int(m.group(5) or 0)))
    return r
def show_loads(r):
    def one(t):
        mask,n,o,s=t
        e=f"(load{n} s {o})"
        if s: e=f"({e} >> {s})"
        if mask: e=f"(2097151 && {e})"
        return e+"%i64"
    return "[\n    "+";\n    ".join(one(t) for t in r)+"]"
def store(a,arr):
    r=[]
    for i in range(32):
        l=L[a-1+i]
        m=re.match(r"^%s\[(\d+)\] = byte\((.*)\)$"%arr,l); assert m and int(m.group(1))==i,l
        r.append(m.group(2))
    return r
def find(s,start=1):
    for n in range(start,len(L)+1):
        if L[n-1]==s: return n
    raise Exception(s)
f1=find("func ScMulAdd(s, a, b, c *[32]byte) {"); f2=find("func ScReduce(out *[32]byte, s *[64]byte) {")
la=loads(f1+1,f1+12,"a","a"); lb=loads(f1+13,f1+24,"b","b"); lc=loads(f1+25,f1+36,"c","c")
assert la==lb==lc
assert L[f1+36]=="var carry [23]int64"
n0=f1+39
assert L[n0-1].startswith("s0 := ")
for k in range(23):
    terms=[f"a{i}*b{k-i}" for i in range(12) if 0<=k-i<=11]
    if k<12: terms=[f"c{k}"]+terms
    want=f"s{k} := "+" + ".join(terms)
    assert L[n0-1+k].replace(" * ","*")==want,(L[n0-1+k],want)
assert L[n0+22]=="s23 := int64(0)"
e1=find("s[0] = byte(s0 >> 0)",f1)
p1=ops(n0+24,e1-1); st1=store(e1,"s"); assert L[e1+31]=="}"
ls=loads(f2+1,f2+24,"s","s")
e2=find("out[0] = byte(s0 >> 0)",f2)
p2=ops(f2+25,e2-1); st2=store(e2,"out"); assert L[e2+31]=="}"
assert st1==st2
def show_ops(p):
    out=[];i=0
    while i<len(p):
        j=i
        while j<len(p) and p[j][0]==p[i][0]: j+=1
        last=p[j-1]; end=last[2]+(6 if last[0]=="Fold" else 2)
        out.append("    (* %d-%d *) "%(p[i][2],end)+"; ".join("%s %d"%(o,k) for o,k,_ in p[i:j])); i=j
    return "[\n"+";\n".join(out)+"]"
def limb(e):
    e=re.sub(r"\bs(\d+)\b",lambda m:f"(at_ s {m.group(1)})",e)
    return e.replace("|","||")
o=f'''(* GENERATED by tools/gen_scalar.py from signify/internal/edwards25519/edwards25519.go;
   committed as source.  Scalar arithmetic modulo the group order on int64 limbs of
   21 bits: ScMulAdd (1018-{e1+32}), ScReduce ({f2-6}-{e2+32}), ScMinimal (1778-1793). *)
From Verif Require Export ScalarMult.

(* The statement patterns of both functions, on the limbs s0..s23 (kept in a list):
   Carry k:  carry[k] = (sk + (1 << 20)) >> 21;  s(k+1) += carry[k];  sk -= carry[k] << 21
   Floor k:  carry[k] = sk >> 21;                s(k+1) += carry[k];  sk -= carry[k] << 21
   Fold k:   s(k-12) += sk * 666643;  s(k-11) += sk * 470296;  s(k-10) += sk * 654183;
             s(k-9) -= sk * 997805;   s(k-8) += sk * 136657;   s(k-7) -= sk * 683901;  sk = 0 *)
Inductive sop := Carry (k : nat) | Floor (k : nat) | Fold (k : nat).
Definition carry_with (c : Z) (k : nat) (s : list Z) : list Z :=
  let s := put s (k + 1) (at_ s (k + 1) + c)%i64 in
  put s k (at_ s k - (c << 21))%i64.
Definition exec (s : list Z) (o : sop) : list Z :=
  match o with
  | Carry k => carry_with ((at_ s k + (1 << 20)) >> 21)%i64 k s
  | Floor k => carry_with (at_ s k >> 21)%i64 k s
  | Fold k =>
      let x := at_ s k in
      let s := put s (k - 12) (at_ s (k - 12) + (x * 666643))%i64 in
      let s := put s (k - 11) (at_ s (k - 11) + (x * 470296))%i64 in
      let s := put s (k - 10) (at_ s (k - 10) + (x * 654183))%i64 in
      let s := put s (k - 9) (at_ s (k - 9) - (x * 997805))%i64 in
      let s := put s (k - 8) (at_ s (k - 8) + (x * 136657))%i64 in
      let s := put s (k - 7) (at_ s (k - 7) - (x * 683901))%i64 in
      put s k 0
  end.
Definition run_ops (p : list sop) (s : list Z) : list Z := fold_left exec p s.

(* the loads of ScMulAdd ({f1+1}-{f1+36}, the same for a, b and c) *)
Definition limbs12 (s : bytes) : list Z := {show_loads(la)}.
(* the loads of ScReduce ({f2+1}-{f2+24}) *)
Definition limbs24 (s : bytes) : list Z := {show_loads(ls)}.
(* the products of ScMulAdd ({n0}-{n0+23}): sk := ck + a0*bk + a1*b(k-1) + ...  with the
   index of a ascending; s12 to s22 have no c term (0 here), s23 := int64(0) *)
Definition product (a b : list Z) (k : nat) (c : Z) : Z :=
  fold_left (fun s i => (s + at_ a i * at_ b (k - i))%i64)
            (filter (fun i => (i <=? k) && (k - i <=? 11))%nat (seq 0 12)) c.
Definition products (a b c : list Z) : list Z :=
  map (fun k => product a b k (if (k <? 12)%nat then at_ c k else 0)) (seq 0 23) ++ [0].
(* the stores ({e1}-{e1+31} and {e2}-{e2+31}) *)
Definition store_limbs (s : list Z) : bytes := [
    '''+";\n    ".join(f"z2b ({limb(e)})%i64" for e in st1)+f'''].

(* {p1[0][2]}-{p1[-1][2]+2} *)
Definition muladd_ops : list sop := {show_ops(p1)}.
(* {p2[0][2]}-{p2[-1][2]+2} *)
Definition reduce_ops : list sop := {show_ops(p2)}.

Definition ScMulAdd (a b c : bytes) : bytes :=
  store_limbs (run_ops muladd_ops (products (limbs12 a) (limbs12 b) (limbs12 c))).
Definition ScReduce (s : bytes) : bytes :=
  store_limbs (run_ops reduce_ops (limbs24 s)).

(* var order (1775-1776) *)
Definition order : list Z := [6346243789798364141; 1503914060200516822; 0; 1152921504606846976].
(* binary.LittleEndian.Uint64(l[o:]): b[0] | b[1]<<8 | ... | b[7]<<56, unsigned *)
Definition uint64_at (l : bytes) (o : nat) : Z :=
  Z.lor (load4 l o) (Z.shiftl (load4 l (o + 4)) 32).
(* ScMinimal (1778-1793): for i := 3; ; i-- ...; i + 1 is the structural argument *)
Fixpoint sc_minimal (n : nat) (scalar : bytes) : bool :=
  match n with
  | O => true
  | S i =>
      let v := uint64_at scalar (i * 8) in
      if at_ order i <? v then false
      else if v <? at_ order i then true
      else if (i =? 0)%nat then false
      else sc_minimal i scalar
  end.
Definition ScMinimal (scalar : bytes) : bool := sc_minimal 4 scalar.
'''
open("/verif/rocq/theories/ScalarRed.v","w").write(o)
print(len(p1),len(p2))
