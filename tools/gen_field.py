#!/usr/bin/env python3
"""Transcribes the straight-line limb arithmetic of
/repo/signify/internal/edwards25519/edwards25519.go into rocq/theories/Field.v.
The translation is textual: every Go assignment becomes one `let`, the Go
operators + - * << >> become the wrapping operators of the 32- or 64-bit scope."""
import re
SRC="/repo/signify/internal/edwards25519/edwards25519.go"
L=open(SRC).read().split("\n")
def lines(a,b): return L[a-1:b]
out=[]
w=out.append
def expr(e, arr={}):
    e=re.sub(r"/\*.*?\*/","",e); e=re.sub(r"//.*","",e).strip()
    # array refs  f[3] -> f3 (as named in the pattern)
    e=re.sub(r"\b([a-z]+)\[(\d+)\]", lambda m:f"{m.group(1)}_{m.group(2)}_", e)
    return e
def fe_pat(v): return "Fe "+" ".join(f"{v}_{i}_" for i in range(10))
def go_ops(e):
    e=e.replace("<<","<<").replace(">>",">>")
    return e

w('''(* GENERATED by tools/gen_field.py from signify/internal/edwards25519/edwards25519.go;
   committed as source.  Limb arithmetic with explicit 32/64-bit wrap-around. *)
From Verif Require Export MachInt.

(* type FieldElement [10]int32   (edwards25519.go:12-16) *)
Inductive fe : Type := Fe (x0 x1 x2 x3 x4 x5 x6 x7 x8 x9 : Z).

(* FeZero (20-22), FeOne (24-27) *)
Definition FeZero : fe := Fe 0 0 0 0 0 0 0 0 0 0.
Definition FeOne : fe := Fe 1 0 0 0 0 0 0 0 0 0.
''')
def pointwise(name, op, rng, two=True):
    w(f"(* {name}  (edwards25519.go:{rng}) *)")
    args = "(a b : fe)" if two else "(f : fe)"
    w(f"Definition {name} {args} : fe :=")
    if two:
        w(f"  let '({fe_pat('a')}) := a in let '({fe_pat('b')}) := b in")
    else:
        w(f"  let '({fe_pat('f')}) := f in")
    w("  Fe "+"\n     ".join(op(i)+"%i32" for i in range(10))+".\n")
# check the source really is what we print
for i,l in enumerate(lines(30,39)): assert l.strip()==f"dst[{i}] = a[{i}] + b[{i}]", l
for i,l in enumerate(lines(43,52)): assert l.strip()==f"dst[{i}] = a[{i}] - b[{i}]", l
for i,l in enumerate(lines(248,257)): assert l.strip()==f"h[{i}] = -f[{i}]", l
pointwise("FeAdd", lambda i:f"(a_{i}_ + b_{i}_)", "29-40")
pointwise("FeSub", lambda i:f"(a_{i}_ - b_{i}_)", "42-53")
pointwise("FeNeg", lambda i:f"(0 - f_{i}_)", "247-258; -x is 0 - x with wrap-around", False)
# FeCMove 63-75
for i,l in enumerate(lines(65,74)): assert l.strip()==f"f[{i}] ^= b & (f[{i}] ^ g[{i}])", l
w("(* FeCMove  (edwards25519.go:63-75): b = -b; f[i] ^= b & (f[i] ^ g[i]) *)")
w("Definition FeCMove (f g : fe) (b : Z) : fe :=")
w(f"  let '({fe_pat('f')}) := f in let '({fe_pat('g')}) := g in")
w("  let b := i32 (- b) in")
w("  Fe "+"\n     ".join(f"(Z.lxor f_{i}_ (Z.land b (Z.lxor f_{i}_ g_{i}_)))" for i in range(10))+".\n")

w('''(* load3 (77-83), load4 (85-92): little-endian loads at the front of a slice.
   Reading past the end panics in Go; all uses are inside 32-byte arrays. *)
Definition byte_at (l : bytes) (i : nat) : Z := b2z (nth i l x00).
Definition load3 (l : bytes) (o : nat) : Z :=
  Z.lor (Z.lor (byte_at l o) (Z.shiftl (byte_at l (o + 1)) 8))
        (Z.shiftl (byte_at l (o + 2)) 16).
Definition load4 (l : bytes) (o : nat) : Z :=
  Z.lor (load3 l o) (Z.shiftl (byte_at l (o + 3)) 24).
''')
def asg(l):
    l=re.sub(r"/\*.*?\*/","",l); l=re.sub(r"//.*","",l).strip()
    return l
def lets(a,b,scope,w,indent="  "):
    """translate lines a..b of assignments"""
    for l in lines(a,b):
        l=asg(l)
        if not l: continue
        m=re.match(r"^([\w\[\]]+)\s*(:=|=|\+=|-=)\s*(.*)$",l)
        assert m,l
        lhs,op,rhs=m.groups()
        lhs=expr(lhs); rhs=expr(rhs)
        rhs=re.sub(r"int64\(([^()]*)\)", lambda m: "("+m.group(1)+")%i32" if re.search(r"[*]",m.group(1)) else m.group(1), rhs)
        if op=="+=": rhs=f"{lhs} + ({rhs})" if re.search(r"[ *<>]",rhs) else f"{lhs} + {rhs}"
        if op=="-=": rhs=f"{lhs} - ({rhs})" if re.search(r"[ *<>]",rhs) else f"{lhs} - {rhs}"
        w(f"{indent}let {lhs} := ({rhs})%{scope} in")
# FeCombine 260-347
w("(* FeCombine  (edwards25519.go:260-347); int64 arithmetic, results converted to int32 *)")
w("Definition FeCombine (h0 h1 h2 h3 h4 h5 h6 h7 h8 h9 : Z) : fe :=")
body=[]
skip=False
for n in range(270,336):
    l=L[n-1]
    if l.strip().startswith("/*") or not l.strip(): continue
    lets(n,n,"i64",w)
for i,l in enumerate(lines(337,346)): assert l.strip()==f"h[{i}] = int32(h{i})",l
w("  Fe "+" ".join(f"(i32 h{i})" for i in range(10))+".\n")
# FeFromBytes 94-107
w("(* FeFromBytes  (edwards25519.go:94-107) *)")
w("Definition FeFromBytes (src : bytes) : fe :=")
for l in lines(95,104):
    l=l.strip()
    m=re.match(r"^(h\d) := (.*)$",l); rhs=m.group(2)
    rhs=re.sub(r"load(\d)\(src\[(\d*):\]\)", lambda m: f"(load{m.group(1)} src {m.group(2) or 0})", rhs)
    rhs=rhs.replace("& 8388607","&& 8388607")
    w(f"  let {m.group(1)} := ({rhs})%i64 in")
assert L[105].strip()=="FeCombine(dst, h0, h1, h2, h3, h4, h5, h6, h7, h8, h9)"
w("  FeCombine h0 h1 h2 h3 h4 h5 h6 h7 h8 h9.\n")
# FeToBytes 132-219
w("(* FeToBytes  (edwards25519.go:132-219).  The Go function also overwrites its\n   argument h with the carried limbs; the model returns them too. *)")
w("Definition FeToBytes (h : fe) : bytes * fe :=")
w(f"  let '({fe_pat('h')}) := h in")
for n in range(135,180):
    l=asg(L[n-1])
    if not l: continue
    lets(n,n,"i32",w)
ss=[]
for i,l in enumerate(lines(187,218)):
    l=l.strip(); m=re.match(r"^s\[(\d+)\] = byte\((.*)\)$",l); assert int(m.group(1))==i
    r=expr(m.group(2)).replace("|","||")
    ss.append(f"z2b ({r})%i32")
w("  (["+";\n    ".join(ss)+"],\n   "+fe_pat("h")+").\n")
# FeMul 376-427
def mulbody(name,args,a,b,doc,sq=False):
    w(doc)
    w(f"Definition {name} {args} :=")
    if sq: w(f"  let '({fe_pat('f')}) := f in")
    else: w(f"  let '({fe_pat('f')}) := f in let '({fe_pat('g')}) := g in")
    lets(a,b,"i64",w)
mulbody("FeMul","(f g : fe) : fe",377,424,"(* FeMul  (edwards25519.go:376-427).  2*f[1], 19*g[1] etc. are int32 products. *)")
assert L[425].strip().startswith("FeCombine(h, h0")
w("  FeCombine h0 h1 h2 h3 h4 h5 h6 h7 h8 h9.\n")
mulbody("feSquare","(f : fe)",430,463,"(* feSquare  (edwards25519.go:429-466): the ten 64-bit coefficients *)",True)
w("  (h0, h1, h2, h3, h4, h5, h6, h7, h8, h9).\n")
w('''(* FeSquare  (edwards25519.go:475-478) *)
Definition FeSquare (f : fe) : fe :=
  let '(h0, h1, h2, h3, h4, h5, h6, h7, h8, h9) := feSquare f in
  FeCombine h0 h1 h2 h3 h4 h5 h6 h7 h8 h9.

(* FeSquare2  (edwards25519.go:490-505) *)
Definition FeSquare2 (f : fe) : fe :=
  let '(h0, h1, h2, h3, h4, h5, h6, h7, h8, h9) := feSquare f in
  FeCombine (h0 + h0)%i64 (h1 + h1)%i64 (h2 + h2)%i64 (h3 + h3)%i64 (h4 + h4)%i64
            (h5 + h5)%i64 (h6 + h6)%i64 (h7 + h7)%i64 (h8 + h8)%i64 (h9 + h9)%i64.
''')
for i,l in enumerate(lines(493,502)): assert l.strip()==f"h{i} += h{i}",l
w('''(* FeIsNegative  (edwards25519.go:221-225); also returns the overwritten argument *)
Definition FeIsNegative (f : fe) : Z * fe :=
  let '(s, f') := FeToBytes f in (Z.land (byte_at s 0) 1, f').

(* FeIsNonZero  (edwards25519.go:227-238); uint8 arithmetic; also returns the
   overwritten argument *)
Definition FeIsNonZero (f : fe) : Z * fe :=
  let '(s, f') := FeToBytes f in
  let x := fold_left (fun x b => Z.lor x (b2z b)) s 0 in
  let x := Z.lor x (Z.shiftr x 4) in
  let x := Z.lor x (Z.shiftr x 2) in
  let x := Z.lor x (Z.shiftr x 1) in
  (Z.land x 1, f').

(* for i = 1; i <= n; i++ { FeSquare(&t, &t) } *)
Definition sqn (n : nat) (t : fe) : fe := Nat.iter n FeSquare t.
''')
# FeInvert / fePow22523 by translation of calls
def chain(name,a,b,doc):
    w(doc); w(f"Definition {name} (z : fe) : fe :=")
    n=a
    while n<=b:
        l=asg(L[n-1])
        m=re.match(r"^FeSquare\(&?(\w+), &?(\w+)\)$",l)
        if m:
            w(f"  let {m.group(1)} := FeSquare {m.group(2)} in"); n+=1; continue
        m=re.match(r"^FeMul\(&?(\w+), &?(\w+), &?(\w+)\)$",l)
        if m:
            if m.group(1)=="out":
                w(f"  FeMul {m.group(2)} {m.group(3)}.\n"); n+=1; continue
            w(f"  let {m.group(1)} := FeMul {m.group(2)} {m.group(3)} in"); n+=1; continue
        m=re.match(r"^for i = 1; i < (\d+); i\+\+ \{$",l)
        assert m,l
        l2=asg(L[n]); m2=re.match(r"^FeSquare\(&?(\w+), &?(\w+)\)$",l2); assert m2 and m2.group(1)==m2.group(2)
        assert L[n+1].strip()=="}"
        k=int(m.group(1))-1
        w(f"  let {m2.group(1)} := sqn {k} {m2.group(1)} in"); n+=3
chain("FeInvert",511,559,"(* FeInvert  (edwards25519.go:507-560) *)")
chain("fePow22523",566,620,"(* fePow22523  (edwards25519.go:562-621) *)")
# constants
C=open("/repo/signify/internal/edwards25519/const.go").read()
for nm in ["d","d2","SqrtM1"]:
    m=re.search(r"var %s = FieldElement\{\s*([^}]*)\}"%nm,C)
    v=[int(x) for x in m.group(1).replace("\n","").split(",") if x.strip()]
    assert len(v)==10
    w(f"(* const.go: var {nm} *)\nDefinition fe_{nm} : fe := Fe "+" ".join(f"({x})" for x in v)+".\n")
open("/verif/rocq/theories/Field.v","w").write("\n".join(out))
