#!/usr/bin/env python3
"""Transcribes routines of /repo/signify/internal/edwards25519/edwards25519.go, statement
by statement, into programs of the language of rocq/theories/Code.v and writes them to
rocq/theories/CodeListing.v.  Conversions to a wider type keep the value and are left out;
a local array that is indexed by constants only is taken for that many variables."""
import re
SRC = "/repo/signify/internal/edwards25519/edwards25519.go"
L = open(SRC).read().split("\n")
TOK = re.compile(r"\s*(<<|>>|\w+|[-+*&|^()\[\]:,])")
OPS = {"+": (4, "OAdd"), "-": (4, "OSub"), "|": (4, "OOr"), "^": (4, "OXor"),
       "*": (5, "OMul"), "<<": (5, "OShl"), ">>": (5, "OShr"), "&": (5, "OAnd")}
TYPES = {"int64": "W64", "int32": "W32", "int8": "W8", "byte": "U8", "uint8": "U8", "uint32": "U32", "int": "WInt"}
SIZE = {"U8": 8, "W8": 8, "U32": 32, "W32": 32, "W64": 64, "WInt": 64}

class P:
    def __init__(self, text, env):
        self.t = TOK.findall(text); self.i = 0; self.env = env
        assert "".join(self.t) == re.sub(r"\s", "", text), text
    def peek(self): return self.t[self.i] if self.i < len(self.t) else None
    def next(self): self.i += 1; return self.t[self.i - 1]
    def expr(self, p=1):
        l = self.unary()
        while self.peek() in OPS and OPS[self.peek()][0] >= p:
            o = self.next()
            l = ("bin", OPS[o][1], l, self.expr(OPS[o][0] + 1))
        return l
    def unary(self):
        if self.peek() == "-":
            self.next(); return ("bin", "OSub", ("lit", 0), self.unary())
        return self.atom()
    def atom(self):
        x = self.next()
        if x == "(":
            e = self.expr(); assert self.next() == ")"; return e
        if x.isdigit(): return ("lit", int(x))
        if x in ("load3", "load4"):
            assert self.next() == "("; a = self.next(); assert self.next() == "["
            o = self.next()
            if o == ":": o = "0"
            else: assert self.next() == ":"
            assert self.next() == "]" and self.next() == ")"
            return ("load", x, a, int(o))
        if x in TYPES or x == "uint":
            assert self.next() == "("; e = self.expr(); assert self.next() == ")"
            return ("conv", TYPES[x], e)
        if self.peek() == "[":
            self.next(); e = self.expr(); assert self.next() == "]"
            if x in self.env["locals"]:
                assert e[0] == "lit"; return ("var", x, e[1], self.env["locals"][x])
            return ("elem", x, e, self.env["arrays"][x])
        b, n = name(x)
        return ("var", b, n, self.env["vars"].get(x, self.env["default"]))

def name(x):
    m = re.match(r"^([a-zA-Z]+)(\d+)((?:_\d+)?)$", x)
    return (m.group(1) + m.group(3), int(m.group(2))) if m else (x, 0)

def ty(e):
    if e[0] == "lit": return None
    if e[0] == "load": return "W64"
    if e[0] in ("var", "elem"): return e[3]
    if e[0] == "conv": return e[1]
    return ty(e[2]) if e[1] in ("OShl", "OShr") else ty(e[2]) or ty(e[3])

def lit(n): return "(ELit %d)" % n if n >= 0 else "(ELit (%d))" % n
def coq(e, ctx):
    if e[0] == "lit": return lit(e[1])
    if e[0] == "load": return '(%s_of "%s" %s)' % (e[1], e[2], " ".join(str(e[3] + i) for i in range(int(e[1][4]))))
    if e[0] == "var": return '(EVar "%s" %d)' % (e[1], e[2])
    if e[0] == "elem": return '(EElem "%s" %s)' % (e[1], coq(e[2], "WInt"))
    if e[0] == "conv":
        t = ty(e[2])
        if t is None: return coq(e[2], e[1])
        if SIZE[t] < SIZE[e[1]] : return coq(e[2], t)   # wider: the value stays
        return "(EConv %s %s)" % (e[1], coq(e[2], t))
    t = ty(e) or ctx
    r = coq(e[3], "WInt" if e[1] in ("OShl", "OShr") else t)
    return "(EBin %s %s %s %s)" % (t, e[1], coq(e[2], t), r)

def clean(l):
    return re.sub(r"//.*", "", re.sub(r"/\*.*?\*/", "", l)).strip()

def stmts(a, b, env):
    out = []
    comment = False
    for n in range(a, b + 1):
        raw = L[n - 1]
        if comment:
            comment = "*/" not in raw; continue
        l = clean(raw)
        if l.startswith("/*"): comment = "*/" not in raw; continue
        if not l or l.startswith("var ") or l == "return": continue
        if re.match(r"^\w+--$", l): l = l[:-2] + " -= 1"
        m = re.match(r"^([\w]+(?:\[[^\]]*\])?)\s*(:=|=|\+=|-=|\^=|\|=)\s*(.*)$", l)
        assert m, l
        lhs, op, rhs = m.groups()
        le = P(lhs, env).expr(); re_ = P(rhs, env).expr()
        if op not in ("=", ":="):
            re_ = ("bin", OPS[op[0]][1], le, re_)
        t = ty(le)
        if op == ":=" and ty(re_): assert ty(re_) == t, (l, ty(re_), t)
        if le[0] == "var": out.append('CSet "%s" %d %s' % (le[1], le[2], coq(re_, t)))
        else: out.append('CPut "%s" %s %s' % (le[1], coq(le[2], "WInt"), coq(re_, t)))
    return out

W = []
w = W.append
def env(arrays=None, vars=None, locals=None, default="W64"):
    return {"arrays": arrays or {}, "vars": vars or {}, "locals": locals or {}, "default": default}
def block(ss): return "block [\n    " + ";\n    ".join(ss) + "]"
def define(nm, doc, body):
    w("(* %s *)\nDefinition %s : code := %s.\n" % (doc, nm, body))
w("""(* GENERATED by tools/gen_code.py from signify/internal/edwards25519/edwards25519.go;
   committed as source.  The leaf routines, statement by statement (Code.v). *)
From Verif Require Export Code.
Local Open Scope string_scope.
Local Open Scope list_scope.
Local Open Scope Z_scope.

(* load3 (77-83), load4 (85-92) of a slice that begins at element o; p, q and r are o + 1, ... *)
Definition load3_of (a : string) (o p q : Z) : expr :=
  EBin W64 OOr (EBin W64 OOr (EElem a (ELit o)) (EBin W64 OShl (EElem a (ELit p)) (ELit 8)))
       (EBin W64 OShl (EElem a (ELit q)) (ELit 16)).
Definition load4_of (a : string) (o p q r : Z) : expr :=
  EBin W64 OOr (load3_of a o p q) (EBin W64 OShl (EElem a (ELit r)) (ELit 24)).
""")
fe = "W32"
def copy10(d, s): return ['CPut "%s" (ELit %d) %s' % (d, i, s(i)) for i in range(10)]
assert clean(L[20]) == "copy(fe[:], zero[:])" and clean(L[55]) == "copy(dst[:], src[:])"
define("FeZero_code", "FeZero (20-22); copy moves the ten words of the package variable zero", block(copy10("fe", lambda i: '(EElem "zero" (ELit %d))' % i)))
define("FeOne_code", "FeOne (24-27)", "CSeq FeZero_code (CPut \"fe\" (ELit 0) (ELit 1))")
define("FeAdd_code", "FeAdd (29-40)", block(stmts(30, 39, env({"dst": fe, "a": fe, "b": fe}))))
define("FeSub_code", "FeSub (42-53)", block(stmts(43, 52, env({"dst": fe, "a": fe, "b": fe}))))
define("FeCopy_code", "FeCopy (55-57)", block(copy10("dst", lambda i: '(EElem "src" (ELit %d))' % i)))
define("FeCMove_code", "FeCMove (63-75)", block(stmts(64, 74, env({"f": fe, "g": fe}, {"b": "W32"}))))
define("FeNeg_code", "FeNeg (247-258)", block(stmts(248, 257, env({"h": fe, "f": fe}))))
define("FeCombine_code", "FeCombine (260-347), for the pointer h and the variables h0..h9", block(stmts(261, 346, env({"h": fe}))))
define("FeMul_code", "FeMul (376-427)", "CSeq (" + block(stmts(377, 424, env({"h": fe, "f": fe, "g": fe}))) + ") FeCombine_code")
assert clean(L[425]) == "FeCombine(h, h0, h1, h2, h3, h4, h5, h6, h7, h8, h9)"
define("feSquare_code", "feSquare (429-466)", block(stmts(430, 464, env({"f": fe}))))
for a in (475, 490): assert clean(L[a]) == "h0, h1, h2, h3, h4, h5, h6, h7, h8, h9 := feSquare(f)"
for a in (476, 503): assert clean(L[a]) == "FeCombine(h, h0, h1, h2, h3, h4, h5, h6, h7, h8, h9)"
define("FeSquare_code", "FeSquare (475-478)", "CSeq feSquare_code FeCombine_code")
define("FeSquare2_code", "FeSquare2 (490-505)", "CSeq feSquare_code (CSeq (" + block(stmts(493, 502, env())) + ") FeCombine_code)")
assert clean(L[105]) == "FeCombine(dst, h0, h1, h2, h3, h4, h5, h6, h7, h8, h9)"
define("FeFromBytes_code", "FeFromBytes (94-107); its dst is called h here, as in FeCombine", "CSeq (" + block(stmts(95, 104, env({"src": "U8"}))) + ") FeCombine_code")
define("FeToBytes_code", "FeToBytes (132-219)", block(stmts(133, 218, env({"h": fe, "s": "U8"}, {"q": "W32"}, {"carry": "W32"}))))
assert clean(L[223]) == "return s[0] & 1" and clean(L[230]) == "for _, b := range s {"
define("FeIsNegative_code", "FeIsNegative (221-225), its f called h; the result in variable result", 'CSeq FeToBytes_code (CSet "result" 0 (EBin U8 OAnd (EElem "s" (ELit 0)) (ELit 1)))')
u8 = env(vars={"x": "U8"})
loop = stmts(232, 232, env(vars={"x": "U8", "b": "U8"}))
loop = [x.replace('(EVar "b" 0)', '(EElem "s" (EVar "i" 0))') for x in loop]
define("FeIsNonZero_code", "FeIsNonZero (227-238), its f called h; the value b of the loop is s[i]", 'CSeq FeToBytes_code (block [\n    CSet "x" 0 (ELit 0); CFor "i" 0 32 (%s);\n    %s;\n    CSet "result" 0 (EBin U8 OAnd (EVar "x" 0) (ELit 1))])' % (loop[0], ";\n    ".join(stmts(234, 236, u8))))
assert clean(L[236]) == "return int32(x & 1)"
define("equal_code", "equal (932-936)", block([s for s in stmts(933, 934, env(vars={"b": "W32", "c": "W32", "x": "U32"}))] + ['CSet "result" 0 ' + coq(P("int32(x >> 31)", env(vars={"x": "U32"})).expr(), "W32")]))
assert clean(L[934]) == "return int32(x >> 31)" and clean(L[939]) == "return (b >> 31) & 1"
define("negative_code", "negative (939-941)", 'CSet "result" 0 ' + coq(P("(b >> 31) & 1", env(vars={"b": "W32"})).expr(), "W32"))
assert clean(L[950]) == "bNegative := negative(b)"
define("bAbs_code", "selectPoint (949-952): bNegative and bAbs", 'CSeq negative_code (block [CSet "bNegative" 0 (EVar "result" 0);\n    ' + ";\n    ".join(stmts(952, 952, env(vars={"b": "W32", "bNegative": "W32", "bAbs": "W32"}))) + "])")
e8 = env({"e": "W8", "a": "U8"}, {"carry": "W8", "v": "U8", "i": "WInt"})
assert clean(L[972]) == "for i, v := range a {" and clean(L[980]) == "for i := 0; i < 63; i++ {"
nib = [x.replace('(EVar "v" 0)', '(EElem "a" (EVar "i" 0))') for x in stmts(974, 975, e8)]
define("recode_code", "GeScalarMultBase (970-986): the digits e; v is a[i]", 'block [\n    CFor "i" 0 32 (%s);\n    %s;\n    CFor "i" 0 63 (%s);\n    %s]' % (block(nib), stmts(980, 980, e8)[0], block(stmts(982, 984, e8)), stmts(986, 986, e8)[0]))
sc = lambda *a: env({x: "U8" for x in a}, locals={"carry": "W64"})
ma = stmts(1027, 1448, sc("s", "a", "b", "c")); rd = stmts(1458, 1772, sc("out", "s"))
define("ScMulAdd_code", "ScMulAdd (1026-1449)", block(ma))
define("ScReduce_code", "ScReduce (1457-1773)", block(rd))
open("/tmp/cw/CodeListing.v", "w").write("\n".join(W))
import sys
if len(sys.argv) > 1: open(sys.argv[1], "w").write("\n".join(W))
