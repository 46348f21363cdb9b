#!/usr/bin/env python3
"""Writes rocq/theories/Vectors.v: the test data of the repository (signify/testdata,
crypto/testdata) and published test vectors, with addition chains as data for the
checks in VectorFacts.v.  Nothing here is trusted: the files are compared with the
repository by this script, everything else is checked in Coq."""
import base64, hashlib, importlib.util, sys
p = 2**255 - 19
d = (-121665 * pow(121666, p - 2, p)) % p
l = 2**252 + 27742317777372353535851937790883648493
inv = lambda a: pow(a, p - 2, p)
def add(P, Q):
    x1, y1 = P; x2, y2 = Q
    t = d * x1 * x2 * y1 * y2 % p
    return ((x1 * y2 + x2 * y1) * inv(1 + t) % p, (y1 * y2 + x1 * x2) * inv(1 - t) % p)
B = (15112221349535400772501151409588531511454012693041857206046113283949847762202, 46316835694926478169428394003475163141307993866256225615783033603165251855960)
tab = []; R = B
for i in range(32):
    row = [R]
    for j in range(7): row.append(add(row[-1], R))
    tab.append(row); R = row[7]
    for j in range(5): R = add(R, R)
def chain(n):
    """signed base-16 digits of n and partial sums, as in GeScalarMultBase"""
    assert 0 <= n < 2**255
    e = [(n >> (4 * i)) & 15 for i in range(64)]
    c = 0
    for i in range(63):
        e[i] += c; c = (e[i] + 8) >> 4; e[i] -= c << 4
    e[63] += c
    acc = (0, 1); parts = []
    def run(js):
        nonlocal acc
        out = []
        for i in js:
            if e[i]:
                P = tab[i // 2][abs(e[i]) - 1]
                acc = add(acc, P if e[i] > 0 else ((-P[0]) % p, P[1]))
            out.append((e[i], acc))
        return out
    odd = run(range(1, 64, 2))
    mid = []
    for _ in range(4): acc = add(acc, acc); mid.append(acc)
    even = run(range(0, 64, 2))
    return odd, mid, even, acc
def enc(P): return (P[1] | (P[0] & 1) << 255).to_bytes(32, "little")
def clamp(h): 
    a = int.from_bytes(h[:32], "little")
    return (a & ((1 << 254) - 8)) | 1 << 254
sha = lambda m: hashlib.sha512(m).digest()

pt = lambda P: "(%d, %d)" % P
pts = lambda L: "[\n    " + ";\n    ".join(map(pt, L)) + "]"
tri = lambda L: "[\n    " + ";\n    ".join("(%d, %s)" % (x, pt(P)) for x, P in L) + "]"
out = ["""(* GENERATED by tools/gen_vectors.py; committed as source.  The test data of the
   repository, published test vectors, and addition chains (data for the checks in
   VectorFacts.v). *)
From Verif Require Export Bytes.
Local Open Scope Z_scope.
"""]
def lit(b):
    return "[" + ";\n   ".join("; ".join("x%02x" % c for c in b[i:i + 20]) for i in range(0, len(b), 20)) + "]"
def define(name, b, comment):
    out.append(("(* %s *)\n" % comment if comment else "") + "Definition %s : bytes :=\n  %s.\n" % (name, lit(b)))
def text(name, b, comment):
    lines = b.split(b"\n"); assert lines[-1] == b""
    out.append("(* %s *)\nDefinition %s : bytes :=\n  %s.\n" % (comment, name, " ++\n  ".join('str "%s" ++ [x0a]' % x.decode().replace('"', '""') for x in lines[:-1])))
def chain_def(name, n, comment):
    o, m, e, P = chain(n)
    out.append("(* %s *)\nDefinition %s : list (Z * (Z * Z)) * list (Z * Z) * list (Z * (Z * Z)) :=\n  (%s,\n   %s,\n   %s).\n" % (comment, name, tri(o), pts(m), tri(e)))
    return P

T = "/repo/signify/testdata/"
rd = lambda f: open(f, "rb").read()
pay = lambda f: base64.b64decode(rd(f).split(b"\n")[1])
text("sig_test_pub", rd(T + "test.pub"), "signify/testdata/test.pub")
text("sig_test_sec", rd(T + "test.sec"), "signify/testdata/test.sec")
text("sig_test_sig", rd(T + "message.txt.sig"), "signify/testdata/message.txt.sig")
define("sig_test_msg", rd(T + "message.txt"), "signify/testdata/message.txt")
# the seed in test.sec, decrypted with the passphrase of the tests (gen_crypto.py check)
if sys.argv[1:] == ["decrypt"]:
    spec = importlib.util.spec_from_file_location("g", "/verif/tools/gen_crypto.py"); g = importlib.util.module_from_spec(spec); spec.loader.exec_module(g)
    s = pay(T + "test.sec")
    print(bytes(a ^ b for a, b in zip(s[40:], g.pbkdf(b"passphrase", s[8:24], 42, 64)))[:32].hex()); sys.exit()
seed = bytes.fromhex("65ad857526bcad8207f59b4ffd37af92dba02eaa1dc17b58095132e4b1daff24")
pub = pay(T + "test.pub")[10:]; sig = pay(T + "message.txt.sig")[10:]; msg = rd(T + "message.txt")
define("sig_test_seed", seed, "the seed in test.sec, decrypted outside Coq with the passphrase of the tests")
define("sig_test_key", pub, "the key in test.pub")
define("sig_test_R", sig[:32], "the signature in message.txt.sig")
define("sig_test_S", sig[32:], "")
h = sha(seed)
assert enc(chain_def("chain_sig_a", clamp(h), "the secret scalar of the seed")) == pub
r = int.from_bytes(sha(h[32:] + msg), "little") % l
assert enc(chain_def("chain_sig_r", r, "the nonce of the signature, reduced")) == sig[:32]
k = int.from_bytes(sha(sig[:32] + pub + msg), "little")
assert sig[32:] == ((r + k * clamp(h)) % l).to_bytes(32, "little")

D = "/repo/crypto/testdata/"
text("box_test_pub", rd(D + "test.pub"), "crypto/testdata/test.pub")
text("box_test_sec", rd(D + "test.sec"), "crypto/testdata/test.sec")
key = pay(D + "test.sec")[40:]
define("box_test_seed", key[:32], "the seed in crypto/testdata/test.sec")
define("box_test_key", key[32:], "the public key in it")
assert enc(chain_def("chain_box_a", clamp(sha(key[:32])), "the secret scalar of the seed")) == key[32:]

# RFC 7748, 6.1, and the NaCl test of crypto_box, which uses the same keys
alice = bytes.fromhex("77076d0a7318a57d3c16c17251b26645df4c2f87ebc0992ab177fba51db92c2a")
alice_pub = bytes.fromhex("8520f0098930a754748b7ddcb43ef75a0dbf3a0d26381af4eba4a98eaa9b4e6a")
bob = bytes.fromhex("5dab087e624a8a4b79e17f8b83800ee66f3bb1292618b6fd1c2f8b27ff88e0eb")
shared = bytes.fromhex("4a5d9d5ba4ce2de1728e3bf480350f25e07e21c947d19e3376f09b3c1e161742")
firstkey = bytes.fromhex("1b27556473e985d462cd51197a9a46c76009549eac6474f206c4ee0844f68389")
nonce = bytes.fromhex("69696ee955b62b73cd62bda875fc73d68219e0036b7a0b37")
m = bytes.fromhex("be075fc53c81f2d5cf141316ebeb0c7b5228c52a4c62cbd44b66849b64244ffce5ecbaaf33bd751a1ac728d45e6c61296cdc3c01233561f41db66cce314adb310e3be8250c46f06dceea3a7fa1348057e2f6556ad6b1318a024a838f21af1fde048977eb48f59ffd4924ca1c60902e52f0a089bc76897040e082f937763848645e0705")
c = bytes.fromhex("f3ffc7703f9400e52a7dfb4b3d3305d98e993b9f48681273c29650ba32fc76ce48332ea7164d96a4476fb8c531a1186ac0dfc17c98dce87b4da7f011ec48c97271d2c20f9b928fe2270d6fb863d51738b48eeee314a7cc8ab932164548e526ae90224368517acfeabd6bb3732bc0e9da99832b61ca01b6de56244a9e88d5f9b37973f622a43d14a6599b1f654cb45a74e355a5")
define("nacl_alice", alice, "RFC 7748, 6.1: the private keys of Alice and Bob, the public key of Alice, the shared secret")
define("nacl_bob", bob, "")
define("nacl_alice_public", alice_pub, "")
define("nacl_shared", shared, "")
define("nacl_firstkey", firstkey, "NaCl's test of crypto_box with these keys: the precomputed key, nonce, message, box")
define("nacl_nonce", nonce, "")
define("nacl_message", m, "")
define("nacl_box", c, "")
u = lambda P: ((1 + P[1]) * inv(1 - P[1]) % p).to_bytes(32, "little")
assert u(chain_def("chain_alice", clamp(alice), "Alice's scalar")) == alice_pub
assert u(chain_def("chain_shared", clamp(alice) * clamp(bob) % l, "the product of both scalars, reduced")) == shared
open("/verif/rocq/theories/Vectors.v", "w").write("\n".join(out))
