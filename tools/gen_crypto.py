#!/usr/bin/env python3
"""Writes rocq/theories/CryptoTables.v: the constants of SHA-512 (fractional parts
of square and cube roots of primes) and the initial state of Blowfish (fractional
part of pi: 18 words, then four tables of 256 words).
With an argument `check` it instead decrypts signify/testdata/test.sec of the
repository with the passphrase of its tests, by the same definitions as
rocq/theories/Bcrypt.v, and compares the checksum."""
import base64, hashlib, struct, sys

def pi_words(n):
    """n 32-bit words of the fractional part of pi, by Machin's formula"""
    bits = 32 * n + 64
    one = 1 << bits
    def arctan(inv):
        t, s, k, sign = one // inv, 0, 1, 1
        while t:
            s += sign * (t // k)
            t //= inv * inv; k += 2; sign = -sign
        return s
    pi = 4 * (4 * arctan(5) - arctan(239))
    frac = (pi - 3 * one) >> 64
    return [(frac >> (32 * (n - 1 - i))) & 0xffffffff for i in range(n)]

W = pi_words(18 + 1024)
assert W[0] == 0x243F6A88 and W[1] == 0x85A308D3 and W[17] == 0x8979FB1B and W[18] == 0xD1310BA6
P0, S0 = W[:18], [W[18 + 256 * i:18 + 256 * (i + 1)] for i in range(4)]

def primes(n):
    ps = []
    k = 2
    while len(ps) < n:
        if all(k % p for p in ps): ps.append(k)
        k += 1
    return ps
def root(x, e):
    lo, hi = 0, 1 << (x.bit_length() // e + 1)
    while lo < hi:
        m = (lo + hi + 1) // 2
        if m ** e <= x: lo = m
        else: hi = m - 1
    return lo
M64 = (1 << 64) - 1
IV = [root(p << 128, 2) & M64 for p in primes(8)]
K = [root(p << 192, 3) & M64 for p in primes(80)]
assert IV[0] == 0x6a09e667f3bcc908 and K[0] == 0x428a2f98d728ae22 and K[79] == 0x6c44198c4a475817

def emit():
    def lst(ws):
        return ";\n  ".join("; ".join(str(w) for w in ws[i:i + 8]) for i in range(0, len(ws), 8))
    out = ["(* GENERATED by tools/gen_crypto.py; committed as source.  Constants of SHA-512: the",
           "   first 64 bits of the fractional parts of the square roots of the first 8 primes and",
           "   of the cube roots of the first 80 primes (FIPS 180-4, 4.2.3 and 5.3.5).  The initial",
           "   state of Blowfish: the fractional part of pi, as 32-bit words. *)",
           "From Verif Require Export Bytes.", "Local Open Scope Z_scope.", ""]
    def lst4(ws):
        return ";\n  ".join("; ".join(str(w) for w in ws[i:i + 4]) for i in range(0, len(ws), 4))
    out.append("Definition sha512_IV : list Z := [\n  %s].\n" % lst4(IV))
    out.append("Definition sha512_K : list Z := [\n  %s].\n" % lst4(K))
    out.append("Definition blowfish_P : list Z := [\n  %s].\n" % lst(P0))
    for i in range(4):
        out.append("Definition blowfish_S%d : list Z := [\n  %s].\n" % (i, lst(S0[i])))
    open("/verif/rocq/theories/CryptoTables.v", "w").write("\n".join(out))

M = 0xffffffff
def encipher(P, S, l, r):
    S0, S1, S2, S3 = S
    for i in range(0, 16, 2):
        l ^= P[i]
        r ^= ((((S0[l >> 24] + S1[l >> 16 & 255]) & M) ^ S2[l >> 8 & 255]) + S3[l & 255]) & M
        r ^= P[i + 1]
        l ^= ((((S0[r >> 24] + S1[r >> 16 & 255]) & M) ^ S2[r >> 8 & 255]) + S3[r & 255]) & M
    return r ^ P[17], l ^ P[16]
def words(b):
    return struct.unpack(">%dI" % (len(b) // 4), b)
def expand(P, S, key, salt):
    """key: words xored cyclically into P; salt: words xored cyclically into the chaining value"""
    P = [p ^ key[i % len(key)] for i, p in enumerate(P)]
    S = [list(x) for x in S]
    l = r = j = 0
    n = len(salt)
    for T in [P] + S:
        for i in range(0, len(T), 2):
            if n:
                l ^= salt[j % n]; r ^= salt[(j + 1) % n]; j += 2
            l, r = encipher(P, S, l, r)
            T[i], T[i + 1] = l, r
    return P, S
def bcrypt_hash(sp, ss):
    p, s = words(sp), words(ss)
    P, S = expand(P0, S0, p, s)
    for _ in range(64):
        P, S = expand(P, S, s, ())
        P, S = expand(P, S, p, ())
    c = list(words(b"OxychromaticBlowfishSwatDynamite"))
    for _ in range(64):
        for i in range(0, 8, 2):
            c[i], c[i + 1] = encipher(P, S, c[i], c[i + 1])
    return struct.pack("<8I", *c)
def pbkdf(password, salt, rounds, n):
    sp = hashlib.sha512(password).digest()
    blocks = (n + 31) // 32
    outs = []
    for b in range(1, blocks + 1):
        t = bcrypt_hash(sp, hashlib.sha512(salt + struct.pack(">I", b)).digest())
        out = t
        for _ in range(rounds - 1):
            t = bcrypt_hash(sp, hashlib.sha512(t).digest())
            out = bytes(x ^ y for x, y in zip(out, t))
        outs.append(out)
    return bytes(outs[j % blocks][j // blocks] for j in range(n))

def check():
    k = [0, 0]
    P, S = expand(P0, S0, k, ())
    assert encipher(P, S, 0, 0) == (0x4EF99745, 0x6198DD78)
    d = base64.b64decode(open("/repo/signify/testdata/test.sec").read().split("\n")[1])
    algo, kdf, rounds, salt, chk, num, key = d[:2], d[2:4], struct.unpack(">I", d[4:8])[0], d[8:24], d[24:32], d[32:40], d[40:]
    print(algo, kdf, rounds, len(key))
    x = bytes(a ^ b for a, b in zip(key, pbkdf(b"passphrase", salt, rounds, len(key))))
    print("checksum", hashlib.sha512(x).digest()[:8] == chk)
    pub = base64.b64decode(open("/repo/signify/testdata/test.pub").read().split("\n")[1])
    print("public key", pub[2:10] == num, pub[10:] == x[32:])

if __name__ == "__main__":
    check() if sys.argv[1:] == ["check"] else emit()
