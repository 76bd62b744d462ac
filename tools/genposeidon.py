#!/usr/bin/env python3
"""The matrices as drawn, and inverses of the matrices of the Poseidon parameters used in the repository, as integer
matrices N with N * M_raw = R * 1 (mod p), M_raw the Montgomery representation that is drawn.
Writes rocq/theories/PoseidonInv.v; the checks are in LibClaims.v."""
import hashlib, os
p = 21888242871839275222246405745257275088548364400416034343698204186575808495617
R = 2**256
def params(t, f, q):
    salt = hashlib.blake2s(b"fawkes_poseidon(t=%d,f=%d,p=%d)" % (t, f, q)).digest()
    def words():
        i = 0
        while True:
            h = hashlib.blake2s(i.to_bytes(8, 'little') + salt, person=b"__fawkes").digest()
            for k in range(8):
                yield int.from_bytes(h[4*k:4*k+4], 'little')
            i += 1
    w = words()
    def num():
        while True:
            z = 0
            for i in range(4):
                hi = next(w); lo = next(w)
                z |= ((hi << 32) | lo) << (64 * i)
            z &= (1 << p.bit_length()) - 1
            if z < p:
                return z
    c = [num() for _ in range(f + q)]
    return [[num() for _ in range(t)] for _ in range(t)]
def inverse(m):
    n = len(m)
    a = [[x % p for x in r] + [R % p if i == j else 0 for j in range(n)] for i, r in enumerate(m)]
    for i in range(n):
        k = next(k for k in range(i, n) if a[k][i])
        a[i], a[k] = a[k], a[i]
        v = pow(a[i][i], -1, p)
        a[i] = [x * v % p for x in a[i]]
        for k in range(n):
            if k != i and a[k][i]:
                a[k] = [(x - a[k][i] * y) % p for x, y in zip(a[k], a[i])]
    return [r[n:] for r in a]
out = ["(** Generated by tools/genposeidon.py: the Poseidon matrices of the repository as drawn, and inverses. *)\n",
       "From Coq Require Import ZArith List.\nImport ListNotations.\nOpen Scope Z_scope.\n"]
for t, f, q in [(4, 8, 54), (3, 8, 53), (2, 8, 53)]:
    m = params(t, f, q)
    for name, n in [("raw", m), ("inv", inverse(m))]:
        out.append("Definition %s_%d : list (list Z) := [\n%s].\n" % (name, t, ";\n".join("  [" + "; ".join(map(str, r)) + "]" for r in n)))
open(os.path.join(os.path.dirname(os.path.abspath(__file__)), '../rocq/theories/PoseidonInv.v'), 'w').write("\n".join(out))
