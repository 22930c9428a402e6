#!/usr/bin/env python3
"""Writes rocq/theories/PrimeCerts.v and CurveCert.v: certificates, checked by Coq, that the two
numbers of secp256k1 are prime, that -7 is not a cube modulo p, and that n times the generator is
the point at infinity."""
import os, sys
P = 2**256 - 2**32 - 977
N = 0xFFFFFFFFFFFFFFFFFFFFFFFFFFFFFFFEBAAEDCE6AF48A03BBFD25E8CD0364141
G = (0x79BE667EF9DCBBAC55A06295CE870B07029BFCDB2DCE28D959F2815B16F81798,
     0x483ADA7726A3C4655DA4FBFC0E1108A8FD17B448A68554199C47D08FFB10D4B8)

def lit(z):
    return hex(z) if z >= 0 else "(%s)" % hex(z)

def quotients(m, a, e):
    """the quotients of powc, the last squaring first"""
    t, qs = a, []
    for b in bin(e)[3:]:
        v = t * t * (a if b == '1' else 1)
        q = v // m
        t = v - q * m
        qs.append(q)
    assert (t - pow(a, e, m)) % m == 0
    return list(reversed(qs)), t

def egcd(a, b):
    x0, y0, x1, y1 = 1, 0, 0, 1
    while b:
        q = a // b
        a, b = b, a - q * b
        x0, x1 = x1, x0 - q * x1
        y0, y1 = y1, y0 - q * y1
    return a, x0, y0

def zlist(l, ind):
    return "[" + (";\n" + " " * ind).join(lit(z) for z in l) + "]"

out = []
def cert(name, m, qs, k=None, a=2):
    if k is None:
        k, c = 0, 1 - m
    else:
        c = 2**k - m
    full, r = quotients(m, a, m - 1)
    assert r == 1
    fs = []
    for q in qs:
        assert (m - 1) % q == 0
        e = (m - 1) // q
        l, b = quotients(m, a, e)
        g, i, j = egcd(b - 1, m)
        assert g == 1 and i * (b - 1) + j * m == 1
        fs.append("{| fc_q := %d; fc_e := %d; fc_i := %s; fc_j := %s;\n  fc_qs := %s |}" % (q, e, lit(i), lit(j), zlist(l, 3)))
    out.append("Lemma %s : prime %d.\nProof.\n  apply (pock_prime _ %d %s %d\n  %s\n  [%s]);\n  [reflexivity|vm_compute; reflexivity|cbn [map fc_q]].\n  %s\nQed.\n" % (
        name, m, k, lit(c), a, zlist(full, 3), ";\n  ".join(fs), " ".join("apply List.Forall_cons; [%s|]." % ("exact cert_%d" % q if q in done else "apply small_prime; vm_compute; reflexivity") for q in qs) + " apply List.Forall_nil."))

BIG = 500
def factor(m):
    fs, d = [], 2
    while d * d <= m:
        while m % d == 0:
            fs.append(d); m //= d
        d += 1
    return sorted(set(fs + ([m] if m > 1 else [])), reverse=True)
known = {  # the large prime factors that are used
 N: [341948486974166000522343609283189, 174723607534414371449],
 174723607534414371449: [44706919, 120233],
 29047611873442575647497758179: [297159362677, 545358713],
 341948486974166000522343609283189: [29047611873442575647497758179],
 255515944373312847190720520512484175977: [107590001, 7240687, 96557],
 205115282021455665897114700593932402728804164701536103180137503955397371: [255515944373312847190720520512484175977],
 P: [205115282021455665897114700593932402728804164701536103180137503955397371]}
done = []
def prove(m):
    if m < BIG or m in done: return
    qs, prod = [], 1
    for q in known.get(m) or factor(m - 1):
        if prod * prod > m: break
        qs.append(q); prod *= q
    if prod * prod <= m:
        assert m < 1500
        return
    for q in qs: prove(q)
    a = 2
    while not (pow(a, m - 1, m) == 1 and all(egcd(pow(a, (m - 1) // q, m) - 1, m)[0] == 1 for q in qs)): a += 1
    cert("cert_%d" % m, m, qs, 256 if m in (P, N) else None, a)
    done.append(m)
prove(N)
prove(P)

head = '''(** Written by tools/gen_certs.py: certificates for the primes of secp256k1. *)
From Coq Require Import Znumtheory.
From Verif Require Import Base Secp Pocklington.
Local Open Scope Z_scope.

'''
tail = '''Lemma secp_n_prime : prime %d.
Proof. exact cert_%d. Qed.
Lemma secp_p_prime : prime %d.
Proof. exact cert_%d. Qed.

''' % (N, N, P, P)
e = (P - 1) // 3
l, r = quotients(P, -7, e)
assert pow(-7, e, P) != 1
cube = '''(** (-7)^((p-1)/3) is not 1, so that -7 is not a cube. *)
Lemma cube_cert : (-7) ^ ((fp - 1) / 3) mod fp <> 1.
Proof.
  replace ((fp - 1) / 3) with %d by (vm_compute; reflexivity).
  rewrite <- (powcz_spec 256 %s (-7) %d fp
  %s); [|discriminate|reflexivity|reflexivity].
  vm_compute. discriminate.
Qed.
''' % (e, lit(2**256 - P), e, zlist(l, 3))
here = sys.argv[1] if len(sys.argv) > 1 else os.path.join(os.path.dirname(os.path.abspath(__file__)), "..", "rocq", "theories")
open(os.path.join(here, "PrimeCerts.v"), "w").write(head + "\n".join(out) + "\n" + tail + cube)

# n G = O: a chain of doublings and additions of the generator, with slopes and quotients
def inv(a): return pow(a, -1, P)
def add_step(steps, p, q, d):
    (x1, y1), (x2, y2) = p, q
    if d == 0:
        l = 3 * x1 * x1 * inv(2 * y1) % P
        q1 = (l * 2 * y1 - 3 * x1 * x1) // P
        assert q1 * P == l * 2 * y1 - 3 * x1 * x1
    else:
        l = (y2 - y1) * inv(x2 - x1) % P
        q1 = (l * (x2 - x1) - (y2 - y1)) // P
        assert q1 * P == l * (x2 - x1) - (y2 - y1)
    x3 = (l * l - x1 - x2) % P
    q2 = (l * l - x1 - x2 - x3) // P
    y3 = (l * (x1 - x3) - y1) % P
    q3 = (l * (x1 - x3) - y1 - y3) // P
    steps.append((d, l, q1, x3, q2, y3, q3))
    return (x3, y3)
def chain(k):
    """doublings and additions of G or -G that end at the point k G"""
    digits, m = [], k   # the non-adjacent form
    while m:
        d = 2 - m % 4 if m % 2 else 0
        digits.append(d); m = (m - d) // 2
    digits.reverse()
    cur, steps = G, []
    for d in digits[1:]:
        cur = add_step(steps, cur, cur, 0)
        if d:
            cur = add_step(steps, cur, (G[0], d * G[1]), d)
    return cur, "[" + ";\n ".join("(%d, (%s), (%s), (%s))" % (s[0], ", ".join(lit(z) for z in s[1:3]), ", ".join(lit(z) for z in s[3:5]), ", ".join(lit(z) for z in s[5:7])) for s in steps) + "]"
last, body = chain(N - 1)
assert last == (G[0], P - G[1])
WEB3_KEY = 0x4c0883a69102937d6231471b5dbb6204fe5129617082792ae468d01a3f362318
WEB3_NONCE = 0xb53f30e054e5cad783c165e762a24a13847abe2540677bcce837091eab458320
WRONG_MESSAGE = 0x849702eb53c9bfbd0fe71555fed67479cab8ca56fb269288235a7f25f1bb776a  # 5 + (z1 - z2) / r modulo n, see RepoUnitTests.v
TYPE = "list (Z * (Z * Z) * (Z * Z) * (Z * Z))"
IMPORTS = '''From Coq Require Import ZArith List.
Import ListNotations.
Local Open Scope Z_scope.
'''
open(os.path.join(here, "CurveCert.v"), "w").write('''(** Written by tools/gen_certs.py: the steps of the computation of (n - 1) G in affine
    coordinates, each 0 for a doubling, 1 or -1 for the addition of G or -G, with its slope, the
    coordinates of the result and the quotients of the three congruences. *)
%s
Definition chain_cert : %s :=
%s.
''' % (IMPORTS, TYPE, body))
pts = [("two", 2), ("five", 5), ("web3_key", WEB3_KEY), ("web3_nonce", WEB3_NONCE)]
open(os.path.join(here, "PointCerts.v"), "w").write('''(** Written by tools/gen_certs.py: the same for 2 G, 5 G, and the key and the nonce of the
    example in EcdsaVector.v. *)
%s
%s''' % (IMPORTS, "\n".join("Definition chain_%s : %s :=\n%s." % (nm, TYPE, chain(k)[1]) for nm, k in pts)) + "\n")
open(os.path.join(here, "TestCerts.v"), "w").write('''(** Written by tools/gen_certs.py: the same for a key of RepoUnitTests.v. *)
%s
Definition chain_wrong_message : %s :=
%s.
''' % (IMPORTS, TYPE, chain(WRONG_MESSAGE)[1]))
