#!/usr/bin/env python3
"""Writes rocq/theories/Nib.v: words as tuples of four-bit digits, with the operations of
SHA-2 and Keccak as tables, so that the hash functions can be computed quickly by
the reduction machine of the checker, which is slow on binary numbers."""
import os, sys
H = '0123456789abcdef'
D = ['h' + h for h in H]
out = []
w = out.append
w('(** Words of 32 and 64 bits as tuples of four-bit digits, least significant first, with the')
w('    operations of SHA-2 and Keccak as tables.  Written by tools/gen_nib.py: only the hash')
w('    functions of Sha2.v and Keccak.v use it.  The lemmas at the end say what the tables are. *)')
w('From Verif Require Import Base.')
w('Local Open Scope N_scope.')
w('')
w('Inductive nib := ' + ' | '.join(D) + '.')
w('')
def table2(name, f, ty, show, comment):
    w('(** %s *)' % comment)
    w('Definition %s (a b : nib) : %s :=' % (name, ty))
    w('  match a with')
    for i in range(16):
        w('  | %s => match b with ' % D[i] + ' | '.join('%s => %s' % (D[j], show(f(i, j))) for j in range(16)) + ' end')
    w('  end.')
    w('')
d = lambda v: D[v]
table2('nxor', lambda a, b: a ^ b, 'nib', d, 'a xor b')
table2('nand', lambda a, b: a & b, 'nib', d, 'a and b')
table2('nandn', lambda a, b: (15 ^ a) & b, 'nib', d, '(not a) and b')
for r in (1, 2, 3):
    table2('nsh%d' % r, lambda a, b: ((a + 16 * b) >> r) & 15, 'nib', d, 'the low digit of (a + 16 b) shifted right by %d' % r)
for c in (0, 1):
    table2('nadd%d' % c, lambda a, b: a + b + c, '(nib * bool)', lambda v: '(%s, %s)' % (D[v & 15], 'true' if v > 15 else 'false'),
           'a + b + %d and its carry' % c)
w('Definition nadd (c : bool) (a b : nib) : nib * bool := if c then nadd1 a b else nadd0 a b.')
w('')
for name, f, cm in (('nlo', lambda v: v & 15, 'The low digit of a byte.'), ('nhi', lambda v: v >> 4, 'The high digit of a byte.')):
    w('(** %s *)' % cm)
    w('Definition %s (b : byte) : nib :=' % name)
    w('  match b with')
    for i in range(16):
        w('  ' + ' '.join('| x%s%s => %s' % (H[i], H[j], D[f(16 * i + j)]) for j in range(16)))
    w('  end.')
    w('')
table2('nbyte', lambda a, b: 16 * a + b, 'byte', lambda v: 'x%02x' % v, 'The byte with the high digit a and the low digit b.')

def word(c, n, suf, rots, shifts, add):
    A = ['a%d' % i for i in range(n)]
    B = ['b%d' % i for i in range(n)]
    w('(** ** Words of %d bits *)' % (4 * n))
    w('')
    w('Inductive w%s := %s (%s : nib).' % (suf, c, ' '.join(A)))
    w('')
    for f in ('xor', 'and', 'andn'):
        w('Definition %s%s (x y : w%s) : w%s :=' % (f, suf, suf, suf))
        w('  match x, y with %s %s, %s %s =>' % (c, ' '.join(A), c, ' '.join(B)))
        w('    %s %s end.' % (c, ' '.join('(n%s a%d b%d)' % (f, i, i) for i in range(n))))
    if add:
        w('(** Addition modulo 2^%d. *)' % (4 * n))
        w('Definition add%s (x y : w%s) : w%s :=' % (suf, suf, suf))
        w('  match x, y with %s %s, %s %s =>' % (c, ' '.join(A), c, ' '.join(B)))
        w("    let '(s0, c0) := nadd0 a0 b0 in")
        for i in range(1, n):
            w("    let '(s%d, c%d) := nadd c%d a%d b%d in" % (i, i, i - 1, i, i))
        w('    %s %s end.' % (c, ' '.join('s%d' % i for i in range(n))))
    def dig(i, fill):
        if fill and i >= n: return 'h0'
        return 'a%d' % (i % n)
    for name, k, fill in [('rotr%s_%d' % (suf, k), k, False) for k in rots] + [('shr%s_%d' % (suf, k), k, True) for k in shifts]:
        q, r = divmod(k, 4)
        w('(** %s right by %d bits *)' % ('shifted' if fill else 'rotated', k))
        w('Definition %s (x : w%s) : w%s :=' % (name, suf, suf))
        w('  match x with %s %s =>' % (c, ' '.join(A)))
        if r:
            w('    %s %s end.' % (c, ' '.join('(nsh%d %s %s)' % (r, dig(i + q, fill), dig(i + q + 1, fill)) for i in range(n))))
        else:
            w('    %s %s end.' % (c, ' '.join(dig(i + q, fill) for i in range(n))))
    w('')
word('W', 8, '32', [2, 6, 7, 11, 13, 17, 18, 19, 22, 25], [3, 10], True)
rho = [0, 1, 62, 28, 27, 36, 44, 6, 55, 20, 3, 10, 43, 25, 39, 41, 45, 15, 21, 8, 18, 2, 61, 56, 14]
word('L', 16, '64', sorted({(64 - k) % 64 for k in rho if k}), [], False)

w('(** Big-endian reading and writing of a word of 32 bits, little-endian of one of 64 bits. *)')
w('Definition be32 (b0 b1 b2 b3 : byte) : w32 :=')
w('  W (nlo b3) (nhi b3) (nlo b2) (nhi b2) (nlo b1) (nhi b1) (nlo b0) (nhi b0).')
w('Definition bytes32 (x : w32) : bytes :=')
w('  match x with W a0 a1 a2 a3 a4 a5 a6 a7 => [nbyte a7 a6; nbyte a5 a4; nbyte a3 a2; nbyte a1 a0] end.')
w('Definition le64 (b0 b1 b2 b3 b4 b5 b6 b7 : byte) : w64 :=')
w('  L ' + ' '.join('(nlo b%d) (nhi b%d)' % (i, i) for i in range(8)) + '.')
w('Definition bytes64 (x : w64) : bytes :=')
w('  match x with L %s =>' % ' '.join('a%d' % i for i in range(16)))
w('    [%s] end.' % '; '.join('nbyte a%d a%d' % (2 * i + 1, 2 * i) for i in range(8)))
w('(** The word of a number. *)')
w('Definition dig (n : N) : nib :=')
w('  match n mod 16 with ' + ' | '.join('%d => %s' % (i, D[i]) for i in range(15)) + ' | _ => hf end.')
w('Definition of32 (n : N) : w32 :=')
w('  W ' + ' '.join('(dig (n / 16 ^ %d))' % i for i in range(8)) + '.')
w('Definition of64 (n : N) : w64 :=')
w('  L ' + ' '.join('(dig (n / 16 ^ %d))' % i for i in range(16)) + '.')
w('Definition zero64 : w64 := L %s.' % ' '.join(['h0'] * 16))
w('')
w('(** ** What the tables are *)')
w('')
w('Definition nv (a : nib) : N :=')
w('  match a with ' + ' | '.join('%s => %d' % (D[i], i) for i in range(16)) + ' end.')
w('Definition v32 (x : w32) : N :=')
w('  match x with W a0 a1 a2 a3 a4 a5 a6 a7 => ' + '\n    ' + ' + 16 * ('.join('nv a%d' % i for i in range(8)) + ')' * 7 + ' end.')
w('Definition v64 (x : w64) : N :=')
w('  match x with L %s =>' % ' '.join('a%d' % i for i in range(16)))
w('    ' + ' + 16 * ('.join('nv a%d' % i for i in range(16)) + ')' * 15 + ' end.')
w('''
Lemma nib_tables a b :
  nv (nxor a b) = N.lxor (nv a) (nv b) /\\
  nv (nand a b) = N.land (nv a) (nv b) /\\
  nv (nandn a b) = N.land (15 - nv a) (nv b) /\\
  nv (nsh1 a b) = N.shiftr (nv a + 16 * nv b) 1 mod 16 /\\
  nv (nsh2 a b) = N.shiftr (nv a + 16 * nv b) 2 mod 16 /\\
  nv (nsh3 a b) = N.shiftr (nv a + 16 * nv b) 3 mod 16 /\\
  nv a + nv b = nv (fst (nadd0 a b)) + (if snd (nadd0 a b) then 16 else 0) /\\
  nv a + nv b + 1 = nv (fst (nadd1 a b)) + (if snd (nadd1 a b) then 16 else 0) /\\
  nb (nbyte a b) = 16 * nv a + nv b.
Proof. destruct a, b; repeat split; reflexivity. Qed.

Lemma byte_digits b : nbyte (nhi b) (nlo b) = b.
Proof. destruct b; reflexivity. Qed.

Lemma add32_is x y : v32 (add32 x y) = (v32 x + v32 y) mod 2 ^ 32.
Proof.
  assert (forall c a b, nv a + nv b + N.b2n c = nv (fst (nadd c a b)) + 16 * N.b2n (snd (nadd c a b))) as H.
  { intros c a b. destruct (nib_tables a b) as (_ & _ & _ & _ & _ & _ & H0 & H1 & _).
    destruct c; cbn [nadd]; [destruct (snd (nadd1 a b))|destruct (snd (nadd0 a b))]; cbn [N.b2n]; lia. }
  assert (forall a, nv a < 16) as HB by (intros []; reflexivity).
  destruct x as [a0 a1 a2 a3 a4 a5 a6 a7], y as [b0 b1 b2 b3 b4 b5 b6 b7]. unfold add32, v32.
  pose proof (H false a0 b0) as H0. change (nadd false a0 b0) with (nadd0 a0 b0) in H0. destruct (nadd0 a0 b0) as [s0 c0].''')
for i in range(1, 8):
    w('  pose proof (H c%d a%d b%d) as H%d. destruct (nadd c%d a%d b%d) as [s%d c%d].' % (i - 1, i, i, i, i - 1, i, i, i, i))
w('''  cbn [fst snd] in *. change (2 ^ 32) with 4294967296.
  apply N.mod_unique with (q := N.b2n c7).
  - pose proof (HB s0). pose proof (HB s1). pose proof (HB s2). pose proof (HB s3).
    pose proof (HB s4). pose proof (HB s5). pose proof (HB s6). pose proof (HB s7). lia.
  - change (N.b2n false) with 0 in H0. lia.
Qed.''')
p = sys.argv[1] if len(sys.argv) > 1 else os.path.join(os.path.dirname(__file__), '..', 'rocq', 'theories', 'Nib.v')
open(p, 'w').write('\n'.join(out) + '\n')
