#!/usr/bin/env python3
"""Witnesses that the points of the two verifying keys are on their curves: y^2 = x^3 + 3 + k q.
Writes theories/Proofs/VerifierKeyCert.v and theories/Proofs/VerifierOldKeyCert.v."""
import re
q = 21888242871839275222246405745257275088696311157297823662689037894645226208583
b = (0x2b149d40ceb8aaae81be18991be06ac3b5b4c5e559dbefa33267e6dc24a138e5, 0x9713b03af0fed4cd2cafadeed8fdf4a74fa084e52d1852e4a2bd0685c315d2)
mul = lambda a, c: (a[0] * c[0] - a[1] * c[1], a[0] * c[1] + a[1] * c[0])


def cert(w, prefix, dest):
    idx = [11] + [21 + 2 * i for i in range(32)]
    out = ['(** GENERATED by tools/gen_vkcert.py.  k with y^2 = x^3 + 3 + k q for each point of the verifying key. *)',
           'From Coq Require Import ZArith List.', 'Import ListNotations.', 'Open Scope Z_scope.',
           'Definition %skey_cert : list Z := [' % prefix]
    ks = []
    for i in idx:
        x, y = w[i], w[i + 1]
        assert x < q and y < q
        d = y * y - x ** 3 - 3
        assert d % q == 0
        ks.append(d // q)
    out.append(';\n'.join('  (%d)' % k for k in ks) + '].')
    # G2: y^2 = x^3 + b over Fq[i]/(i^2+1)
    x1, x0, y1, y0 = w[17:21]
    X, Y = (x0, x1), (y0, y1)
    l, r = mul(Y, Y), mul(mul(X, X), X)
    ds = [l[i] - r[i] - b[i] for i in (0, 1)]
    assert all(d % q == 0 for d in ds)
    out.append('Definition %sneg_s_cert : Z * Z := (%d, %d).' % (prefix, ds[0] // q, ds[1] // q))
    open('/verif/rocq/theories/Proofs/%s.v' % dest, 'w').write('\n'.join(out) + '\n')


src = open('/repo/contracts/Halo2VerifyingKey-3-5-18-g2.sol').read()
words = {int(a, 16): int(v, 16) for a, v in re.findall(r'mstore\((0x[0-9a-f]+), (0x[0-9a-f]+)\)', src)}
assert len(words) == 85
new = [words[32 * i] for i in range(85)]
cert(new, '', 'VerifierKeyCert')
src = open('/repo/contracts/Halo2Verifier-3-5-g2.sol').read()
words = {}
for a, v in re.findall(r'mstore\((0x[0-9a-f]+), (0x[0-9a-f]+)\)', src):
    words.setdefault(int(a, 16), int(v, 16))
old = [words[0x6c0 + 32 * i] for i in range(85)]
cert(old, 'old_', 'VerifierOldKeyCert')
print('words that differ:', [i for i in range(85) if old[i] != new[i]])
