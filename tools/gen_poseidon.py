#!/usr/bin/env python3
"""Transcribes the decimal strings of /repo/src/poseidon/bn256.rs (round_constants(), mds()) into
rocq/theories/Model/PoseidonConsts.v.  Usage: gen_poseidon.py > .../PoseidonConsts.v"""
import re
lines = open('/repo/src/poseidon/bn256.rs').read().split('\n')
def grab(a, b):
    out = []
    for i in range(a - 1, b):
        m = re.search(r'"(\d+)"', lines[i])
        if m: out.append(m.group(1))
    return out
start = next(i for i, l in enumerate(lines) if l.startswith('fn round_constants')) + 1
mid = next(i for i, l in enumerate(lines) if l.startswith('fn mds')) + 1
rc = grab(start, mid - 1)
md = grab(mid, len(lines))
assert len(rc) == 195 and len(md) == 9
print('(** Generated by tools/gen_poseidon.py from src/poseidon/bn256.rs: the decimal strings of [round_constants()]')
print('    (lines %d-%d) and [mds()] (lines %d-%d), in order, as integers. *)' % (start, mid - 2, mid, len(lines) - 1))
print('From Coq Require Import ZArith List.\nImport ListNotations.\nOpen Scope Z_scope.\n')
print('(** bn256.rs:%d-%d *)' % (start, mid - 2))
print('Definition round_constants : list Z :=\n  [ ' + ';\n    '.join(rc) + ' ].\n')
print('(** bn256.rs:%d-%d *)' % (mid, len(lines) - 1))
print('Definition mds : list (list Z) :=\n  [ ' + ';\n    '.join('[ ' + ';\n      '.join(md[3*i:3*i+3]) + ' ]' for i in range(3)) + ' ].')
