#!/usr/bin/env python3
"""Transcribe the assembly block of contracts/Halo2Verifier.sol and the constructor of contracts/Halo2VerifyingKey-3-5-18-g2.sol
into Coq syntax trees (Model/Yul.v).  usage: gen_yul.py REPO OUT.  One Coq definition per top-level (or second-level) block.
gen_yul.py REPO OUT old: the same for contracts/Halo2Verifier-3-5-g2.sol, whose key is embedded; names start with old_."""
import re, sys
repo, out = sys.argv[1], sys.argv[2]
OLD = len(sys.argv) > 3 and sys.argv[3] == 'old'
NAME = 'Halo2Verifier-3-5-g2.sol' if OLD else 'Halo2Verifier.sol'
PRE = 'old_' if OLD else ''
F = repo + '/contracts/' + NAME
src = open(F).read().split('\n')
consts = {}
for l in src:
    m = re.match(r'\s*uint256 internal constant\s+(\w+) = (0x[0-9a-f]+);', l)
    if m: consts[m.group(1)] = m.group(2)
a = next(i for i, l in enumerate(src) if l.strip() == 'assembly {')
toks = []          # (text, line)
for i in range(a, len(src)):
    l = src[i].split('//')[0]
    for t in re.findall(r':=|->|[(){},]|[A-Za-z_]\w*|0x[0-9a-fA-F]+|\d+', l): toks.append((t, i + 1))
pos = 0
def peek(k=0): return toks[pos + k][0]
def line(): return toks[pos][1]
def nxt(e=None):
    global pos
    t = toks[pos][0]
    if e is not None and t != e: raise SystemExit(f'line {toks[pos][1]}: expected {e}, got {t}')
    pos += 1
    return t
def ident(): 
    t = nxt(); assert re.match(r'[A-Za-z_]', t), t
    return t
BIN = dict(add='ADD', sub='SUB', mul='MUL', lt='LT', eq='EQ', mod='MOD', shl='SHL')
BIN['and'] = 'AND'
TER = dict(addmod='ADDMOD', mulmod='MULMOD')
funs = {}
def args():
    nxt('('); r = []
    while peek() != ')':
        r.append(expr())
        if peek() == ',': nxt()
    nxt(')')
    return r
def num(t): return f'(Num {t if t.startswith("0x") else t})'
def expr():
    t = nxt()
    if t == 'true': return '(Num 1)'
    if re.match(r'\d', t): return num(t)
    if peek() == '(':
        ar = args()
        if t in BIN: assert len(ar) == 2; return ('bin', t, ar) if any(not isinstance(x, str) for x in ar) else f'(Bin {BIN[t]} {ar[0]} {ar[1]})'
        if t in TER: assert len(ar) == 3; return f'(Ter {TER[t]} {ar[0]} {ar[1]} {ar[2]})'
        if t == 'iszero': return f'(Iszero {ar[0]})'
        if t == 'mload': return f'(Mload {ar[0]})'
        if t == 'calldataload': return f'(Cdload {ar[0]})'
        if t == 'keccak256': return f'(Keccak {ar[0]} {ar[1]})'
        if t == 'gas': return '(Num 0)'
        if t == 'staticcall': return ('static', ar[1:])
        assert t in funs, t
        return ('call', t, ar)
    if t in consts: return f'(Num {consts[t]})'
    return f'(Var "{t}")'
def rhs(e):
    if isinstance(e, str): return f'(E {e})'
    if e[0] == 'call': return f'(Call "{e[1]}" [{"; ".join(e[2])}])'
    if e[0] == 'bin' and e[1] == 'and' and isinstance(e[2][0], str) and e[2][1][0] == 'static':
        return f'(AndStatic {e[2][0]} {" ".join(e[2][1][1])})'
    raise SystemExit(f'unsupported {e}')
def names(xs): return '[' + '; '.join(f'"{x}"' for x in xs) + ']'
def block():
    """list of (text, first line, last line, children or None)"""
    nxt('{'); r = []
    while peek() != '}':
        s = stmt()
        if s is not None: r.append(s)
    nxt('}')
    return r
def render(l): return '[' + ';\n   '.join(x[0] for x in l) + ']'
def stmt():
    l0 = line()
    t = peek()
    ch = None
    if t == '{':
        ch = block(); s = f'Block {render(ch)}'
    elif t == 'function':
        nxt(); f = ident(); nxt('('); ps = []
        while peek() != ')':
            ps.append(ident())
            if peek() == ',': nxt()
        nxt(')'); rs = []
        if peek() == '->':
            nxt(); rs.append(ident())
            while peek() == ',': nxt(); rs.append(ident())
        funs[f] = None
        b = block()
        funs[f] = (ps, rs, b, l0, toks[pos - 1][1])
        return None
    elif t == 'let':
        nxt(); xs = [ident()]
        while peek() == ',': nxt(); xs.append(ident())
        if peek() == ':=': nxt(); s = f'Let {names(xs)} {rhs(expr())}'
        else: s = f'Let {names(xs)} (E (Num 0))'
    elif t == 'for':
        nxt(); i = block(); c = expr(); p = block(); b = block()
        s = f'For {render(i)} {c} {render(p)}\n   {render(b)}'
    elif t == 'if':
        nxt(); c = expr(); b = block(); s = f'If {c} {render(b)}'
    elif t in ('mstore', 'mstore8', 'revert', 'return', 'extcodecopy', 'pop') and peek(1) == '(':
        nxt(); ar = args(); s = {'mstore': 'Mstore', 'mstore8': 'Mstore8', 'revert': 'Revert', 'return': 'Return', 'extcodecopy': 'Extcodecopy', 'pop': 'Pop'}[t] + ' ' + ' '.join(ar)
    else:
        xs = [ident()]
        while peek() == ',': nxt(); xs.append(ident())
        nxt(':='); s = f'Set_ {names(xs)} {rhs(expr())}'
    return (s, l0, toks[pos - 1][1], ch)
nxt('assembly')
main = block()
# ---- output
SRC = 'contracts/' + NAME if OLD else 'contracts/Halo2Verifier.sol and contracts/Halo2VerifyingKey-3-5-18-g2.sol'
o = [f'(** Generated by tools/gen_yul.py from {SRC}: do not edit.',
     f'    The assembly block of verifyProof ({NAME}:%d-%d), statement by statement; named memory and calldata positions' % (a + 1, toks[pos - 1][1]),
     f'    (lines 6-65) are replaced by their values. *)',
     'From Coq Require Import ZArith List String.', 'From Verif.Model Require Import Yul.', 'Import ListNotations.', 'Open Scope string_scope.', 'Open Scope Z_scope.', '']
defs = []
def loc(s): return f'{NAME}:{s[1]}' + (f'-{s[2]}' if s[2] != s[1] else '')
for f, (ps, rs, b, l0, l1) in funs.items():
    o.append(f'(** {NAME}:{l0}-{l1} *)\nDefinition {PRE}fn_{f} : func := Func {names(ps)} {names(rs)}\n  {render(b)}.\n')
o.append(f'Definition {PRE}functions : list (string * func) := [' + '; '.join(f'("{f}", {PRE}fn_{f})' for f in funs) + '].\n')
# main: blocks named; the large ones split at second (and third) level
cnt = [0]
def emit(s, name):
    """emit definition(s) for statement s, return its Coq name"""
    if s[3] is not None and len(s[3]) > 1 and any(c[3] is not None for c in s[3]):
        # nested blocks: name each run
        parts = []
        for i, c in enumerate(s[3]):
            if c[3] is not None:
                parts.append(emit(c, f'{name}_{i:02d}'))
            else:
                parts.append(None)
        items = [parts[i] if parts[i] else c[0] for i, c in enumerate(s[3])]
        o.append(f'(** {loc(s)} *)\nDefinition {name} : stmt := Block [{"; ".join(items)}].\n')
    else:
        o.append(f'(** {loc(s)} *)\nDefinition {name} : stmt := {s[0]}.\n')
    return name
mainnames = []
for i, s in enumerate(main): mainnames.append(emit(s, f'{PRE}main_{i:02d}'))
o.append(f'(** {NAME}:{a+1}-{toks[pos-1][1]} *)\nDefinition {PRE}main : list stmt := [{"; ".join(mainnames)}].\n')
if OLD:
    ws = []; ks = []
    for i, l in enumerate(src):
        m = re.match(r'\s*mstore\(0x([0-9a-f]+), 0x([0-9a-f]{64})\)', l)
        if m: ws.append((int(m.group(1), 16), m.group(2), i + 1))
    # the first two are written twice: before the transcript is read, and with the rest
    assert [x[:2] for x in ws[:2]] == [x[:2] for x in ws[2:4]]
    ws = ws[2:]
    assert [x[0] for x in ws] == [0x6c0 + 32 * i for i in range(len(ws))], ws
    o.append(f'(** The embedded key: {NAME}:{ws[0][2]}-{ws[-1][2]}, words in order (memory 0x06c0 on) *)\nDefinition old_key : list Z := [\n  ' + ';\n  '.join('0x' + w[1] for w in ws) + '].')
    open(out, 'w').write('\n'.join(o) + '\n')
    sys.exit()
vk = []
G = repo + '/contracts/Halo2VerifyingKey-3-5-18-g2.sol'
ls = open(G).read().split('\n'); off = 0; first = None
for i, l in enumerate(ls):
    m = re.match(r'\s*mstore\(0x([0-9a-f]+), 0x([0-9a-f]{64})\)', l)
    if m:
        assert int(m.group(1), 16) == off; off += 32
        if first is None: first = i + 1
        last = i + 1
        vk.append(m.group(2))
assert any(f'return(0, 0x{off:04x})' in l for l in ls)
o.append(f'(** The code of the deployed key contract: Halo2VerifyingKey-3-5-18-g2.sol:{first}-{last}, words in order (offset 0x00 on) *)\nDefinition vk_code : list Z := [\n  ' + ';\n  '.join('0x' + w for w in vk) + '].')
open(out, 'w').write('\n'.join(o) + '\n')
