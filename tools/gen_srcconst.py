#!/usr/bin/env python3
"""Write rocq/theories/SrcConst.v: every numeral that the package variables of the Go sources are
initialised from, copied as text, beside the model's constant of the same name."""
import re
R = '/repo/'
def lines(f):
    return open(R + f).read().split('\n')
files = ['fq.go', 'fq2.go', 'fr.go', 'g1.go', 'g2.go', 'hash.go']
unused = ['qSquaredPlus7Over16', 'rv1', 'qMinusRV1', 'ev1', 'ev2', 'qMinusEv2']
rename = {'kQiX': 'kQiX_repr', 'kQiY': 'kQiY_repr'}
checked, checkedr, hexes, big, unused_l = [], [], [], [], []
slices = {}
cur = None
for f in files:
    for n, l in enumerate(lines(f), 1):
        m = re.match(r'var (\w+), _ = (FQReprFromString|FRReprFromString)\("([0-9a-fA-F]+)", (\d+)\)', l)
        if m:
            (checked if m[2][1] == 'Q' else checkedr).append((f, n, m[1], m[3], m[4])); continue
        m = re.match(r'var (\w+), _ = new\(big.Int\).SetString\("([0-9a-f]+)", 16\)', l)
        if m:
            big.append((f, n, m[1], m[2])); continue
        m = re.match(r'var (\w+) = (?:FQReprToFQ\()?fqReprFromHexUnchecked\("([0-9a-f]+)"\)', l)
        if m:
            (unused_l if m[1] in unused else hexes).append((f, n, rename.get(m[1], m[1]), m[2])); continue
        m = re.match(r'var (\w+) = (\[\]FQ2?\{|NewFQ2\()', l)
        if m: cur = m[1]
        if l.startswith('}') or l.startswith(')'): cur = None
        m = re.search(r'fqReprFromHexUnchecked\("([0-9a-f]+)"\)', l)
        if m:
            assert cur, (f, n, l)
            slices.setdefault((f, cur), []).append((n, m[1])); continue
        assert 'FromString(' not in l or 'func' in l or 'SetString' in l, (f, n, l)
o = []
w = o.append
w('''(** The numerals in the source text of the package variables (written by tools/gen_srcconst.py from
    fq.go, fq2.go, fr.go, g1.go, g2.go and hash.go), each beside the model's constant. *)
Require Import String ZArith List.
From Verif Require Import Words ModelRepr ModelFq ModelFr ModelOps ModelTower ModelCurve ModelPairing ModelHash ModelStr.
Import ListNotations.
Open Scope Z_scope.
''')
def table(name, typ, rows):
    w('Definition %s : list (%s) :=\n  [ %s ].\n' % (name, typ, ';\n    '.join(rows)))
w('(** var name, _ = FQReprFromString("...", base) *)')
table('src_fq', 'string * Z * FQRepr', ['("%s"%%string, %s, %s) (* %s:%d *)' % (s, b, v, f, n) for f, n, v, s, b in checked])
w('(** var name, _ = FRReprFromString("...", base) *)')
table('src_fr', 'string * Z * FRRepr', ['("%s"%%string, %s, %s) (* %s:%d *)' % (s, b, v, f, n) for f, n, v, s, b in checkedr])
w('(** var name = fqReprFromHexUnchecked("...") *)')
table('src_hex', 'string * FQRepr', ['("%s"%%string, %s) (* %s:%d *)' % (s, v, f, n) for f, n, v, s in hexes])
w('(** var name, _ = new(big.Int).SetString("...", 16) *)')
table('src_big', 'string * Z', ['("%s"%%string, %s) (* %s:%d *)' % (s, v, f, n) for f, n, v, s in big])
for (f, v), rows in slices.items():
    w('(** %s:%d-%d %s *)' % (f, rows[0][0], rows[-1][0], v))
    if v == 'iwsc' or v.endswith('3'):
        it = ['("%s", "%s")%%string' % (rows[i][1], rows[i+1][1]) for i in range(0, len(rows), 2)]
        table('src_' + v, 'string * string', it)
    else:
        table('src_' + v, 'string', ['"%s"%%string' % s for _, s in rows])
w('(** Declared but used by nothing else in the module: g2.go:893-907 *)')
for f, n, v, s in unused_l:
    w('Definition src_%s : string := "%s".' % (v, s))
open('/verif/rocq/theories/SrcConst.v', 'w').write('\n'.join(o) + '\n')
print(len(checked), len(checkedr), len(hexes), len(big), len(unused_l), {k[1]: len(v) for k, v in slices.items()})
