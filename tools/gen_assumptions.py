#!/usr/bin/env python3
"""Writes ASSUMPTIONS.md: what Print Assumptions says for every theorem of the Properties_*.v files (which must have been built)."""
import glob, os, re, subprocess, tempfile
R = '/verif/rocq/theories'
groups = {}
for f in sorted(glob.glob(R + '/Properties_*.v')):
    b = os.path.basename(f)[:-2]
    order = re.findall(r'^Print Assumptions ([\w\']+)\.', open(f).read(), re.M)
    with tempfile.NamedTemporaryFile('w', suffix='.v', prefix='pa_', delete=False, dir='/tmp') as t:
        t.write('From Verif Require Import %s.\n' % b + ''.join('Print Assumptions %s.\n' % n for n in order))
    out = subprocess.run(['coqc', '-Q', R, 'Verif', t.name], capture_output=True, text=True, timeout=3000).stdout
    for e in ('.v', '.vo', '.vos', '.vok', '.glob'):
        for p in (t.name[:-2] + e, '/tmp/.' + os.path.basename(t.name)[:-2] + '.aux'):
            if os.path.exists(p): os.remove(p)
    kinds = re.findall(r'^(Closed under the global context|Axioms:)', out, re.M)
    blocks = re.split(r'^(?:Closed under the global context|Axioms:)', out, flags=re.M)[1:]
    assert len(kinds) == len(order), (b, len(kinds), len(order))
    for n, k, bl in zip(order, kinds, blocks):
        ax = tuple(sorted(set(re.findall(r'^([A-Za-z][\w.\']*)\s*(?::|$)', bl, re.M)))) if k == 'Axioms:' else ()
        groups.setdefault(ax, []).append((b, n))
with open('/verif/ASSUMPTIONS.md', 'w') as o:
    o.write('# Output of Print Assumptions for every property theorem\n\nGenerated by tools/gen_assumptions.py.\n')
    for i, (ax, l) in enumerate(sorted(groups.items(), key=lambda x: len(x[0]))):
        o.write('\n## Group %d: %s (%d theorems)\n\n' % (i, 'closed under the global context' if not ax else '%d standard-library constants' % len(ax), len(l)))
        if ax: o.write('Constants listed: ' + ', '.join('`%s`' % a for a in ax) + '.\n\n')
        for b in sorted(set(x[0] for x in l)):
            o.write('* %s: %s\n' % (b, ', '.join(n for bb, n in l if bb == b)))
