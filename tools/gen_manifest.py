#!/usr/bin/env python3
"""Writes MANIFEST.json: theorem names are collected from rocq/theories/Properties_*.v by their Cxx_ prefix,
statuses and notes come from tools/manifest_notes.json."""
import re, json, glob, os
root = os.path.dirname(os.path.dirname(os.path.abspath(__file__)))
thms = {}
for f in sorted(glob.glob(root + '/rocq/theories/Properties_*.v')):
    for m in re.finditer(r'^Theorem (C\d\d+)(_\w+)', open(f).read(), re.M):
        thms.setdefault(m.group(1), []).append(m.group(1) + m.group(2))
notes = json.load(open(root + '/tools/manifest_notes.json'))
claims = []
for l in open(root + '/properties.jsonl'):
    i = json.loads(l)['id']
    n = notes.get(i, {})
    t = thms.get(i, [])
    status = n.get('status', 'proved' if t and not any(x.endswith(('_partial', '_refuted')) for x in t) else 'partial')
    claims.append({'property': i, 'status': status, 'theorems': t, 'note': n.get('note', '' if t else 'not yet proved')})
json.dump({'claims': claims}, open(root + '/MANIFEST.json', 'w'), indent=1)
print({s: sum(c['status'] == s for c in claims) for s in ('proved', 'partial', 'not_applicable')}, sum(not c['theorems'] for c in claims), 'without theorem')
