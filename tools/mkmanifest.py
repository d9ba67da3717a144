#!/usr/bin/env python3
"""Writes /verif/MANIFEST.json from the theorem names in theories/Props_*.v."""
import json, re, glob, os
here = os.path.dirname(os.path.abspath(__file__))
root = os.path.dirname(here)
names = {}
proj = open(root + '/rocq/_CoqProject').read()
for f in sorted(glob.glob(root + '/rocq/theories/Props_*.v')):
    if 'theories/' + os.path.basename(f) not in proj: continue
    for m in re.finditer(r'^Theorem ((C\d\d)_\w+)', open(f).read(), re.M):
        names.setdefault(m.group(2), []).append(m.group(1))
notes = json.load(open(here + '/notes.json'))
claims = []
for l in open(root + '/properties.jsonl'):
    i = json.loads(l)['id']
    t = names.get(i, [])
    n = notes.get(i, '')
    if not t:
        print('no theorem for', i); continue
    part = any(x.endswith('_partial') for x in t)
    claims.append({'property': i, 'status': 'partial' if part else 'proved', 'theorems': t, 'note': n})
json.dump({'claims': claims}, open(root + '/MANIFEST.json', 'w'), indent=1)
print(len(claims), 'claims', sum(len(c['theorems']) for c in claims), 'theorems')
