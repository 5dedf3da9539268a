#!/usr/bin/env python3
"""Builds MANIFEST.json: theorems named Cxx_* in rocq/theories/Prop*.v, plus status notes."""
import json, re, glob, os
root = os.path.dirname(os.path.dirname(os.path.abspath(__file__)))
notes = json.load(open(os.path.join(root, 'tools', 'notes.json')))
thms = {}
for f in sorted(glob.glob(os.path.join(root, 'rocq/theories/Prop*.v'))):
    for m in re.finditer(r'^Theorem (C\d+)_(\w+)', open(f).read(), re.M):
        thms.setdefault(m.group(1), []).append(m.group(1) + '_' + m.group(2))
claims = []
for l in open(os.path.join(root, 'properties.jsonl')):
    p = json.loads(l)['id']
    n = notes.get(p, {})
    if p not in thms and not n:
        continue
    claims.append({'property': p, 'status': n.get('status', 'proved'),
                   'theorems': thms.get(p, []), 'note': n.get('note', '')})
json.dump({'claims': claims}, open(os.path.join(root, 'MANIFEST.json'), 'w'), indent=1)
print(len(claims), 'claims;', sum(len(c['theorems']) for c in claims), 'theorems')
