#!/usr/bin/env python3
"""Writes MANIFEST.json.  A theorem belongs to property Cnn if its name starts with Cnn_."""
import json, re, glob, os
root = os.path.join(os.path.dirname(__file__), '..')
thms = {}
for f in sorted(glob.glob(os.path.join(root, 'rocq/theories/Prop*.v'))):
    for n in re.findall(r'^(?:Theorem|Corollary) (C\d\d_\w+)', open(f).read(), re.M):
        thms.setdefault(n[:3], []).append(n)
notes = json.load(open(os.path.join(root, 'tools/notes.json')))
claims = []
for line in open(os.path.join(root, 'properties.jsonl')):
    p = json.loads(line)['id']
    ts = thms.get(p, [])
    st, note = notes.get(p, ['proved' if ts else 'partial', ''])
    if not ts:
        st, note = 'partial', (note + ' Not proved yet.').strip()
    claims.append({'property': p, 'status': st, 'theorems': ts, 'note': note})
json.dump({'claims': claims}, open(os.path.join(root, 'MANIFEST.json'), 'w'), indent=1)
print(len(claims), sum(1 for c in claims if c['theorems']))
