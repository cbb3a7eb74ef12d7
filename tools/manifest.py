#!/usr/bin/env python3
"""Regenerates MANIFEST.json from the theorem names in rocq/theories/Prop*.v and the notes in tools/notes.json."""
import json, re, glob, os
root = os.path.dirname(os.path.dirname(os.path.abspath(__file__)))
notes = json.load(open(os.path.join(root, 'tools', 'notes.json')))
ths = {}
for p in sorted(glob.glob(os.path.join(root, 'rocq/theories/Prop*.v'))):
    for m in re.finditer(r'^Theorem\s+((C\d+)_\w+)', open(p).read(), re.M):
        ths.setdefault(m.group(2), []).append(m.group(1))
claims = []
for l in open(os.path.join(root, 'properties.jsonl')):
    i = json.loads(l)['id']
    t = ths.get(i, [])
    n = notes.get(i, '')
    if not t:
        if i in notes and notes[i].startswith('N/A'):
            claims.append(dict(property=i, status='not_applicable', theorems=[], note=n))
        else:
            print('missing', i)
        continue
    st = 'partial' if any(x.endswith('_partial') or x.endswith('_refuted') for x in t) else 'proved'
    if st == 'partial' and not n: print('note missing', i)
    claims.append(dict(property=i, status=st, theorems=t, note=n))
json.dump({'claims': claims}, open(os.path.join(root, 'MANIFEST.json'), 'w'), indent=1)
