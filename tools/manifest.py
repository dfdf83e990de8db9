#!/usr/bin/env python3
"""Regenerate MANIFEST.json from the theorem names in rocq/theories/Prop*.v."""
import json, re, glob, os
root = os.path.dirname(os.path.dirname(os.path.abspath(__file__)))
notes = json.load(open(os.path.join(root, 'tools', 'notes.json')))
ths = {}
for f in sorted(glob.glob(os.path.join(root, 'rocq/theories/Prop*.v'))):
    for m in re.finditer(r'^ *(?:Theorem|Corollary) (C\d\d\d?)_(\w+)', open(f).read(), re.M):
        ths.setdefault(m.group(1), []).append(m.group(1) + '_' + m.group(2))
claims = []
for l in open(os.path.join(root, 'properties.jsonl')):
    i = json.loads(l)['id']
    n = notes.get(i, {})
    t = ths.get(i, [])
    claims.append({'property': i, 'status': n.get('status', 'proved' if t else 'partial'),
                   'theorems': t, 'note': n.get('note', '' if t else 'not yet proved')})
json.dump({'claims': claims}, open(os.path.join(root, 'MANIFEST.json'), 'w'), indent=1)
print({c['property']: (c['status'], len(c['theorems'])) for c in claims})
