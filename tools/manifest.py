#!/usr/bin/env python3
"""Regenerate MANIFEST.json: theorems C<nn>_* in rocq/theories/Props*.v, notes from notes.json."""
import glob, json, os, re
root = os.path.dirname(os.path.dirname(os.path.abspath(__file__)))
notes = json.load(open(os.path.join(root, 'tools', 'notes.json')))
thms = {}
for f in sorted(glob.glob(os.path.join(root, 'rocq/theories/Props*.v'))):
    for m in re.finditer(r'^Theorem (C(\d\d)_\w+)', open(f).read(), re.M):
        thms.setdefault('C' + m.group(2), []).append(m.group(1))
claims = []
for line in open(os.path.join(root, 'properties.jsonl')):
    p = json.loads(line)['id']
    n = notes.get(p, {})
    if p in thms:
        st = n.get('status', 'partial' if any(t.endswith('_partial') for t in thms[p]) else 'proved')
        claims.append({'property': p, 'status': st, 'theorems': thms[p], 'note': n.get('note', '')})
    elif n.get('status') == 'not_applicable':
        claims.append({'property': p, 'status': 'not_applicable', 'theorems': [], 'note': n['note']})
json.dump({'claims': claims}, open(os.path.join(root, 'MANIFEST.json'), 'w'), indent=1)
print({c['property']: (c['status'], len(c['theorems'])) for c in claims})
