#!/usr/bin/env python3
"""Regenerate MANIFEST.json: theorems Cxx_* of the P_*.v files, grouped by property."""
import glob, json, re, os
root = os.path.dirname(os.path.dirname(os.path.abspath(__file__)))
notes = json.load(open(os.path.join(root, 'tools', 'notes.json')))
thms = {}
for f in sorted(glob.glob(os.path.join(root, 'rocq/theories/P_*.v'))):
    for m in re.finditer(r'^Theorem (C\d\d+)_(\w+)', open(f).read(), re.M):
        thms.setdefault(m.group(1), []).append(m.group(1) + '_' + m.group(2))
claims = []
for l in open(os.path.join(root, 'properties.jsonl')):
    i = json.loads(l)['id']
    if i in thms:
        part = any(t.endswith('_partial') for t in thms[i])
        n = notes.get(i, {})
        claims.append({'property': i, 'status': n.get('status', 'partial' if part else 'proved'),
                       'theorems': thms[i], 'note': n.get('note', '')})
json.dump({'claims': claims}, open(os.path.join(root, 'MANIFEST.json'), 'w'), indent=1)
print(len(claims), 'claims')
