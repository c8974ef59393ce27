#!/usr/bin/env python3
"""Append results of automut.py to seeded/LOG.jsonl, once each.  Survivors need a reason in
tools/equivalent.json ({"File.def|edit": reason}); without one they are only printed.
usage: autolog.py out.jsonl"""
import json, os, sys
root = os.path.dirname(os.path.dirname(os.path.abspath(__file__)))
log = os.path.join(root, 'seeded', 'LOG.jsonl')
eqf = os.path.join(root, 'tools', 'equivalent.json')
eq = json.load(open(eqf)) if os.path.exists(eqf) else {}
seen = set()
for l in open(log):
    d = json.loads(l); seen.add((d['definition'], d['edit']))
n = 0
with open(log, 'a') as f:
    for l in open(sys.argv[1]):
        d = json.loads(l)
        name = '%s.%s' % (d['file'], d['def'])
        edit = '%s at %d: %s -> %s' % (d['what'], d['pos'], ' '.join(d['old'].split()), ' '.join(d['new'].split()))
        if (name, edit) in seen or d['result'] == 'invalid': continue
        rec = {'definition': name, 'edit': edit}
        if d['result'] == 'killed':
            ths = d.get('theorems', [])
            rec.update(claim=ths[0].split('_')[0] if ths else '', theorems_failed=ths, first_failing_proofs=d['admitted'], theorems_tightened=[])
        else:
            r = eq.get(name + '|' + edit)
            if not r: print(d['result'], name + '|' + edit); continue
            rec.update(claim='', theorems_failed=[], equivalent=r, theorems_tightened=[])
        seen.add((name, edit)); n += 1
        f.write(json.dumps(rec) + '\n')
print(n, 'added')
