#!/usr/bin/env python3
"""Append results of gomut.py (edits of the Go texts) to seeded/LOG.jsonl, once each.
Survivors need a reason in tools/equivalent.json ({"file:def|edit": reason}).
usage: golog.py out.jsonl..."""
import json, os, sys
root = os.path.dirname(os.path.dirname(os.path.abspath(__file__)))
log = os.path.join(root, 'seeded', 'LOG.jsonl')
eq = json.load(open(os.path.join(root, 'tools', 'equivalent.json')))
claim = {'xdr/lib.go': 'C65', 'rfc1057/client.go': 'C66', 'rfc1057/server.go': 'C67', 'out.go': 'C68', 'scan.go': 'C69',
         'main.go': 'C69', 'xdr.y': 'C70', 'example/client/main.go': 'C73', 'example/server/main.go': 'C73'}
seen = set()
for l in open(log):
    d = json.loads(l); seen.add((d['definition'], d['edit']))
n = 0
with open(log, 'a') as f:
    for fn in sys.argv[1:]:
        for l in open(fn):
            d = json.loads(l)
            if d['result'] not in ('killed', 'SURVIVED'): continue
            name = '%s:%s' % (d['file'], d['def'])
            edit = '%s in line %d: %s -> %s' % (d['what'], d['line'], ' '.join(d['old'].split()), ' '.join(d['new'].split()))
            if (name, edit) in seen: continue
            rec = {'definition': name, 'edit': edit}
            if d['result'] == 'killed':
                if d['proof'].endswith('.'): continue
                rec.update(claim=claim[d['file']], theorems_failed=[claim[d['file']] + '_text'] if claim[d['file']] != 'C69' else ['C69_lex' if d['file'] == 'scan.go' else 'C69_main'],
                           first_failing_proofs=[d['proof']], theorems_tightened=[])
            else:
                r = eq.get(name + '|' + edit)
                if not r: print('survived', name + '|' + edit); continue
                rec.update(claim='', theorems_failed=[], equivalent=r, theorems_tightened=[])
            seen.add((name, edit)); n += 1
            f.write(json.dumps(rec) + '\n')
print(n, 'added')
