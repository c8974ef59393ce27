#!/usr/bin/env python3
"""Append mutation results (out.jsonl of mutate.py) to seeded/LOG.jsonl, once each.
usage: seedlog.py out.jsonl"""
import json, os, sys
root = os.path.dirname(os.path.dirname(os.path.abspath(__file__)))
log = os.path.join(root, 'seeded', 'LOG.jsonl')
seen = set()
if os.path.exists(log):
    for l in open(log):
        d = json.loads(l); seen.add((d['definition'], d['edit']))
n = 0
with open(log, 'a') as f:
    for l in open(sys.argv[1]):
        d = json.loads(l)
        if 'failed' not in d: print('no result', d); continue
        key = ('%s.%s' % (d['file'], d['def']), d['edit'])
        hit = [t for t in d['failed'] if t.startswith(d['claim'] + '_')]
        if not hit: print('SURVIVED', key, d['claim'], d['failed']); continue
        if key in seen: continue
        seen.add(key); n += 1
        f.write(json.dumps({'definition': key[0], 'edit': d['edit'], 'claim': d['claim'], 'theorems_failed': d['failed'],
                            'first_failing_proofs': d['admitted'], 'theorems_tightened': d.get('tightened', [])}) + '\n')
print(n, 'added')
