#!/usr/bin/env python3
"""globdeps.py theories out.json: for each property theorem (named by Print Assumptions in P_*.v) the
lemmas and definitions its proof mentions, directly or not, read off the .glob files."""
import re, sys, os, json
T, out = sys.argv[1:3]
ref = {}
for f in os.listdir(T):
    if not f.endswith('.glob'): continue
    m = f[:-5]; cur = None
    defs = []; refs = []
    for l in open(f'{T}/{f}'):
        p = l.split()
        if not p: continue
        if re.match(r'R\d', p[0]) and len(p) >= 5:
            if p[1].startswith('Verif.'): refs.append((int(p[0][1:].split(':')[0]), p[1][6:] + '.' + p[-2]))
        elif p[0] in ('prf', 'def', 'ind', 'rec', 'ex', 'thm', 'lem', 'inst') and len(p) >= 4: defs.append((int(p[1].split(':')[0]), p[3]))
    defs.sort(); refs.sort(); i = -1
    for pos, t in refs:
        while i + 1 < len(defs) and defs[i + 1][0] <= pos: i += 1
        if i >= 0: ref.setdefault(m + '.' + defs[i][1], set()).add(t)
res = {}
for f in sorted(os.listdir(T)):
    if not re.match(r'P_\w+\.v$', f): continue
    for t in re.findall(r'^Print Assumptions (\w+)\.', open(f'{T}/{f}').read(), re.M):
        n = f[:-2] + '.' + t; seen = set(); st = [n]
        while st:
            for d in ref.get(st.pop(), ()):
                if d not in seen: seen.add(d); st.append(d)
        res[n] = sorted(seen)
json.dump(res, open(out, 'w'))
print(len(res), 'theorems', sum(len(v) for v in res.values()) // max(1, len(res)), 'names each')
