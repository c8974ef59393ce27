#!/usr/bin/env python3
"""Systematic mutation of model definitions in scratch copies.

usage: automut.py deps.json out.jsonl seed count workers File...

Takes random small edits (comparison, connective, constant, string, condition, dropped premise of a rule) of the Definitions,
Fixpoints and Inductives of the given files.  Each is compiled with everything that depends on it.  A proof that fails kills the mutant
when a property theorem depends on that proof (deps.json: theorem -> opaque constants it depends on, from `Print Opaque Dependencies`);
other proofs that fail (examples, unused lemmas) are admitted and compilation goes on.
"""
import json, os, random, re, shutil, subprocess, sys, time, threading, queue
BASE = '/tmp/mut/base'
TMO = 200

def sentences(src):
    """(start, end) of vernacular sentences, comments skipped."""
    out = []; i = 0; st = None; n = len(src)
    while i < n:
        if src.startswith('(*', i):
            d = 1; i += 2
            while d:
                if src.startswith('(*', i): d += 1; i += 2
                elif src.startswith('*)', i): d -= 1; i += 2
                else: i += 1
            continue
        c = src[i]
        if st is None and not c.isspace(): st = i
        if c == '"':
            i += 1
            while src[i] != '"' or src[i+1] == '"': i += 2 if src[i] == '"' else 1
        elif c == '.' and (i + 1 == n or src[i+1].isspace()):
            out.append((st, i + 1)); st = None
        i += 1
    return out

def mask(s):
    """text with comments and strings blanked"""
    r = list(s); i = 0
    while i < len(s):
        if s.startswith('(*', i):
            j = s.index('*)', i) + 2
            for k in range(i, j): r[k] = ' '
            i = j
        elif s[i] == '"':
            j = i + 1
            while j < len(s) and s[j] != '"': j += 1
            for k in range(i + 1, j): r[k] = '_'
            i = j + 1
        else: i += 1
    return ''.join(r)

def edits(s):
    """(offset, old, new, what) for one sentence"""
    m = mask(s); out = []
    def rx(p, f, what):
        for x in re.finditer(p, m):
            out.append((x.start(), s[x.start():x.end()], f(x), what))
    rx(r'<=\?', lambda x: '<?', '<= to <'); rx(r'(?<!<)<\?', lambda x: '<=?', '< to <=')
    rx(r'(?<![<>:])=\?', lambda x: '<=?', '= to <=')
    rx(r'&&', lambda x: '||', 'and to or'); rx(r'\|\|', lambda x: '&&', 'or to and')
    rx(r'\btrue\b', lambda x: 'false', 'true to false'); rx(r'\bfalse\b', lambda x: 'true', 'false to true')
    rx(r'(?<![\w.\'"%])\d+(?![\w"])', lambda x: str(int(x[0]) + 1), 'number plus one')
    rx(r' \+ ', lambda x: ' - ', 'plus to minus'); rx(r' - (?!>)', lambda x: ' + ', 'minus to plus')
    rx(r'\bnegb\b', lambda x: '(fun b : bool => b)', 'negation dropped')
    rx(r'\bif ((?:(?!\bif\b|\bthen\b).)+?) then', lambda x: 'if negb (' + s[x.start(1):x.end(1)] + ') then', 'condition negated')
    for x in re.finditer(r'"([^"\n]+)"', s):
        if m[x.start()] == '"': out.append((x.start(), x[0], '"' + x[1] + '_"', 'string changed'))
    if s.startswith('Inductive') or s.startswith('with '):
        for c in re.finditer(r'\|\s*[A-Za-z_]\w*[^|]*', m):
            body = m[c.start():c.end()]
            k = body.find(' : ')
            if k < 0: continue
            d = 0; parts = []; p = k + 3; i = p
            while i < len(body):
                if body[i] in '([{': d += 1
                elif body[i] in ')]}': d -= 1
                elif d == 0 and body.startswith('->', i):
                    parts.append((p, i + 2)); p = i + 2; i += 1
                i += 1
            for a, b in parts:
                if body[a:b].strip().startswith('forall'): continue
                o = s[c.start() + a:c.start() + b]
                if ':=' in o: continue
                out.append((c.start() + a, o, ' ', 'premise dropped'))
    return out

def mutants(f):
    src = open(f'{BASE}/theories/{f}.v').read(); res = []
    for a, b in sentences(src):
        s = src[a:b]
        x = re.match(r'(Definition|Fixpoint|Inductive|Function|CoInductive)\s+(\w+)', s)
        if not x: continue
        for off, old, new, what in edits(s):
            res.append(dict(file=f, **{'def': x[2]}, pos=a + off, old=old, new=new, what=what))
    return res

def graph():
    """compile order, reverse dependencies"""
    r = subprocess.run('coqdep -Q theories Verif theories/*.v', shell=True, cwd=BASE, stdout=subprocess.PIPE, stderr=subprocess.DEVNULL, text=True).stdout
    dep = {}
    proj = re.findall(r'theories/(\w+)\.v', open(BASE + '/_CoqProject').read())
    for l in r.splitlines():
        x = re.match(r'theories/(\w+)\.vo\b[^:]*:(.*)', l)
        if x and x[1] in proj: dep[x[1]] = [d for d in re.findall(r'theories/(\w+)\.vo\b', x[2])]
    order = []; seen = set()
    def go(f):
        if f in seen: return
        seen.add(f)
        for d in dep.get(f, []): go(d)
        order.append(f)
    for f in proj: go(f)
    rev = {f: set() for f in order}
    for f in order:
        for d in dep.get(f, []): rev.setdefault(d, set()).add(f)
    return order, dep, rev

def affected(f, order, rev):
    s = {f}; st = [f]
    while st:
        for g in rev.get(st.pop(), ()):
            if g not in s: s.add(g); st.append(g)
    return [g for g in order if g in s]

def lemma_at(path, pos):
    s = open(path, 'rb').read()
    starts = [m.start() for m in re.finditer(rb'\bProof\b[^.]*\.', s) if m.start() <= pos + 1]
    if not starts: return None
    a = starts[-1]; m = re.search(rb'\b(Qed|Defined|Admitted)\.', s[a:])
    if not m or a + m.end() < pos or b'Admitted' in m[0]: return None
    names = re.findall(rb'\b(?:Lemma|Theorem|Example|Corollary|Fact|Definition|Fixpoint|Let|Remark)\s+([A-Za-z0-9_\']+)', s[:a])
    return names[-1].decode(), a, a + m.end()

def worker(w, q, out, lock, users, g):
    order, dep, rev = g; W = f'/tmp/mut/w{w}'
    if not os.path.exists(W): subprocess.run(f'cp -a {BASE} {W}', shell=True)
    while True:
        try: m = q.get_nowait()
        except queue.Empty: return
        t0 = time.time(); touched = []; r = dict(admitted=[])
        p = f'{W}/theories/{m["file"]}.v'; src = open(p).read()
        assert src[m['pos']:m['pos'] + len(m['old'])] == m['old']
        open(p, 'w').write(src[:m['pos']] + m['new'] + src[m['pos'] + len(m['old']):])
        res = None
        for f in affected(m['file'], order, rev):
            touched.append(f); n = 0
            while res is None:
                n += 1
                c = subprocess.run(f'nice timeout {TMO} coqc -q -w none -Q theories Verif theories/{f}.v', shell=True, cwd=W, stdout=subprocess.PIPE, stderr=subprocess.STDOUT, text=True)
                if c.returncode == 0: break
                if n > 60: res = 'stuck'; break
                if c.returncode == 124:
                    tm = subprocess.run(f'nice timeout {TMO} coqc -q -time -w none -Q theories Verif theories/{f}.v', shell=True, cwd=W, stdout=subprocess.PIPE, stderr=subprocess.STDOUT, text=True)
                    e = [int(x[1]) for x in re.finditer(r'^Chars \d+ - (\d+) ', tm.stdout, re.M)]; pos = e[-1] if e else 0
                else:
                    e = re.search(r'line (\d+), characters (\d+)-(\d+):', c.stdout)
                    if not e: res = 'unlocated'; r['msg'] = c.stdout[-300:]; break
                    b = open(f'{W}/theories/{f}.v', 'rb').read(); off = 0
                    for _ in range(int(e[1]) - 1): off = b.index(b'\n', off) + 1
                    pos = off + int(e[2])
                l = lemma_at(f'{W}/theories/{f}.v', pos)
                if l is None:
                    res = 'invalid' if f == m['file'] else 'killed by a definition'
                    r['msg'] = f + ': ' + c.stdout[-200:]; break
                name = f + '.' + l[0]; r['admitted'].append(name)
                if name in users: res = 'killed'; r['theorems'] = users[name]; break
                b = open(f'{W}/theories/{f}.v', 'rb').read()
                open(f'{W}/theories/{f}.v', 'wb').write(b[:l[1]] + b'Proof. Admitted.' + b[l[2]:])
            if res: break
        r['result'] = res or 'SURVIVED'; r['secs'] = round(time.time() - t0)
        for f in touched:
            for e in ('v', 'vo', 'vos', 'vok', 'glob'):
                if os.path.exists(f'{BASE}/theories/{f}.{e}'): shutil.copy2(f'{BASE}/theories/{f}.{e}', f'{W}/theories/{f}.{e}')
        with lock:
            open(out, 'a').write(json.dumps({**m, **r}) + '\n')
            print(m['file'], m['def'], '|', m['what'], '|', repr(m['old'][:60]), '->', r['result'], r['admitted'][-1:] , r['secs'], flush=True)

if __name__ == '__main__':
    depsf, out, seed, count, workers = sys.argv[1:6]
    deps = json.load(open(depsf)); users = {}
    for t, ds in deps.items():
        users.setdefault(t, []).append(t.split('.')[1])
        for d in ds: users.setdefault(d, []).append(t.split('.')[1])
    random.seed(int(seed)); g = graph(); q = queue.Queue(); ms = []
    for f in sys.argv[6:]:
        c = mutants(f); random.shuffle(c); ms += c[:int(count)]; print(f, len(c), flush=True)
    random.shuffle(ms)
    done = {(d['file'], d['pos'], d['new']) for d in map(json.loads, open(out))} if os.path.exists(out) else set()
    for m in ms:
        if (m['file'], m['pos'], m['new']) not in done: q.put(m)
    lock = threading.Lock()
    ts = [threading.Thread(target=worker, args=(w, q, out, lock, users, g)) for w in range(int(workers))]
    for t in ts: t.start()
    for t in ts: t.join()
