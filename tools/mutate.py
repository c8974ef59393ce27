#!/usr/bin/env python3
"""Mutation testing of the model in a scratch copy.

usage: mutate.py mutations.json [jobs]

Each mutation is {"file","def","old","new","edit","claim"}: replace the (unique) text "old"
in theories/<file>.v by "new".  The scratch copy is rebuilt; every lemma whose proof fails is
admitted there and the build continues, so that `Print Assumptions` under each property
theorem shows whether it still has a proof.  A line per mutation is appended to OUT.
"""
import json, os, re, subprocess, sys, shutil, time
BASE = '/tmp/mut/base'; WORK = '/tmp/mut/work'
OUT = os.environ.get('MUT_OUT', '/tmp/mut/out.jsonl')
JOBS = sys.argv[2] if len(sys.argv) > 2 else '2'
TMO = 240

def sh(cmd, **k):
    return subprocess.run(cmd, shell=True, stdout=subprocess.PIPE, stderr=subprocess.STDOUT, text=True, **k)

def prep_base():
    os.makedirs('/tmp/mut', exist_ok=True)
    sh(f'rm -rf {BASE} && cp -a /verif/rocq {BASE}')
    r = sh(f'cd {BASE} && coq_makefile -f _CoqProject -o Makefile && make -j{JOBS}')
    assert r.returncode == 0, r.stdout[-2000:]

def locate_timeout(f):
    r = sh(f'cd {WORK} && timeout {TMO} coqc -q -time -Q theories Verif {f}')
    ends = [int(m[1]) for m in re.finditer(r'^Chars \d+ - (\d+) ', r.stdout, re.M)]
    return (ends[-1] if ends else 0), True

def patch(f, pos):
    """Admit the proof containing byte offset pos; returns lemma name or None."""
    s = open(f'{WORK}/{f}', 'rb').read()
    starts = [m.start() for m in re.finditer(rb'\bProof\b[^.]*\.', s) if m.start() <= pos + 1]
    if not starts: return None
    a = starts[-1]
    m = re.search(rb'\b(Qed|Defined|Admitted)\.', s[a:])
    if not m: return None
    b = a + m.end()
    if b < pos: return None
    if b'Admitted' in m[0]: return None
    names = re.findall(rb'\b(?:Lemma|Theorem|Example|Corollary|Fact|Definition|Fixpoint)\s+([A-Za-z0-9_\']+)', s[:a])
    s = s[:a] + b'Proof. Admitted.' + s[b:]
    open(f'{WORK}/{f}', 'wb').write(s)
    return names[-1].decode()

def run(m):
    sh(f'rm -rf {WORK} && cp -a {BASE} {WORK}')
    p = f'{WORK}/theories/{m["file"]}.v'
    s = open(p).read()
    if s.count(m['old']) != 1:
        return dict(error=f'old text occurs {s.count(m["old"])} times')
    open(p, 'w').write(s.replace(m['old'], m['new']))
    admitted = []
    t0 = time.time()
    for it in range(150):
        r = sh(f'cd {WORK} && make -k -j{JOBS} COQC="timeout {TMO} coqc"')
        if r.returncode == 0: break
        todo = {}
        for e in re.finditer(r'File "\./(theories/\w+\.v)", line (\d+), characters (\d+)-(\d+):\n(Error|[^\n]*\nError)', r.stdout):
            s = open(f'{WORK}/{e[1]}', 'rb').read()
            off = 0
            for _ in range(int(e[2]) - 1): off = s.index(b'\n', off) + 1
            todo.setdefault(e[1], off + int(e[3]))
        for e in re.finditer(r'\[[^\]]*: (theories/\w+)\.vo\] Error 124', r.stdout):
            f = e[1] + '.v'
            if f not in todo: todo[f], _ = locate_timeout(f)
        if not todo: return dict(error='cannot locate: ' + r.stdout[-1500:], admitted=admitted)
        for f, pos in todo.items():
            n = patch(f, pos)
            if n is None:
                return dict(error=f'error outside a proof in {f} at {pos}: ' + r.stdout[-1200:], admitted=admitted)
            admitted.append(f[9:-2] + '.' + n)
    else:
        return dict(error='too many passes', admitted=admitted)
    failed = []; total = 0
    for f in sorted(os.listdir(f'{WORK}/theories')):
        if not re.match(r'P_\w+\.v$', f): continue
        if f'theories/{f}' not in open(f'{WORK}/_CoqProject').read(): continue
        if os.path.getmtime(f'{WORK}/theories/{f}o') < t0:  # not rebuilt: nothing it depends on changed
            total += len(re.findall(r'^Print Assumptions (\w+)\.', open(f'{WORK}/theories/{f}').read(), re.M)); continue
        r = sh(f'cd {WORK} && coqc -q -Q theories Verif theories/{f}')
        names = re.findall(r'^Print Assumptions (\w+)\.', open(f'{WORK}/theories/{f}').read(), re.M)
        blocks = re.findall(r'^(Closed under the global context|Axioms:)', r.stdout, re.M)
        if len(names) != len(blocks): return dict(error=f'{f}: {len(names)} theorems, {len(blocks)} reports', admitted=admitted)
        total += len(names)
        failed += [n for n, b in zip(names, blocks) if b == 'Axioms:']
    return dict(admitted=admitted, failed=failed, total=total, secs=round(time.time() - t0))

if __name__ == '__main__':
    if not os.environ.get('MUT_KEEP'): prep_base()
    for m in json.load(open(sys.argv[1])):
        r = run(m)
        with open(OUT, 'a') as o: o.write(json.dumps({**m, **r}) + '\n')
        print(m['file'], m['def'], '|', m['edit'], '->', r.get('error', '')[:300] or r['failed'], flush=True)
