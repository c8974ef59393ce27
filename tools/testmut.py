#!/usr/bin/env python3
"""Wrong tests: edits the trees of TestTree.v in a scratch copy, leaves out the comparison with the text, and recompiles
the proofs of C77.  A mutant is killed when a proof fails.
usage: testmut.py out.jsonl seed count"""
import json, os, random, re, shutil, subprocess, sys
out, seed, count = sys.argv[1], int(sys.argv[2]), int(sys.argv[3])
base = '/verif/rocq/theories'
w = '/tmp/mut/tm'
shutil.rmtree(w, ignore_errors=True); os.makedirs(w + '/theories')
for f in os.listdir(base):
    if f.endswith('.vo'): os.symlink(base + '/' + f, w + '/theories/' + f)
for f in ('TestTree', 'TestP'): os.remove(w + '/theories/' + f + '.vo')
tree = open(base + '/TestTree.v').read()
p = open(base + '/TestP.v').read()
for l in ('xdr_tests_text', 'rpc_fuzz_text', 'nfs_fuzz_text'): p = re.sub(r'Lemma %s.*?Qed\.\n' % l, '', p, flags=re.S)
open(w + '/theories/TestP.v', 'w').write(p)
ms = []
lines = tree.split('\n')
d = ''
for i, l in enumerate(lines):
    m = re.match(r'Definition (\w+)', l)
    if m: d = m.group(1)
    if i < 14 or l.startswith('(**'): continue
    for a, b in [('NoError', 'Error'), ('"Error" [EId', '"NoError"'), ('"Error"', '"NoError"'), ('"!="', '"=="'), ('XdrString', 'XdrVarArray'), ('XdrVarArray', 'XdrString'), ('"xw"', '"xr"'), ('"xr"', '"xw"'),
                 ('"100"', '"2"'), ('"100"', '"99"'), ('"6"', '"60"'), ('"6"', '"16"'), ('MakeReader', 'MakeWriter'), ('EncodeBuf', 'DecodeBuf'), ('DecodeBuf', 'EncodeBuf'), ('EId "s"; EId', 'EId "newString"; EId'),
                 ('EId "newString"', 'EId "s"'), ('EId "newArray"', 'EId "v"'), ('amp "x"', 'amp "y"'), ('amp "y"', 'amp "x"'), ('EId "data"', 'EId "res"'), ('EUn "!" (', '('), ('TRet', 'TExpr (call1 (EId "panic") [EId "err"])'),
                 ('EId "x"; EId "y"', 'EId "x"; EId "x"'), ('EId "res"; EId "err"', 'EId "err"; EId "res"'), ('EInt "1"', 'EInt "5"'), ('"Add"', '"Fuzz"'), ('TLit bytes_t []', 'TLit bytes_t [EInt "1"]'),
                 ('"Nextentry"', '"Name"'), ('AUTH_UNIX', 'AUTH_NONE'), ('EInt "2"', 'EInt "0"'), ('"READDIRPLUS3res"', '"READDIR3res"'), ('"Rpc_msg"', '"Call_body"'), ('EInt "256"', 'EInt "1"')]:
        for m in re.finditer(re.escape(a), l):
            ms.append((i, d, 'line %d: %s -> %s' % (i + 1, a, b), l[:m.start()] + b + l[m.end():]))
    if re.match(r'   (T|if_err).*;$', l): ms.append((i, d, 'line %d dropped: %s' % (i + 1, l.strip()), ''))
random.seed(seed); random.shuffle(ms)
def coqc(f, t):
    try: r = subprocess.run(['coqc', '-Q', 'theories', 'Verif', 'theories/%s.v' % f], cwd=w, capture_output=True, text=True, timeout=t)
    except subprocess.TimeoutExpired: return 'timeout'
    return '' if r.returncode == 0 else r.stderr + r.stdout
with open(out, 'a') as o:
    for i, d, what, new in ms[:count]:
        ls = list(lines); ls[i] = new
        open(w + '/theories/TestTree.v', 'w').write('\n'.join(ls))
        e = coqc('TestTree', 60)
        if e: continue
        e = coqc('TestP', 600); lem = ''
        if e and e != 'timeout':
            m = re.search(r'line (\d+)', e)
            for l in p.split('\n')[:int(m.group(1))]:
                k = re.match(r'(?:Lemma|Definition|Fixpoint|Inductive) (\w+)', l)
                if k: lem = k.group(1)
        o.write(json.dumps(dict(definition='TestTree.' + d, edit=what, result='SURVIVED' if not e else 'killed', proof='TestP.' + lem if e != 'timeout' else 'timeout')) + '\n'); o.flush()
