#!/usr/bin/env python3
"""Mutants of the text itself: edits a copy of a file of /repo, makes SrcText.v and SrcProg.v (MainText.v, MainProg.v
and YaccProg.v for package main) from it and recompiles the proofs about the text.  A mutant is killed when a proof fails.
usage: gomut.py out.jsonl seed count workers file.go Coqfile..."""
import json, os, random, re, shutil, subprocess, sys, threading, queue
here = os.path.dirname(os.path.abspath(__file__))
out, seed, count, workers, gofile = sys.argv[1], int(sys.argv[2]), int(sys.argv[3]), int(sys.argv[4]), sys.argv[5]
coqs = sys.argv[6:]
base = '/verif/rocq/theories'
src = open('/repo/' + gofile).read()

main = '/' not in gofile
made = ['MainText', 'MainProg', 'YaccProg'] if main else ['SrcText', 'SrcProg']
check = ['MainTextP', 'YaccTextP'] if main else ['SrcTextP']
if gofile.startswith('example'): made, check = ['ExText', 'ExTree'], ['ExTextP']
if gofile == 'xdr.y': made, check = ['MainText', 'YaccProg'], ['YaccTextP']
if gofile in ('out.go', 'scan.go'): made, check = ['MainText', 'MainProg'], ['MainTextP']

def ymutants():
    r = []; body = False; rule = ''
    lines = src.split('\n')
    syms = ['CONST', 'IDENT', 'val', 'decl', 'typespec', 'varlen']
    for i, l in enumerate(lines):
        if l.strip() == '%%': body = True; continue
        if not body:
            m = re.match(r'%token (?:<\w+> )?(\S+)', l)
            if m: r.append((i, 0, l, '', 'token not declared', m.group(1)))
            m = re.match(r'%type <(\w+)>', l)
            if m: r.append((i, 0, l, '', 'type not declared', m.group(1)))
            continue
        m = re.match(r'(\w+):', l)
        if m: rule = m.group(1)
        for m in re.finditer(r'\$(\d)', l):
            for d in (-1, 1): r.append((i, m.start(), m.group(0), '$%d' % (int(m.group(1)) + d), 'other part', rule))
        brace = len(l) if '{ ' not in l else l.index('{ ')
        for m in re.finditer(r"'.'|\b\w+\b(?!:)", l[:brace]):
            t = m.group(0)
            r.append((i, m.start(), t, '', 'symbol dropped', rule))
            if t in syms: r.append((i, m.start(), t, syms[(syms.index(t) + 1) % len(syms)], 'other symbol', rule))
            if t.startswith("'") or t.startswith('KW'): r.append((i, m.start(), t, "';'" if t != "';'" else "','", 'other token', rule))
            r.append((i, m.start(), t, t + ' ' + t, 'symbol twice', rule))
        for m in re.finditer(r'\b(emit|declType|type)(\w+)', l[brace:]):
            o = {'emitEnum': 'emitStruct', 'emitStruct': 'emitUnion', 'emitUnion': 'emitEnum', 'typeInt': 'typeHyper', 'typeHyper': 'typeInt', 'typeFloat': 'typeDouble', 'typeDouble': 'typeFloat', 'declTypeArray': 'declTypeVarArray',
                 'declTypeVarArray': 'declTypeArray', 'declTypeOpaqueArray': 'declTypeOpaqueVarArray', 'declTypeOpaqueVarArray': 'declTypeString', 'declTypeString': 'declTypeOpaqueVarArray', 'declTypePtr': 'declTypeTypespec', 'declTypeTypespec': 'declTypePtr',
                 'typeBool': 'typeFloat', 'typeQuadruple': 'typeDouble'}.get(m.group(0))
            if o: r.append((i, brace + m.start(), m.group(0), o, 'other form', rule))
        for a, b in [('true', 'false'), ('false', 'true'), ('nil', '$1'), ('append($1, ', 'append(nil, '), ('""', '"0"')]:
            if a in l: r.append((i, l.index(a), a, b, 'constant', rule))
        if l.startswith('| ') and i + 1 < len(lines) and lines[i + 1].startswith('  {'): r.append((i, 0, l, '|' + l[1:] + ' /**/ ' + lines[i + 1].strip() + ' ' + l, 'alternative twice', rule))
        if l.startswith('  {'): r.append((i, 0, l, '', 'action dropped', rule))
    return r

def mutants():
    if gofile.endswith('.y'): return ymutants()
    r = []
    lines = src.split('\n')
    pos = 0; infun = ''
    for i, l in enumerate(lines):
        m = re.match(r'func (?:\([^)]*\) )?(\w+)', l)
        if m: infun = m.group(1)
        if l.startswith('}'): fn = infun; infun = ''
        if infun and not m:
            code = re.sub(r'"[^"]*"', lambda m: ' ' * len(m.group(0)), l)
            code = re.sub(r'//.*', lambda m: ' ' * len(m.group(0)), code)
            for a, b in [('<', '<='), ('>', '>='), ('<=', '<'), ('>=', '>'), ('==', '!='), ('!=', '=='), ('&&', '||'), ('||', '&&'), ('-', '+'), ('%', '-'), ('|', '&'), ('&', '|'), ('<<', '-')]:
                for m2 in re.finditer(r'(?<![<>=!&|+:%*/-])' + re.escape(a) + r'(?![<>=&|+-])', code):
                    if a in '<>-|&' and not re.match(r'.*[\w)\]] *$', code[:m2.start()]): continue
                    r.append((i, m2.start(), a, b, 'operator', infun))
            for m2 in re.finditer(r'(?<![\w])(0x)?\d+\b', code):
                if m2.group(0).startswith('0x'): continue
                r.append((i, m2.start(), m2.group(0), str(int(m2.group(0)) + 1), 'number plus one', infun))
            for a, b in [('true', 'false'), ('false', 'true')]:
                for m2 in re.finditer(r'\b%s\b' % a, code): r.append((i, m2.start(), a, b, 'constant', infun))
            for m2 in re.finditer(r':n\]', code): r.append((i, m2.start(), ':n]', ']', 'capacity kept', infun))
            for m2 in re.finditer(r'Uint32|uint32|int32|MaxUint32', code):
                b = {'Uint32': 'Uint64', 'uint32': 'uint64', 'int32': 'int64', 'MaxUint32': 'MaxInt32'}[m2.group(0)]
                if re.match(r'\w', code[m2.start()-1:m2.start()] or ' '): continue
                r.append((i, m2.start(), m2.group(0), b, 'type', infun))
            for m2 in re.finditer(r'"[^"]+"', l): r.append((i, m2.start(), m2.group(0), m2.group(0)[:-1] + '_"', 'string', infun))
            if re.match(r'^\t+[^{}]*$', l) and l.strip() and not l.strip().startswith('//') and not re.match(r'\s*(var|\w+ :=|\w+:)', l):
                r.append((i, 0, l, '', 'line dropped', infun))
            if re.match(r'^\t+if .*\{$', l):
                m2 = re.match(r'^(\t+if )(.*)( \{)$', l)
                if ';' not in m2.group(2): r.append((i, len(m2.group(1)), m2.group(2), '!(' + m2.group(2) + ')', 'condition negated', infun))
    return r

def run(k, mu):
    i, c, a, b, what, fn = mu
    d = '/tmp/gm/%s/%d' % (gofile.replace('/', '_'), k)
    shutil.rmtree(d, ignore_errors=True); os.makedirs(d + '/theories'); os.makedirs(d + '/repo')
    for f in ['xdr', 'rfc1057', 'rfc1813', 'example']:
        shutil.copytree('/repo/' + f, d + '/repo/' + f)
    for f in ['out.go', 'scan.go', 'main.go', 'xdr.y']:
        shutil.copy('/repo/' + f, d + '/repo/' + f)
    lines = src.split('\n'); l = lines[i]
    assert l[c:c + len(a)] == a, (l, c, a)
    lines[i] = l[:c] + b + l[c + len(a):]
    open(d + '/repo/' + gofile, 'w').write('\n'.join(lines))
    for f in os.listdir(base):
        if f.endswith('.vo'): os.symlink(base + '/' + f, d + '/theories/' + f)
    res = {'file': gofile, 'line': i + 1, 'def': fn, 'what': what, 'old': a.strip(), 'new': b.strip(), 'text': lines[i].strip()}
    p = subprocess.run(['python3', here + ('/mainast.py' if main else '/goast.py'), d + '/repo', d + '/theories'], capture_output=True, text=True)
    if p.returncode: res.update(result='invalid', why=p.stderr[-200:])
    else:
        res['result'] = 'SURVIVED'
        for f in made + check + coqs:
            t = '%s/theories/%s' % (d, f)
            if os.path.islink(t + '.vo'): os.unlink(t + '.vo')
            if f not in made: shutil.copy('%s/%s.v' % (base, f), t + '.v')
            try: p = subprocess.run(['coqc', '-q', '-Q', 'theories', 'Verif', 'theories/%s.v' % f], cwd=d, capture_output=True, text=True, timeout=900)
            except subprocess.TimeoutExpired: res.update(result='timeout', proof=f); break
            if p.returncode:
                m = re.search(r'line (\d+)', p.stderr); ln = int(m.group(1)) if m else 0
                nm = ''
                for j, x in enumerate(open(t + '.v').read().split('\n')):
                    if j >= ln: break
                    m = re.match(r'\s*(?:Lemma|Theorem|Example|Definition) (\w+)', x)
                    if m: nm = m.group(1)
                res.update(result='killed', proof='%s.%s' % (f, nm)); break
    shutil.rmtree(d, ignore_errors=True)
    return res

ms = mutants(); random.Random(seed).shuffle(ms)
if count: ms = ms[:count]
print(len(ms), 'mutants')
q = queue.Queue(); [q.put(x) for x in enumerate(ms)]
lock = threading.Lock()
def work():
    while True:
        try: k, mu = q.get_nowait()
        except queue.Empty: return
        r = run(k, mu)
        with lock:
            open(out, 'a').write(json.dumps(r) + '\n'); print(r['line'], r['text'], '->', r['result'], r.get('proof', r.get('why', '')), flush=True)
ts = [threading.Thread(target=work) for _ in range(workers)]
[t.start() for t in ts]; [t.join() for t in ts]
