#!/usr/bin/env python3
"""Writes rocq/theories/YaccTab.v: the LALR(1) automaton of /repo/xdr.y, with default reductions like those of goyacc.
Nothing here is trusted: Coq checks the tables against the grammar (YaccLR.v, lr_ok)."""
import re, sys
from collections import Counter, defaultdict

def grammar(path):
    s = open(path).read().split("%%")[1]
    toks = re.findall(r"'.'|\$\$|\$\d|\"[^\"]*\"|\w+|\S", s); i = 0; G = []
    while i < len(toks):
        lhs = toks[i]; assert toks[i+1] == ":"; i += 2
        while True:
            rhs = []
            while i < len(toks) and toks[i] not in ("{", "|") and not (i + 1 < len(toks) and toks[i+1] == ":"): rhs.append(toks[i]); i += 1
            if i < len(toks) and toks[i] == "{":
                d = 1; i += 1
                while d: d += {"{": 1, "}": -1}.get(toks[i], 0); i += 1
            G.append((lhs, rhs))
            if i < len(toks) and toks[i] == "|": i += 1
            else: break
    return G

def lalr(G):
    G = G + [("$accept", [G[0][0]])]
    nts = {l for l, _ in G}
    nullable = set(); first = defaultdict(set); ch = True
    while ch:
        ch = False
        for l, r in G:
            n = len(first[l]), l in nullable
            for X in r:
                if X not in nts: first[l].add(X); break
                first[l] |= first[X]
                if X not in nullable: break
            else: nullable.add(l)
            ch |= n != (len(first[l]), l in nullable)
    def firsts(b, a):
        out = set()
        for X in b:
            if X not in nts: out.add(X); return out
            out |= first[X]
            if X not in nullable: return out
        out.add(a); return out
    def closure(I):
        I = {c: set(l) for c, l in I.items()}; ch = True
        while ch:
            ch = False
            for (k, i), las in list(I.items()):
                r = G[k][1]
                if i < len(r) and r[i] in nts:
                    bs = set().union(*[firsts(r[i+1:], a) for a in las])
                    for k2, (l, _) in enumerate(G):
                        if l == r[i]:
                            c = I.setdefault((k2, 0), set())
                            if not bs <= c: c |= bs; ch = True
        return I
    start = closure({(len(G) - 1, 0): {"$end"}})
    states = [start]; index = {frozenset(start): 0}; edges = [{}]; work = [0]
    while work:
        s = work.pop(0); I = states[s]
        for X in sorted({G[k][1][i] for k, i in I if i < len(G[k][1])}):
            J = closure({(k, i + 1): l for (k, i), l in I.items() if i < len(G[k][1]) and G[k][1][i] == X})
            key = frozenset(J)
            if key not in index: index[key] = len(states); states.append(J); edges.append({}); work.append(index[key])
            else:
                t = index[key]; old = states[t]
                if any(not J[c] <= old[c] for c in J):
                    for c in J: old[c] |= J[c]
                    if t not in work: work.append(t)
            edges[s][X] = index[key]
    tab = []
    for s, I in enumerate(states):
        sh = {X: t for X, t in edges[s].items() if X not in nts}; go = {X: t for X, t in edges[s].items() if X in nts}
        red = {}
        for (k, i), las in I.items():
            if i == len(G[k][1]):
                for a in las:
                    if a in red or a in sh: raise Exception("conflict in state %d on %s" % (s, a))
                    red[a] = k
        c = Counter(k for k in red.values() if k != len(G) - 1); d = None
        if c: d = max(c, key=lambda k: c[k]); red = {a: k for a, k in red.items() if k != d}
        tab.append((I, sh, red, d, go))
    # ranks
    rank = [0] * len(tab); ch = True; rounds = 0
    while ch:
        ch = False; rounds += 1; assert rounds < 100
        for s, (I, sh, red, d, go) in enumerate(tab):
            for k in set(red.values()) | ({d} if d is not None else set()):
                if k == len(G) - 1: continue
                l, r = G[k]
                for s0 in range(len(tab)):
                    if (k, 0) in tab[s0][0] and (r or s0 == s) and l in tab[s0][4]:
                        need = 2 + rank[tab[s0][4][l]] - len(r)
                        if rank[s] < need: rank[s] = need; ch = True
    return G, nts, nullable, first, tab, rank

def main(repo="/repo", dest="/verif/rocq/theories"):
    G, nts, nullable, first, tab, rank = lalr(grammar(repo + "/xdr.y"))
    syms = []
    def q(x):
        if x not in syms: syms.append(x)
        return "x%d" % syms.index(x)
    lst = lambda l: "[" + "; ".join(l) + "]"
    asc = lambda d: lst("(%s, %d)" % (q(a), k) for a, k in sorted(d.items()))
    ss = []
    for I, sh, red, d, go in tab:
        ss.append("mkLR %s\n    %s %s %s\n    %s" % (lst("(%d, %d, %s)" % (k, i, lst(map(q, sorted(l)))) for (k, i), l in sorted(I.items())), asc(sh), asc(red),
                  "None" if d is None else "(Some %d)" % d, asc(go)))
    body = "Definition xdr_tab : lrtab := mkTab [\n  %s]\n  %s\n  %s\n  %s.\n" % (";\n  ".join(ss), lst(map(q, sorted(nullable))),
        lst("(%s, %s)" % (q(X), lst(map(q, sorted(first[X])))) for X in sorted(nts)), lst(map(str, rank)))
    out = ["(** The LALR(1) automaton of /repo/xdr.y (made by tools/lalr.py; checked by [lr_ok] of YaccLR.v).  State 0 first. *)",
           "From Coq Require Import List String.", "From Verif Require Import YaccLR.", "Import ListNotations.", "Open Scope string_scope.", ""]
    out += ["Definition x%d := \"%s\"." % (i, x) for i, x in enumerate(syms)]
    open(dest + "/YaccTab.v", "w").write("\n".join(out) + "\n\n" + body)
    print(len(tab), "states; ranks up to", max(rank))
if __name__ == "__main__": main(*sys.argv[1:])
