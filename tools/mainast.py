#!/usr/bin/env python3
"""Writes rocq/theories/MainText.v (/repo/{out,scan,main}.go and xdr.y as Coq strings), rocq/theories/MainProg.v
(the syntax trees of the Go files, as terms of MainAst.v) and rocq/theories/YaccProg.v (the tree of xdr.y, as a term of
YaccAst.v).  Nothing here is trusted: Coq checks the trees against the texts (MainTextP.v, YaccTextP.v)."""
import os, re, sys
sys.argv, args = [sys.argv[0], '--import'], sys.argv[1:]
sys.path.insert(0, os.path.dirname(os.path.abspath(__file__)))
from goast import lex, q, lst, opt, pair, PREC
FILES = [("out_go", "out.go"), ("scan_go", "scan.go"), ("main_go", "main.go"), ("xdr_y", "xdr.y")]

class P:
    def __init__(self, toks): self.t = toks; self.i = 0; self.nolit = 0
    def pk(self, k=0): return self.t[self.i + k] if self.i + k < len(self.t) else ("eof", "")
    def at(self, v, k=0): return self.pk(k) in (("op", v), ("kw", v))
    def eat(self, v):
        if not self.at(v): raise Exception("expected %s at %r" % (v, self.t[self.i:self.i+8]))
        self.i += 1
    def id(self):
        k, v = self.pk()
        if k != "id": raise Exception("ident expected at %r" % (self.t[self.i:self.i+8],))
        self.i += 1; return v
    def semi(self):
        if self.pk()[0] != "semi": raise Exception("semi expected at %r" % (self.t[self.i:self.i+8],))
        self.i += 1
    def type(self):
        if self.at("*"): self.i += 1; return "(XUn %s %s)" % (q("*"), self.type())
        if self.at("["): self.i += 1; self.eat("]"); return "(XSlice %s)" % self.type()
        if self.at("struct"):
            self.i += 1; self.eat("{"); fs = []
            while not self.at("}"): f = self.id(); t = self.type(); self.semi(); fs.append(pair(q(f), t))
            self.eat("}"); return "(XStruct %s)" % lst(fs)
        if self.at("interface"):
            self.i += 1; self.eat("{"); fs = []
            while not self.at("}"): f = self.id(); ps, rs = self.sig(); self.semi(); fs.append("(%s, %s, %s)" % (q(f), ps, rs))
            self.eat("}"); return "(XIface %s)" % lst(fs)
        x = self.id(); e = "(XId %s)" % q(x)
        if self.at("."): self.i += 1; e = "(XSel %s %s)" % (e, q(self.id()))
        return e
    def sig(self):
        self.eat("("); ps = []
        while not self.at(")"):
            x = self.id(); ps.append(pair(q(x), self.type()))
            if self.at(","): self.i += 1
        self.eat(")")
        rs = [self.type()] if self.pk()[0] == "id" or self.at("*") or self.at("[") else []
        return lst(ps), lst(rs)
    def expr(self, p=1):
        a = self.unary()
        while self.pk()[0] == "op" and PREC.get(self.pk()[1], 0) >= p:
            o = self.pk()[1]; self.i += 1
            b = self.expr(PREC[o] + 1)
            a = "(XBin %s %s %s)" % (q(o), a, b)
        return a
    def unary(self):
        if self.pk()[0] == "op" and self.pk()[1] in ("*", "&", "!", "-", "+", "^"):
            o = self.pk()[1]; self.i += 1
            return "(XUn %s %s)" % (q(o), self.unary())
        return self.primary()
    def primary(self):
        k, v = self.pk()
        if k == "id": self.i += 1; e = "(XId %s)" % q(v)
        elif k == "int": self.i += 1; e = "(XInt %s)" % q(v)
        elif k == "str": self.i += 1; e = "(XStr %s)" % q(v)
        elif k == "chr": self.i += 1; e = "(XChr %s)" % q(v)
        else: e = self.type()
        while True:
            if self.at("."):
                if self.at("(", 1): return e
                self.i += 1; e = "(XSel %s %s)" % (e, q(self.id()))
            elif self.at("("):
                self.i += 1; args = []
                n, self.nolit = self.nolit, 0
                while not self.at(")"):
                    args.append(self.expr())
                    if self.at(","): self.i += 1
                self.nolit = n
                self.eat(")"); e = "(XCall %s %s)" % (e, lst(args))
            elif self.at("["):
                self.i += 1; lo = hi = None
                if not self.at(":"): lo = self.expr()
                self.eat(":")
                if not self.at("]"): hi = self.expr()
                self.eat("]"); e = "(XSub %s %s %s)" % (e, opt(lo), opt(hi))
            elif self.at("{") and not self.nolit:
                self.i += 1
                if self.pk()[0] == "id" and self.at(":", 1):
                    fs = []
                    while not self.at("}"):
                        f = self.id(); self.eat(":"); fs.append(pair(q(f), self.expr()))
                        if self.at(","): self.i += 1
                    self.eat("}"); e = "(XLitK %s %s)" % (e, lst(fs))
                else:
                    es = []
                    while not self.at("}"):
                        es.append(self.expr())
                        if self.at(","): self.i += 1
                    self.eat("}"); e = "(XLit %s %s)" % (e, lst(es))
            else: return e
    def head(self):
        self.nolit += 1; e = self.expr(); self.nolit -= 1; return e
    def block(self):
        self.eat("{"); ss, one = self.stmts(); self.eat("}"); return ss, one
    def stmts(self):
        ss = []; one = False
        while not (self.at("}") or self.at("case") or self.at("default")):
            ss.append(self.stmt())
            if self.at("}") and self.t[self.i-1][0] != "semi": one = True
        return lst(ss), one
    def end(self):
        if self.at("}"): return
        self.semi()
    def stmt(self):
        if self.at("var"):
            self.i += 1; x = self.id(); t = self.type(); self.end(); return "TVar %s %s" % (q(x), t)
        if self.at("return"):
            self.i += 1; es = []
            while self.pk()[0] != "semi" and not self.at("}"):
                es.append(self.expr())
                if self.at(","): self.i += 1
            self.end(); return "TRet %s" % lst(es)
        if self.at("if"):
            self.i += 1; c = self.head(); a, _ = self.block(); b = None
            if self.at("else"): self.i += 1; b, _ = self.block()
            self.end(); return "TIf %s %s %s" % (c, a, opt(b))
        if self.at("for"):
            self.i += 1
            k = self.id(); self.eat(","); v = self.id(); self.eat(":="); self.eat("range"); e = self.head(); b, _ = self.block(); self.end()
            return "TRange %s %s %s %s" % (q(k), q(v), e, b)
        if self.at("switch"):
            self.i += 1; x = None
            if self.at(":=", 1): x = self.id(); self.eat(":=")
            e = self.head()
            ty = self.at(".")
            if ty: self.eat("."); self.eat("("); self.eat("type"); self.eat(")")
            self.eat("{"); cs = []
            while not self.at("}"):
                if self.at("default"): self.i += 1; c = "None"
                else:
                    self.eat("case"); c = q(self.id()) if ty else "(Some %s)" % self.expr()
                self.eat(":"); b, _ = self.stmts(); cs.append(pair(c, b))
            self.eat("}"); self.end()
            if ty: return "TType %s %s %s" % (opt(q(x) if x else None), e, lst(cs))
            return "TSwitch %s %s" % (e, lst(cs))
        if self.at("defer"): self.i += 1; e = self.expr(); self.end(); return "TDefer %s" % e
        es = [self.expr()]
        while self.at(","): self.i += 1; es.append(self.expr())
        if self.at(":="):
            self.i += 1; e = self.expr(); self.end()
            xs = [re.match(r'\(XId (".*")\)$', x).group(1) for x in es]
            return "TDef %s %s" % (lst(xs), e)
        if self.at("="): self.i += 1; e = self.expr(); self.end(); return "TSet %s %s" % (lst(es), e)
        if self.at("+="): self.i += 1; e = self.expr(); self.end(); return "TAdd %s %s" % (es[0], e)
        self.end(); return "TExpr %s" % es[0]
    def file(self):
        self.eat("package"); pkg = self.id(); self.semi(); ds = []
        while self.pk()[0] != "eof":
            if self.at("import"):
                self.i += 1; self.eat("("); xs = []
                while not self.at(")"): xs.append(q(self.pk()[1])); self.i += 1; self.semi()
                self.eat(")"); ds.append((None, "MImport %s" % lst(xs)))
            elif self.at("var"):
                self.i += 1; x = self.id()
                if self.at("="): self.i += 1; ds.append((None, "MInit %s %s" % (q(x), self.expr())))
                else: ds.append((None, "MVar %s %s" % (q(x), self.type())))
            elif self.at("type"): self.i += 1; x = self.id(); ds.append((None, "MType %s %s" % (q(x), self.type())))
            elif self.at("const"):
                self.i += 1; x = self.id(); self.eat("="); ds.append((None, "MConst %s %s" % (q(x), self.expr())))
            else:
                self.eat("func"); rc = None; nm = ""
                if self.at("("):
                    self.i += 1; r = self.id(); t = self.type(); self.eat(")"); rc = "(%s, %s)" % (q(r), t)
                    nm = re.findall(r'"(\w+)"', t)[-1] + "_"
                x = self.id(); ps, rs = self.sig(); b, one = self.block()
                ds.append((nm + x, "MFunc %s %s %s %s\n  %s\n  %s" % (opt(rc), q(x), ps, rs, b.replace("; T", ";\n   T"), "true" if one else "false")))
            self.semi()
        return pkg, ds

def yacc(s):
    """the tree of a grammar file"""
    toks = re.findall(r"%[a-z]+|%[{}%]|'.'|\$\$|\$\d|\"[^\"]*\"|\w+|\S", s); i = 0
    def eat(*vs):
        nonlocal i
        for v in vs:
            if toks[i] != v: raise Exception("expected %s at %r" % (v, toks[i:i+8]))
            i += 1
    def nxt():
        nonlocal i
        i += 1; return toks[i-1]
    def upto(v):
        nonlocal i
        j = i
        while toks[i] != v: i += 1
        i += 1; return toks[j:i-1]
    def go(ts, f):
        p = P(lex(" ".join(re.sub(r"^\$(\d)$", r"DOL\1", t) for t in ts) + "\n"))
        r = f(p); p.semi(); assert p.pk()[0] == "eof"
        return re.sub(r'\(XId "DOL(\d)"\)', r'(XDol \1)', r)
    eat("%{", "package"); pkg = nxt(); eat("%}", "%union", "{"); union = []
    while toks[i] != "}":
        f = nxt(); union.append(pair(q(f), go(upto(";"), P.type)))
    eat("}"); tokens = []; types = []
    while toks[i] == "%token":
        i += 1; tag = None
        if toks[i] == "<": tag = q(toks[i+1]); i += 3
        tokens.append(pair(opt(tag), q(nxt())))
    while toks[i] == "%type":
        i += 1; eat("<"); tag = nxt(); eat(">"); xs = []
        while not toks[i].startswith("%"): xs.append(q(nxt()))
        types.append(pair(q(tag), lst(xs)))
    eat("%%"); rules = []
    while toks[i] != "%%":
        x = nxt(); eat(":"); alts = []
        while True:
            rhs = []
            while toks[i] not in ("{", "|", "%%") and toks[i+1] != ":": rhs.append(q(nxt()))
            act = None
            if toks[i] == "{":
                j = i = i + 1; d = 1
                while d:
                    d += {"{": 1, "}": -1}.get(toks[i], 0); i += 1
                a = toks[j:i-1]
                act = "(ASet %s)" % go(a[2:], P.expr) if a[:2] == ["$$", "="] else "(ADo %s)" % go(a, P.expr)
            alts.append(pair(lst(rhs), opt(act)))
            if toks[i] == "|": i += 1
            else: break
        rules.append("(%s, [\n    %s])" % (q(x), ";\n    ".join(alts)))
    return "mkYFile %s\n  %s\n  %s\n  %s\n  [%s]" % (q(pkg), lst(union), lst(tokens), lst(types), ";\n   ".join(rules))

def main(repo="/repo", dest="/verif/rocq/theories"):
    out = ["(** The hand-written files of package main of /repo, verbatim (made by tools/mainast.py). *)",
           "From Coq Require Import List String Ascii.", "From Verif Require Import RepoText.", "Import ListNotations.", "Open Scope string_scope.", ""]
    prog = ["(** Syntax trees of the Go files in MainText.v (made by tools/mainast.py; MainTextP.v checks that they are the",
            "    files).  One definition for each function. *)",
            "From Coq Require Import List String.", "From Verif Require Import MainAst.", "Import ListNotations.", "Open Scope string_scope.", ""]
    for name, path in FILES:
        s = open(repo + "/" + path).read()
        assert s.endswith("\n") and all(ord(c) < 128 for c in s)
        out.append("(** /repo/%s *)" % path)
        out.append("Definition %s : string := text [" % name)
        out.append(";\n".join('  "%s"' % l.replace('"', '""') for l in s[:-1].split("\n")))
        out.append("].\n")
        if path.endswith(".y"):
            open(dest + "/YaccProg.v", "w").write("\n".join(["(** The tree of /repo/xdr.y (made by tools/mainast.py; YaccTextP.v checks that it is the file). *)",
              "From Coq Require Import List String.", "From Verif Require Import MainAst YaccAst.", "Import ListNotations.", "Open Scope string_scope.", "",
              "Definition xdr_y_prog : yfile := %s.\n" % yacc(s)]))
            continue
        pkg, ds = P(lex(s)).file()
        pre = name[:-3]; names = []
        prog.append("(** ** /repo/%s *)" % path)
        for fn, d in ds:
            if fn is None: names.append(d)
            else:
                dn = "%s_%s" % (pre, fn); names.append(dn)
                prog.append("Definition %s : md := %s.\n" % (dn, d))
        prog.append("Definition %s_prog : mfile := mkMFile %s [\n  %s].\n" % (pre, q(pkg), ";\n  ".join(names)))
    open(dest + "/MainText.v", "w").write("\n".join(out))
    open(dest + "/MainProg.v", "w").write("\n".join(prog))
main(*args)
