#!/usr/bin/env python3
"""Writes rocq/theories/SrcText.v (hand-written Go files of /repo as Coq strings) and
rocq/theories/SrcProg.v (their syntax trees, as terms of SrcAst.v); likewise ExText.v and ExTree.v for the example
programs.  Nothing here is trusted: the trees are checked against the texts by Coq (SrcTextP.v, ExTextP.v)."""
import re, sys
FILES = [("lib_go", "xdr/lib.go"), ("helper_go", "xdr/helper.go"), ("xtypes_go", "xdr/types.go"),
         ("rtypes_go", "rfc1057/types.go"),
         ("client_go", "rfc1057/client.go"), ("server_go", "rfc1057/server.go")]
KW = set("break case chan const continue default defer else fallthrough for func go goto if import interface map package range return select struct switch type var".split())
OPS = ["<<=", ">>=", "&^=", "...", "<<", ">>", "&^", "+=", "-=", "*=", "/=", "%=", "&=", "|=", "^=", "&&", "||", "<-", "++", "--", "==", "!=", "<=", ">=", ":=",
       "+", "-", "*", "/", "%", "&", "|", "^", "<", ">", "=", "!", "~", "(", "[", "{", ",", ".", ")", "]", "}", ":"]

def lex(s):
    toks = []; i = 0
    def ends():
        if not toks: return False
        k, v = toks[-1]
        return k in ("id", "int", "str", "chr") or (k == "kw" and v in ("break", "continue", "fallthrough", "return")) or (k == "op" and v in (")", "]", "}", "++", "--"))
    while i < len(s):
        c = s[i]
        if c in " \t\r": i += 1; continue
        if c == "\n":
            if ends(): toks.append(("semi", "\n"))
            i += 1; continue
        if s.startswith("//", i):
            i = s.index("\n", i); continue
        m = re.match(r"[A-Za-z_]\w*", s[i:])
        if m:
            w = m.group(0); toks.append(("kw" if w in KW else "id", w)); i += len(w); continue
        m = re.match(r"0x[0-9a-fA-F]+|\d+", s[i:])
        if m: toks.append(("int", m.group(0))); i += len(m.group(0)); continue
        m = re.match(r'"(\\.|[^"\\\n])*"|`[^`]*`', s[i:])
        if m: toks.append(("str", m.group(0))); i += len(m.group(0)); continue
        m = re.match(r"'(\\.|[^'\\\n])*'", s[i:])
        if m: toks.append(("chr", m.group(0))); i += len(m.group(0)); continue
        if c == ";": toks.append(("semi", ";")); i += 1; continue
        for o in OPS:
            if s.startswith(o, i): toks.append(("op", o)); i += len(o); break
        else: raise Exception("lex " + s[i:i+20])
    return toks

def q(s): return '"%s"' % s.replace('"', '""')
def lst(xs): return "[" + "; ".join(xs) + "]"
def opt(x): return "None" if x is None else "(Some %s)" % x
def pair(a, b): return "(%s, %s)" % (a, b)
PREC = {"||": 1, "&&": 2, "==": 3, "!=": 3, "<": 3, "<=": 3, ">": 3, ">=": 3, "+": 4, "-": 4, "|": 4, "^": 4, "*": 5, "/": 5, "%": 5, "<<": 5, ">>": 5, "&": 5, "&^": 5}

class P:
    def __init__(self, toks): self.t = toks; self.i = 0
    def pk(self, k=0): return self.t[self.i + k] if self.i + k < len(self.t) else ("eof", "")
    def at(self, v, k=0):
        return self.pk(k) in (("op", v), ("kw", v))
    def eat(self, v):
        if not self.at(v): raise Exception("expected %s at %r" % (v, self.t[self.i:self.i+8]))
        self.i += 1
    def id(self):
        k, v = self.pk()
        if k != "id": raise Exception("ident expected at %r" % (self.t[self.i:self.i+8],))
        self.i += 1; return v
    def semi(self):
        if self.pk()[0] != "semi": raise Exception("semi expected at %r" % (self.t[self.i:self.i+8],))
        self.i += 1
    # types
    def type(self):
        if self.at("*"): self.i += 1; return "(EUn %s %s)" % (q("*"), self.type())
        if self.at("["):
            self.i += 1
            if self.at("]"): self.i += 1; return "(TSlice %s)" % self.type()
            n = self.expr(); self.eat("]"); return "(TArr %s %s)" % (n, self.type())
        if self.at("map"):
            self.i += 1; self.eat("["); k = self.type(); self.eat("]"); return "(TMap %s %s)" % (k, self.type())
        if self.at("func"): self.i += 1; return "(TFunc %s)" % self.sig()
        if self.at("struct"):
            self.i += 1; self.eat("{"); fs = []
            while not self.at("}"):
                f = self.id(); t = self.type()
                if not fs and self.at("}"): self.eat("}"); return "(TStruct1 %s %s)" % (q(f), t)
                self.semi(); fs.append(pair(q(f), t))
            self.eat("}"); return "(TStruct %s)" % lst(fs)
        if self.at("interface"):
            self.i += 1; self.eat("{"); fs = []
            while not self.at("}"):
                f = self.id(); t = "(TFunc %s)" % self.sig(); self.semi(); fs.append(pair(q(f), t))
            self.eat("}"); return "(TIface %s)" % lst(fs)
        x = self.id(); e = "(EId %s)" % q(x)
        if self.at("."): self.i += 1; e = "(ESel %s %s)" % (e, q(self.id()))
        return e
    def params(self):
        self.eat("("); ps = []
        while not self.at(")"):
            names = [self.id()]
            while self.at(","): self.i += 1; names.append(self.id())
            ps.append(pair(lst([q(n) for n in names]), self.type()))
            if self.at(","): self.i += 1
        self.eat(")"); return lst(ps)
    def sig(self):
        ps = self.params()
        if self.at("("): return "%s %s true" % (ps, self.params())
        if self.pk()[0] == "id" or self.at("*") or self.at("[") or self.at("map") or self.at("func"):
            return "%s [([], %s)] false" % (ps, self.type())
        return "%s [] false" % ps
    # expressions
    def expr(self, p=1):
        a = self.unary()
        while self.pk()[0] == "op" and PREC.get(self.pk()[1], 0) >= p:
            o = self.pk()[1]; self.i += 1
            b = self.expr(PREC[o] + 1)
            a = "(EBin %s %s %s)" % (q(o), a, b)
        return a
    def unary(self):
        if self.pk()[0] == "op" and self.pk()[1] in ("*", "&", "!", "-", "+", "^"):
            o = self.pk()[1]; self.i += 1
            return "(EUn %s %s)" % (q(o), self.unary())
        return self.primary()
    def primary(self):
        k, v = self.pk()
        if k == "id": self.i += 1; e = "(EId %s)" % q(v)
        elif k == "int": self.i += 1; e = "(EInt %s)" % q(v)
        elif k == "str": self.i += 1; e = "(EStr %s)" % q(v)
        elif self.at("("): self.i += 1; e = "(EParen %s)" % self.expr(); self.eat(")")
        else: e = self.type()
        while True:
            if self.at("."):
                self.i += 1
                if self.at("("): self.i += 1; e = "(EAssert %s %s)" % (e, self.type()); self.eat(")")
                else: e = "(ESel %s %s)" % (e, q(self.id()))
            elif self.at("("):
                self.i += 1; args = []; dots = "false"
                while not self.at(")"):
                    args.append(self.expr())
                    if self.at("..."): self.i += 1; dots = "true"
                    if self.at(","): self.i += 1
                self.eat(")"); e = "(ECall %s %s %s)" % (e, lst(args), dots)
            elif self.at("["):
                self.i += 1
                parts = [None]; n = 0
                if not self.at(":"): parts[0] = self.expr()
                if self.at("]"): self.i += 1; e = "(EIdx %s %s)" % (e, parts[0]); continue
                while self.at(":"):
                    self.i += 1
                    parts.append(None if self.at(":") or self.at("]") else self.expr())
                self.eat("]")
                while len(parts) < 3: parts.append(None)
                e = "(ESub %s %s %s %s)" % (e, opt(parts[0]), opt(parts[1]), opt(parts[2]))
            elif self.at("{") and self.complit():
                self.i += 1; fs = []
                while not self.at("}"):
                    f = self.id(); self.eat(":"); x = self.expr(); self.eat(","); fs.append(pair(q(f), x))
                self.eat("}"); e = "(EComp %s %s)" % (e, lst(fs))
            else: return e
    def complit(self):
        return self.pk(1)[0] == "id" and self.pk(2) == ("op", ":")
    # statements
    def block(self):
        self.eat("{"); ss = []
        one = False
        while not self.at("}"):
            ss.append(self.stmt())
            if self.at("}") and self.t[self.i-1][0] != "semi": one = True
        self.eat("}"); return lst(ss), one
    def end(self):
        if self.at("}"): return
        self.semi()
    def stmt(self):
        r = self.stmt1()
        return r
    def stmt1(self):
        if self.pk()[0] == "id" and self.at(":", 1):
            l = self.id(); self.eat(":"); return "SLabel %s" % q(l)
        if self.at("var"):
            self.i += 1; x = self.id(); t = self.type(); self.end(); return "SVar %s %s" % (q(x), t)
        if self.at("return"):
            self.i += 1; es = []
            while self.pk()[0] != "semi":
                es.append(self.expr())
                if self.at(","): self.i += 1
            self.end(); return "SRet %s" % lst(es)
        if self.at("if"):
            self.i += 1; c = self.expr(); a, _ = self.block(); b = None
            if self.at("else"): self.i += 1; b, _ = self.block()
            self.end(); return "SIf %s %s %s" % (c, a, opt(b))
        if self.at("for"):
            self.i += 1
            if self.at("{"): b, _ = self.block(); self.end(); return "SFor %s" % b
            k = self.id(); self.eat(","); v = self.id(); self.eat(":="); self.eat("range"); e = self.expr(); b, _ = self.block(); self.end()
            return "SRange %s %s %s %s" % (q(k), q(v), e, b)
        for kw, c in (("go", "SGo"), ("defer", "SDefer")):
            if self.at(kw): self.i += 1; e = self.expr(); self.end(); return "%s %s" % (c, e)
        if self.at("goto"): self.i += 1; l = self.id(); self.end(); return "SGoto %s" % q(l)
        es = [self.expr()]
        while self.at(","): self.i += 1; es.append(self.expr())
        if self.at(":="):
            self.i += 1; e = self.expr(); self.end()
            xs = [re.match(r'\(EId (".*")\)$', x).group(1) for x in es]
            return "SDef %s %s" % (lst(xs), e)
        if self.at("="): self.i += 1; e = self.expr(); self.end(); return "SSet %s %s" % (lst(es), e)
        if self.at("++"): self.i += 1; self.end(); return "SInc %s" % es[0]
        self.end(); return "SExpr %s" % es[0]
    # declarations
    def file(self):
        self.eat("package"); pkg = self.id(); self.semi(); ds = []
        while self.pk()[0] != "eof":
            if self.at("import"):
                self.i += 1; self.eat("("); xs = []
                while not self.at(")"): xs.append(q(self.pk()[1])); self.i += 1; self.semi()
                self.eat(")"); ds.append((None, "DImport %s" % lst(xs)))
            elif self.at("var"): self.i += 1; x = self.id(); ds.append((None, "DVar %s %s" % (q(x), self.type())))
            elif self.at("type"): self.i += 1; x = self.id(); ds.append((None, "DType %s %s" % (q(x), self.type())))
            elif self.at("const"):
                self.i += 1; x = self.id(); t = self.type(); self.eat("="); ds.append((None, "DConst %s %s %s" % (q(x), t, self.expr())))
            else:
                self.eat("func"); rc = None; nm = ""
                if self.at("("):
                    self.i += 1; r = self.id(); t = self.type(); self.eat(")"); rc = "(%s, %s)" % (q(r), t)
                    nm = re.findall(r'"(\w+)"', t)[-1] + "_"
                x = self.id(); s = self.sig(); b, one = self.block()
                ds.append((nm + x, "DFunc %s %s %s\n  %s\n  %s" % (opt(rc), q(x), s, b.replace("; S", ";\n   S"), "true" if one else "false")))
            self.semi()
        return pkg, ds

EXAMPLES = [("excli_go", "example/client/main.go"), ("exsrv_go", "example/server/main.go")]
def write(repo, dest, files, title, text, tree, check):
    out = ["(** %s of /repo, verbatim (made by tools/goast.py). *)" % title,
           "From Coq Require Import List String Ascii.", "From Verif Require Import RepoText.", "Import ListNotations.", "Open Scope string_scope.", ""]
    prog = ["(** Syntax trees of the %s in %s.v (made by tools/goast.py; %s.v" % (title[0].lower() + title[1:], text, check),
            "    checks that they are the files).  One definition for each function. *)",
            "From Coq Require Import List String.", "From Verif Require Import SrcAst.", "Import ListNotations.", "Open Scope string_scope.", ""]
    for name, path in files:
        s = open(repo + "/" + path).read()
        assert s.endswith("\n") and all(ord(c) < 128 for c in s)
        if name != "rtypes_go":   # in RepoText.v already
            out.append("(** /repo/%s *)" % path)
            out.append("Definition %s : string := text [" % name)
            out.append(";\n".join('  "%s"' % l.replace('"', '""') for l in s[:-1].split("\n")))
            out.append("].\n")
        pkg, ds = P(lex(s)).file()
        pre = name[:-3]
        names = []
        prog.append("(** ** /repo/%s *)" % path)
        for fn, d in ds:
            if fn is None: names.append(d)
            else:
                dn = "%s_%s" % (pre, fn); names.append(dn)
                prog.append("Definition %s : gd := %s.\n" % (dn, d))
        prog.append("Definition %s_prog : gfile := mkFile %s [\n  %s].\n" % (pre, q(pkg), ";\n  ".join(names)))
    open(dest + "/" + text + ".v", "w").write("\n".join(out))
    open(dest + "/" + tree + ".v", "w").write("\n".join(prog))
TESTS = [("xdr_test_go", "xdr/xdr_test.go"), ("rfc1057_fuzz_go", "rfc1057/fuzz_test.go"), ("rfc1813_fuzz_go", "rfc1813/fuzz_test.go")]
def texts(repo, dest):
    out = ["(** Tests of /repo, verbatim (made by tools/goast.py). *)",
           "From Coq Require Import List String Ascii.", "From Verif Require Import RepoText.", "Import ListNotations.", "Open Scope string_scope.", ""]
    for name, path in TESTS:
        s = open(repo + "/" + path).read()
        assert s.endswith("\n") and all(ord(c) < 128 for c in s)
        out += ["(** /repo/%s *)" % path, "Definition %s : string := text [" % name, ";\n".join('  "%s"' % l.replace('"', '""') for l in s[:-1].split("\n")), "].\n"]
    open(dest + "/TestText.v", "w").write("\n".join(out))
def main(repo="/repo", dest="/verif/rocq/theories"):
    write(repo, dest, FILES, "Hand-written Go files", "SrcText", "SrcProg", "SrcTextP")
    write(repo, dest, EXAMPLES, "Example programs", "ExText", "ExTree", "ExTextP")
    texts(repo, dest)
if __name__ == "__main__": main(*sys.argv[1:])
