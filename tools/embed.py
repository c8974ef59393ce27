#!/usr/bin/env python3
"""Writes rocq/theories/RepoText.v: the committed specs and generated Go files of /repo as
Coq strings, line by line."""
import sys
FILES = [("rfc1057_prot_x", "rfc1057/prot.x"), ("rfc1057_xdr_go", "rfc1057/xdr.go"), ("rfc1057_types_go", "rfc1057/types.go"),
         ("rfc1813_prot_x", "rfc1813/prot.x"), ("rfc1813_xdr_go", "rfc1813/xdr.go"), ("rfc1813_types_go", "rfc1813/types.go")]
out = ["(** The committed .x files and generated Go files of /repo, verbatim (made by tools/embed.py).",
       "    [text ls] is the file with the lines [ls]. *)",
       "From Coq Require Import List String Ascii.", "Import ListNotations.", "Open Scope string_scope.", "",
       "Fixpoint text (ls : list string) : string :=",
       "  match ls with [] => EmptyString | l :: ls => l ++ String \"010\" (text ls) end.", ""]
for name, path in FILES:
    s = open("/repo/" + path).read()
    assert s.endswith("\n") and all(ord(c) < 128 for c in s)
    ls = s[:-1].split("\n")
    out.append("(** /repo/%s *)" % path)
    out.append("Definition %s : string := text [" % name)
    out.append(";\n".join('  "%s"' % l.replace('"', '""') for l in ls))
    out.append("].\n")
open("/verif/rocq/theories/RepoText.v", "w").write("\n".join(out))

s = open("/repo/Makefile").read()
out = ["(** /repo/Makefile, verbatim (made by tools/embed.py). *)", "From Coq Require Import List String.", "From Verif Require Import RepoText.",
       "Import ListNotations.", "Open Scope string_scope.", "", "Definition makefile : string := text [",
       ";\n".join('  "%s"' % l.replace('"', '""') for l in s[:-1].split("\n")), "].", ""]
open("/verif/rocq/theories/MakeText.v", "w").write("\n".join(out))
