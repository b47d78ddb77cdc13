#!/usr/bin/env python3
"""Transcribe the templates of codegen/lib/templates.go into Coq, byte for byte.
Run by hand; the output is committed."""
import os, re
OUT = os.path.join(os.path.dirname(os.path.abspath(__file__)), "../rocq/theories/TemplateTexts.v")
src = open("/repo/codegen/lib/templates.go", encoding="utf-8", newline="").read()
out = """(** GENERATED by tools/gen_template.py -- do not edit.
    The texts of the templates. *)
From Coq Require Import String.
From Verif Require Import Prim.
Local Open Scope string_scope.
"""
for go, name in (("usageTemplate", "usage_template"), ("fontFileTemplate", "font_file_template")):
    m = re.search(r"(?m)^const %s = `([^`]*)`$" % go, src)
    s = m[1]
    assert s.isascii() and "(*" not in s and "*)" not in s
    a = src[:m.start()].count("\n") + 1
    out += '\n(** codegen/lib/templates.go:%d-%d *)\nDefinition %s : string := "%s".\n' % (a, a + m[0].count("\n"), name, s.replace('"', '""'))
open(OUT, "w").write(out)
