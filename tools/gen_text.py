#!/usr/bin/env python3
"""Transcribe the generator's JSON and legal files and its three smaller output files
into Coq, byte for byte.  Run by hand; the output is committed."""
import os
SRC = "/repo/codegen/"
OUT = os.path.join(os.path.dirname(os.path.abspath(__file__)), "../rocq/theories/")
HEAD = """(** GENERATED by tools/gen_text.py -- do not edit.
    %s *)
From Coq Require Import String.
From Verif Require Import Prim.

Local Open Scope string_scope.
Local Open Scope list_scope.

"""

def text(name, fn):
    s = open(SRC + fn, encoding="utf-8", newline="").read()
    lines = s.splitlines(keepends=True)
    parts = ["".join(lines[i:i + 25]) for i in range(0, len(lines), 25)]
    assert "".join(parts) == s and "(*" not in s and "*)" not in s
    return ('(** %s, cut into pieces *)\nDefinition %s : list string :=\n  [%s].\n'
            % (os.path.normpath("codegen/" + fn), name, ";\n   ".join('"%s"' % p.replace('"', '""') for p in parts)))

if __name__ == "__main__":
    open(OUT + "TextInputs.v", "w").write(HEAD % "Configuration, index of the Latin fonts, credits."
        + text("config_json", "config.json") + text("latin_index_json", "src_data/latin_index.json")
        + "".join(text(n + "_legal_txt", "src_data/%s_legal.txt" % n) for n in ("twemoji", "noto_sans_sc", "chicago", "geneva")))
    for n in ("bold", "regular", "small"):
        open(OUT + "Text%s.v" % n.capitalize(), "w").write(HEAD % "A font file as committed."
            + text(n + "_rs", "../src/fonts/%s.rs" % n))
