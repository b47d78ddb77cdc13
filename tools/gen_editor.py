#!/usr/bin/env python3
"""Transcribe the tables of codegen/config_editor.rb, the canonical decompositions of
the characters in its Latin index (Unicode data, as Python has it) and the committed
icon index into Coq.  Reads the script as text.  Run by hand; the output is committed."""
import os, re, unicodedata
from gen_text import text, OUT
SRC = open("/repo/codegen/config_editor.rb", encoding="utf-8").read()

def ruby_string(s):
    assert s[0] == s[-1] == '"'
    return re.sub(r'\\(.)', lambda m: {'"': '"', '\\': '\\'}[m.group(1)], s[1:-1])
STR = r'"(?:[^"\\]|\\.)*"'
def coq(s):
    if all(32 <= ord(c) < 127 for c in s):
        return 'lit "%s"' % s.replace('"', '""')
    return "[" + "; ".join("0x%X" % ord(c) for c in s) + "]"
def block(name):
    m = re.search(r'^%s = \{\n(.*?)^\}\n' % name, SRC, re.M | re.S)
    return "\n".join(l for l in m.group(1).split("\n") if not re.match(r'\s*#', l))
def comment(b):
    return [ruby_string(x) for x in re.findall(STR, re.search(r'comment: \[(.*?)\]', b, re.S).group(1))]
def rows(b):
    r = re.findall(r'\{hex: (%s), row: (\d+), col: (\d+), label: (%s)\},\n' % (STR, STR), b)
    assert len(r) == b.count("hex:")
    return [(ruby_string(h), int(y), int(x), ruby_string(l)) for h, y, x, l in r]
KEYS = "name m3Seed sprites size cols gutter border legal index indexType aliases glyphTrim rustout".split()
def sets(b):
    out = []
    for m in re.finditer(r'\{\n(\s+name:.*?)\}', b, re.S):
        kv = re.findall(r'(\w+): (%s|\w+),' % STR, m.group(1))
        assert [k for k, _ in kv] == KEYS, kv
        out.append([v if not v.startswith('"') else v for _, v in kv])
    return out
def strings(l): return "[" + "; ".join(coq(s) for s in l) + "]"
def coq_set(s):
    def val(v):
        if v == "latin_index_outfile": return "latin_index_outfile"
        return "(%s)" % coq(ruby_string(v)) if v.startswith('"') else v
    return "ConfigSet " + " ".join(val(v) for v in s)
def coq_rows(r):
    return ";\n   ".join("IndexRow (%s) %d %d (%s)" % (coq(h), y, x, coq(l)) for h, y, x, l in r)

if __name__ == "__main__":
    c, l, i = block("config"), block("latin_index"), block("icon_index")
    assert len(sets(c)) == 5 and len(rows(l)) == SRC.split("icon_index = {")[0].count("hex:")
    dec = []
    for h, _, _, _ in rows(l):
        cl = "".join(chr(int(x, 16)) for x in h.split("-"))
        d = unicodedata.normalize("NFD", cl)
        if d != cl:
            dec.append("(%s, %s)" % tuple("[" + "; ".join("0x%X" % ord(ch) for ch in t) + "]" for t in (cl, d)))
    s = """(** GENERATED by tools/gen_editor.py -- do not edit.
    The tables of codegen/config_editor.rb, Unicode data, codegen/src_data/icon_index.json. *)
From Coq Require Import ZArith String.
From Verif Require Import Prim Str Render Config Editor.

Local Open Scope string_scope.
Local Open Scope list_scope.

"""
    s += "(** config_editor.rb:23-95 *)\nDefinition script_sets : list config_set :=\n  [%s].\n" % ";\n   ".join(coq_set(x) for x in sets(c))
    s += "\n(** config_editor.rb:101-320 *)\nDefinition script_latin : list index_row :=\n  [%s].\n" % coq_rows(rows(l))
    s += "\n(** config_editor.rb:326-341 *)\nDefinition script_icons : list index_row :=\n  [%s].\n" % coq_rows(rows(i))
    s += ("\n(** config_editor.rb:24-26, 98-100, 323-325 *)\nDefinition script_tables : tables :=\n"
          "  Tables %s script_sets\n    %s script_latin\n    %s script_icons.\n" % (strings(comment(c)), strings(comment(l)), strings(comment(i))))
    s += ("\n(** The characters of the Latin index with a canonical decomposition (Unicode data) *)\n"
          "Definition latin_decompositions : list (list N * list N) :=\n  [%s].\n\n" % ";\n   ".join(dec))
    s += text("icon_index_json", "src_data/icon_index.json")
    open(OUT + "EditorTables.v", "w").write(s)
