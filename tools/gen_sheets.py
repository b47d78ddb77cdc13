#!/usr/bin/env python3
"""Transcribe the sprite sheets and index texts of /repo/codegen/src_data into Coq.

Decodes the PNG files (tools/png.py) and writes, for each, the list of its pixel
rows: bit x of a row's number is set when the red component at column x is 0.
Index and alias files are copied byte for byte as Coq strings; of latin_index.json
the hex, row and col of each entry are copied in order.  Run by hand; the output is
committed."""
import json, os, sys
sys.path.insert(0, os.path.dirname(os.path.abspath(__file__)))
import png
SRC = "/repo/codegen/src_data/"
OUT = os.path.join(os.path.dirname(os.path.abspath(__file__)), "../rocq/theories/")
GROUP = 64

def sheet(name, fn):
    w, h, rows, info = png.decode(SRC + fn)
    assert all(v in (0, 65535) for r in rows for v in r)
    nums = [sum(1 << x for x, v in enumerate(r) if v == 0) for r in rows]
    out, groups = [], []
    for i in range(0, h, GROUP):
        g = "%s_rows_%d" % (name, i // GROUP)
        groups.append(g)
        out.append("Definition %s : list N :=\n  [%s].\n" % (g, ";\n   ".join("0x%x" % n for n in nums[i:i + GROUP])))
    out.append("(** codegen/src_data/%s: %d columns, %d rows *)\nDefinition %s_width : N := %d.\nDefinition %s_rows : list N :=\n  concat [%s].\n"
               % (fn, w, h, name, w, name, ";\n    ".join("; ".join(groups[i:i + 6]) for i in range(0, len(groups), 6))))
    return "".join(out)

def head(t, extra=""):
    return ("(** GENERATED by tools/gen_sheets.py -- do not edit.\n    %s *)\n%sFrom Verif Require Import Prim.\n\n" % (t, extra))

def text(name, fn):
    s = open(SRC + fn, encoding="utf-8", newline="").read()
    assert '"' not in s
    parts, lines = [], s.splitlines(keepends=True)
    for i in range(0, len(lines), 50): parts.append("".join(lines[i:i + 50]))
    assert "".join(parts) == s
    return ('(** codegen/src_data/%s, cut into pieces *)\nDefinition %s : list string :=\n  [%s].\n'
            % (fn, name, ";\n   ".join('"%s"' % p for p in parts)))

def specs(name, fn):
    m = json.load(open(SRC + fn, encoding="utf-8"))["map"]
    items = ['("%s", %d, %d)' % (e["hex"], e["row"], e["col"]) for e in m]
    return ("(** codegen/src_data/%s: hex, row and col of each entry of map *)\nDefinition %s : list (string * Z * Z) :=\n  [%s]%%Z.\n"
            % (fn, name, ";\n   ".join("; ".join(items[i:i + 5]) for i in range(0, len(items), 5))))

if __name__ == "__main__":
    for n, fn in (("small", "small.png"), ("regular", "regular.png"), ("bold", "bold.png"),
                  ("emoji", "emoji_13_0.png"), ("hanzi", "hanzi_core2020_g.png")):
        open(OUT + "Sheet%s.v" % n.capitalize(), "w").write(
            head("Pixels of a sprite sheet, one number for each row; bit x is set when the\n    pixel in column x is black.") + sheet(n, fn))
    ex = "From Coq Require Import ZArith String.\n"
    open(OUT + "IndexText.v", "w").write(
        head("Contents of the index and alias files.", ex) + "Local Open Scope string_scope.\nLocal Open Scope list_scope.\n\n"
        + specs("latin_map", "latin_index.json") + text("latin_aliases_txt", "latin_aliases.txt")
        + text("emoji_index_txt", "emoji_13_0_index.txt") + text("emoji_aliases_txt", "emoji_13_0_aliases.txt")
        + text("hanzi_index_txt", "hanzi_core2020_g_index.txt"))
