#!/usr/bin/env python3
"""Transcribe the index and alias lists of /repo/codegen/src_data into Coq.

Reads the files as text, in the way codegen/lib/charspec.go:62-116 and
codegen/lib/config.go:105-117 do, and writes rocq/theories/Index*.v.  Run by
hand; the output is committed.  Every list is copied in file order."""
import json, os
SRC = "/repo/codegen/src_data/"
OUT = os.path.join(os.path.dirname(os.path.abspath(__file__)), "../rocq/theories/")

def gc(h): return [int(x, 16) for x in h.split("-")]
def emoji_map(fn):
    r = []
    for l in open(SRC + fn, encoding="utf-8").read().split("\n"):
        t = l.split("#", 1)[0].strip()
        if t: r.append(gc(t))
    return r
def aliases(fn):
    r = []
    for l in open(SRC + fn, encoding="utf-8").read().split("\n"):
        c = l.split("#", 1)[0].strip().split(" ")
        if len(c) == 2 and c[0] and c[1]: r.append((gc(c[0]), gc(c[1])))
    return r
def json_map(fn):
    return [gc(e["hex"]) for e in json.load(open(SRC + fn, encoding="utf-8"))["map"]]

def s(cl): return "[" + "; ".join("0x%X" % c for c in cl) + "]"
def wrap(items, per=8):
    return ";\n   ".join("; ".join(items[i:i+per]) for i in range(0, len(items), per))
def head(t): return "(** GENERATED by tools/gen_index.py -- do not edit.\n    %s *)\nFrom Verif Require Import Prim Str.\n\n" % t
def deflist(name, ty, items, per, src):
    return "(** codegen/src_data/%s *)\nDefinition %s : list %s :=\n  [%s].\n" % (src, name, ty, wrap(items, per))

lat, lata = json_map("latin_index.json"), aliases("latin_aliases.txt")
emo, emoa = emoji_map("emoji_13_0_index.txt"), aliases("emoji_13_0_aliases.txt")
han = emoji_map("hanzi_core2020_g_index.txt")
def al(a): return ["(%s, %s)" % (s(x), s(y)) for x, y in a]
if __name__ == "__main__":
    open(OUT + "IndexLatin.v", "w").write(head("Clusters of the Small, Regular and Bold fonts; aliases (canonical, alias).")
      + deflist("latin_index", "str", [s(c) for c in lat], 10, "latin_index.json")
      + deflist("latin_aliases", "(str * str)", al(lata), 3, "latin_aliases.txt"))
    open(OUT + "IndexEmoji.v", "w").write(head("Clusters of the Emoji font; aliases (canonical, alias).")
      + deflist("emoji_index", "str", [s(c) for c in emo], 5, "emoji_13_0_index.txt")
      + deflist("emoji_aliases", "(str * str)", al(emoa), 2, "emoji_13_0_aliases.txt"))
    assert all(len(c) == 1 for c in han)
    open(OUT + "IndexHanzi.v", "w").write(head("Clusters of the Hanzi font; there are no aliases.")
      + deflist("hanzi_chars", "N", ["0x%X" % c[0] for c in han], 12, "hanzi_core2020_g_index.txt")
      + "(** each line is one character *)\nDefinition hanzi_index : list str := map (fun c => [c]) hanzi_chars.\n")
    print(len(lat), len(lata), len(emo), len(emoa), len(han))
