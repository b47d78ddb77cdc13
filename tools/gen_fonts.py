#!/usr/bin/env python3
"""Transcribe the constants of /repo/src/fonts/*.rs into Coq.

Reads the Rust files as text and writes rocq/theories/Font*.v.  Run by hand; the
output is committed.  Every table is copied literally, in source order."""
import re, sys, os
sys.path.insert(0, os.path.dirname(os.path.abspath(__file__)))
from fontparse import parse, NAMES
OUT = os.path.join(os.path.dirname(os.path.abspath(__file__)), "../rocq/theories")
PIECE = 512

def lines_of(name, start_pat):
    L = open(f"/repo/src/fonts/{name}.rs", encoding="utf-8").read().split("\n")
    for i, l in enumerate(L):
        if re.search(start_pat, l):
            j = i
            while not L[j].startswith("];"):
                j += 1
            return i + 1, j + 1
    raise KeyError(start_pat)

def wrap(items, per=8):
    return ";\n   ".join("; ".join(items[i:i+per]) for i in range(0, len(items), per))

HEAD = """(** GENERATED by tools/gen_fonts.py from /repo/src/fonts/%s.rs -- do not edit.
    %s *)
From Verif Require Import Prim FontDefs.
%s
"""
mods = []
def emit(fname, text):
    open(os.path.join(OUT, fname + ".v"), "w").write(text)
    mods.append(fname)

for name in NAMES:
    f = parse(name)
    cap = name.capitalize()
    D = f["data"]
    a, b = lines_of(name, r"pub const DATA:")
    pieces = [D[i:i+PIECE] for i in range(0, len(D), PIECE)]
    PER_FILE = 140
    groups = [pieces[i:i+PER_FILE] for i in range(0, len(pieces), PER_FILE)]
    datamods = []
    n = 0
    body_single = ""
    for gi, g in enumerate(groups):
        txt = ""
        names = []
        for p in g:
            txt += f"Definition {name}_data_{n} : list N :=\n  [{wrap(['0x%x' % x for x in p])}].\n"
            names.append(f"{name}_data_{n}")
            n += 1
        txt += f"Definition {name}_data_group_{gi} : list (list N) :=\n  [{wrap(names, 4)}].\n"
        if len(groups) == 1:
            body_single = txt
        else:
            fn = f"Font{cap}Data{gi}"
            emit(fn, HEAD % (name, f"DATA (src/fonts/{name}.rs:{a}-{b}), words {gi*PER_FILE*PIECE} to {gi*PER_FILE*PIECE+sum(map(len,g))-1}.", "") + txt)
            datamods.append(fn)
    txt = HEAD % (name, f"MAX_HEIGHT, M3_SEED, match arms, HASH_* and OFFSET_* tables, DATA.",
                  ("From Verif Require Import " + " ".join(datamods) + ".\n") if datamods else "")
    txt += body_single
    bl = []
    for blk in f["blocks"]:
        up = blk["name"].upper()
        ha, hb = lines_of(name, r"const HASH_%s:" % up)
        oa, ob = lines_of(name, r"const OFFSET_%s:" % up)
        txt += f"(** HASH_{up}, src/fonts/{name}.rs:{ha}-{hb} *)\nDefinition {name}_hash_{blk['name']} : list N :=\n  [{wrap(['0x%x' % x for x in blk['hash']])}].\n"
        txt += f"(** OFFSET_{up}, src/fonts/{name}.rs:{oa}-{ob} *)\nDefinition {name}_offset_{blk['name']} : list N :=\n  [{wrap([str(x) for x in blk['off']])}].\n"
        bl.append(f"Block 0x{blk['lo']:X} 0x{blk['hi']:X} [{'; '.join(map(str, blk['lens']))}]\n         {name}_hash_{blk['name']}\n         {name}_offset_{blk['name']}")
    txt += f"(** DATA, src/fonts/{name}.rs:{a}-{b} *)\nDefinition {name}_data : bigarr :=\n  {' ++ '.join(f'{name}_data_group_{i}' for i in range(len(groups)))}.\n"
    txt += f"(** The arms of the match in get_blit_pattern_offset, src/fonts/{name}.rs *)\nDefinition {name}_blocks : list block :=\n  [ " + ";\n    ".join(bl) + " ].\n"
    txt += f"Definition {name}_font : font := Font {f['max_height']} {f['seed']} {name}_blocks {name}_data.\n"
    emit(f"Font{cap}", txt)
print(" ".join(mods))
