#!/usr/bin/env python3
"""Print the string literals of /repo/src/demo.rs as Coq lists of codepoints."""
import re
src = open("/repo/src/demo.rs", encoding="utf-8").read()
def unesc(s):
    s = re.sub(r"\\u\{([0-9A-Fa-f]+)\}", lambda m: chr(int(m.group(1), 16)), s)
    return s.replace("\\n", "\n")
def coq(s):
    it = ["0x%X" % ord(c) if ord(c) > 126 or ord(c) < 32 else str(ord(c)) for c in s]
    return ";\n     ".join("; ".join(it[i:i+16]) for i in range(0, len(it), 16))
L = src.split("\n")
def lit(a, b):
    return unesc("".join(re.findall(r'"((?:[^"\\]|\\.)*)"', "\n".join(L[a-1:b]))))
for name, a, b in [("note", 9, 9), ("sas1", 10, 10), ("sas2", 11, 11), ("sas3", 12, 12), ("sas4", 13, 13), ("wrap", 14, 17),
                   ("hello_world", 59, 59), ("hello_cat", 60, 60), ("poem", 71, 76)]:
    ref = f"src/demo.rs:{a}" + (f"-{b}" if b != a else "")
    print(f"(** {ref} *)\nDefinition str_{name} : str :=\n    [{coq(lit(a,b))}].\n")
