#!/usr/bin/env python3
"""Write the bytes of the Latin sprite sheets and of the README's screenshots into
rocq/theories/PngFiles.v."""
FILES = [('small_file', 'codegen/src_data/small.png'), ('regular_file', 'codegen/src_data/regular.png'),
         ('bold_file', 'codegen/src_data/bold.png'), ('greeting_file', 'doc/short_greeting.png'),
         ('poem_file', 'doc/goose_poem.png')]
out = '''(** * PNG files of the repository, byte for byte, written by tools/gen_png.py

    Two hexadecimal digits for each byte. *)
From Coq Require Import String.
From Verif Require Import Prim.
Local Open Scope string_scope.
'''
for name, path in FILES:
    d = open('/repo/' + path, 'rb').read(); h = d.hex()
    out += '\n(** %s, %d bytes *)\nDefinition %s : list string := [\n' % (path, len(d), name)
    out += ';\n'.join('"%s"' % h[i:i+96] for i in range(0, len(h), 96)) + '\n].\n'
open('/verif/rocq/theories/PngFiles.v', 'w').write(out)
