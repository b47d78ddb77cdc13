#!/usr/bin/env python3
"""Transcribe the screenshots of the README (doc/*.png) into rocq/theories/Screenshots.v."""
import struct, zlib

def decode(fn):
    d = open(fn, 'rb').read(); p = 8; idat = b''
    while p < len(d):
        l, = struct.unpack('>I', d[p:p+4]); t = d[p+4:p+8]; b = d[p+8:p+8+l]
        if t == b'IHDR': w, h, bd, ct, _, _, il = struct.unpack('>IIBBBBB', b)
        if t == b'IDAT': idat += b
        p += 12 + l
    assert bd == 8 and il == 0
    bpp = {2: 3, 6: 4}[ct]
    raw = zlib.decompress(idat); rows = []; prev = bytearray(w*bpp); q = 0
    for y in range(h):
        f = raw[q]; line = bytearray(raw[q+1:q+1+w*bpp]); q += 1 + w*bpp
        for i in range(w*bpp):
            a = line[i-bpp] if i >= bpp else 0
            b = prev[i]
            c = prev[i-bpp] if i >= bpp else 0
            if f == 1: line[i] = (line[i]+a) & 255
            elif f == 2: line[i] = (line[i]+b) & 255
            elif f == 3: line[i] = (line[i]+(a+b)//2) & 255
            elif f == 4:
                pp = a+b-c; pa, pb, pc = abs(pp-a), abs(pp-b), abs(pp-c)
                line[i] = (line[i] + (a if pa <= pb and pa <= pc else (b if pb <= pc else c))) & 255
        rows.append([tuple(line[i:i+3]) for i in range(0, w*bpp, bpp)]); prev = line
    return rows

# The three colours of both images: ink, screen, page around the screen
CH = {(51, 51, 51): '#', (167, 186, 202): '.', (100, 129, 120): '+'}

out = '''(** * The screenshots of README.md, transcribed by tools/gen_shots.py

    doc/short_greeting.png and doc/goose_poem.png have three colours each: ink (51, 51, 51),
    screen (167, 186, 202) and the page around the screen (100, 129, 120). *)
From Coq Require Import String.
From Verif Require Import Prim.
Local Open Scope string_scope.
'''
for name in ['short_greeting', 'goose_poem']:
    rows = decode('/repo/doc/%s.png' % name)
    out += '\n(** doc/%s.png, %d by %d pixels *)\nDefinition %s_png : list string := [\n' % (name, len(rows[0]), len(rows), name)
    out += ';\n'.join('"%s"' % ''.join(CH[p] for p in r) for r in rows) + '\n].\n'
open('/verif/rocq/theories/Screenshots.v', 'w').write(out)
