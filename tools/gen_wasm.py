#!/usr/bin/env python3
"""Writes rocq/theories/DemoCode.v: the functions of wasm_demo/demo.wasm as lists of instructions.

Bodies of blocks and what follows a block get names of their own.  Shapes that occur several times
(binary searches, decoding of the first character) are written once, with parameters.  The result is
compared in Coq with the functions decoded from the bytes of the file."""
import sys, textwrap
sys.stdout = open('/verif/rocq/theories/DemoCode.v', 'w')
b = open('/repo/wasm_demo/demo.wasm', 'rb').read()

def leb(p, signed=False):
    r = s = 0
    while True:
        x = b[p]; p += 1
        r |= (x & 127) << s; s += 7
        if x < 128: break
    if signed and x & 64: r -= 1 << s
    return r, p

def sections():
    p = 8
    while p < len(b):
        i = b[p]; n, q = leb(p + 1)
        yield i, q, n
        p = q + n
SEC = {i: (q, n) for i, q, n in sections()}

BIN = {0x46: 'Eq', 0x47: 'Ne', 0x48: 'LtS', 0x49: 'LtU', 0x4a: 'GtS', 0x4b: 'GtU', 0x4c: 'LeS', 0x4d: 'LeU', 0x4f: 'GeU',
       0x6a: 'Add', 0x6b: 'Sub', 0x6c: 'Mul', 0x71: 'And', 0x72: 'Or', 0x73: 'Xor', 0x74: 'Shl', 0x76: 'ShrU', 0x77: 'Rotl'}
IDX = {0x0c: 'IBr', 0x0d: 'IBrIf', 0x10: 'ICall', 0x20: 'ILGet', 0x21: 'ILSet', 0x22: 'ILTee', 0x23: 'IGGet', 0x24: 'IGSet'}
MEM = {0x28: 'ILoad', 0x29: 'ILoad64', 0x2c: 'ILoad8S', 0x2d: 'ILoad8U', 0x36: 'IStore', 0x37: 'IStore64'}

def seq(p):
    """instructions up to the matching end: leaves are tuples (name, args...), blocks ('IBlock', [..])"""
    out = []
    while True:
        o = b[p]; p += 1
        if o == 0x0b: return out, p
        if o in (2, 3):
            assert b[p] == 0x40
            body, p = seq(p + 1)
            out.append(('IBlock' if o == 2 else 'ILoop', body))
        elif o in IDX: v, p = leb(p); out.append((IDX[o], v))
        elif o in MEM: _, p = leb(p); v, p = leb(p); out.append((MEM[o], v))
        elif o in BIN: out.append(('IBin', BIN[o]))
        elif o == 0x0e:
            c, p = leb(p); l = []
            for _ in range(c + 1):
                v, p = leb(p); l.append(v)
            out.append(('IBrTable', '[%s]%%nat %d' % ('; '.join(map(str, l[:-1])), l[-1])))
        elif o == 0x41: v, p = leb(p, True); out.append(('IConst', v % 2**32))
        elif o == 0x42: v, p = leb(p, True); out.append(('IConst', v % 2**64))
        elif o == 0x00: out.append(('IUnreachable',))
        elif o == 0x0f: out.append(('IReturn',))
        elif o == 0x1b: out.append(('ISelect',))
        elif o == 0x45: out.append(('IEqz',))
        else: raise SystemExit('opcode %x' % o)

types = []; c, p = leb(SEC[1][0])
for _ in range(c):
    n, p = leb(p + 1); ps = n; p += n
    n, p = leb(p); types.append((ps, n)); p += n
ftype = []; c, p = leb(SEC[3][0])
for _ in range(c):
    v, p = leb(p); ftype.append(types[v])
funcs = []; c, p = leb(SEC[10][0])
for _ in range(c):
    n, p = leb(p); e = p + n
    k, p = leb(p); loc = 0
    for _ in range(k):
        n, p = leb(p); loc += n; assert b[p] == 0x7f; p += 1
    body, p = seq(p); assert p == e
    funcs.append((loc, body))

def holes(t, u, acc):
    """places where u differs from the template t, or None if the shapes differ"""
    if len(t) != len(u): return None
    for x, y in zip(t, u):
        if x[0] != y[0]: return None
        if x[0] in ('IBlock', 'ILoop'):
            if holes(x[1], y[1], acc) is None: return None
        elif x != y: acc.append((x, y))
    return acc

shapes = []   # (name, template, function from differences to arguments or None)
def param(name, template, args):
    shapes.append((name, template, args))
defs = []; count = {}
def call_of(body):
    for name, t, f in shapes:
        d = holes(t, body, [])
        if d is not None:
            a = f(body)
            if a is not None: return '(%s %s)' % (name, a)
    return None
def emit(fn, body, name=None):
    if name is None:
        c = call_of(body)
        if c: return c
        count[fn] = count.get(fn, 0) + 1; name = '%s_%d' % (fn, count[fn])
    parts = []
    for i, x in enumerate(body):
        if x[0] in ('IBlock', 'ILoop'):
            bn = emit(fn, x[1]); rest = body[i + 1:]
            tail = emit(fn, rest) if rest else '[]'
            defs.append((name, parts + ['%s %s' % (x[0], bn)], tail)); return name
        parts.append(' '.join(map(str, x)))
    defs.append((name, parts, '[]')); return name
def text():
    out = []
    for n, p, t in defs:
        out.append('Definition %s : list instr :=\n%s.' % (n, '\n'.join(textwrap.wrap(' :: '.join(p + [t]), 110, initial_indent='  ', subsequent_indent='  '))))
    defs.clear()
    return '\n'.join(out) + '\n'
def flat(t):
    for x in t:
        if x[0] in ('IBlock', 'ILoop'): yield from flat(x[1])
        else: yield x
def consts(t): return [x[1] for x in flat(t) if x[0] == 'IConst']

out = ['''(** * The functions of wasm_demo/demo.wasm, as instructions

    Written by tools/gen_wasm.py from the bytes of the file; [PropsCompiled.v] compares them with what
    [WebasmBin.v] decodes from those bytes.  f1 is clear_region, f2 paint_str, f5 grapheme_cluster, f27
    xor_char, f32 nth_word, f0 init, f3 frame_buf_ptr; f6, f28, f33 and f34 are panics; the others look a
    hash up in a table. *)
From Verif Require Import Prim Webasm.
''']
# the binary search of a table of n hashes
t4 = funcs[4][1]
emit('lookup', t4, 'lookup_code')
s = text()
for k, v in ((1078080, 'hash'), (1078176, 'off'), (24, 'n'), (23, '(n - 1)')):
    s = s.replace('IConst %d ' % k, 'IConst %s ' % v)
    s = s.replace('IConst\n  %d ' % k, 'IConst\n  %s ' % v)
assert '1078' not in s
out.append('Section Lookup.\nVariables n hash off : N.\n' + s + 'End Lookup.\n')
# the search of a table of two hashes
t12 = funcs[12][1]; c12 = consts(t12)
emit('pair', t12, 'pair_code')
s = text()
for k, v in ((1077576, 'hash'), (1077584, 'off'), (3540912106, 'mid')):
    s = s.replace('IConst %d ' % k, 'IConst %s ' % v).replace('IConst\n  %d ' % k, 'IConst\n  %s ' % v)
assert '1077' not in s and '354' not in s
out.append('Section Pair.\nVariables mid hash off : N.\n' + s + 'End Pair.\n')
# the loop of a binary search inside f27, and the decoding of the first character
def walk(t):
    for x in t:
        if x[0] in ('IBlock', 'ILoop'): yield x[1]; yield from walk(x[1])
sl = [y for y in walk(funcs[27][1]) if len(y) == 25 and y[-1] == ('IBrIf', 0)]
emit('search', sl[0], 'search_loop'); s = text()
h0 = [x for x in consts(sl[0]) if x > 1000000][0]
s = s.replace('IConst %d ' % h0, 'IConst hash ').replace('IConst\n  %d ' % h0, 'IConst\n  hash ')
out.append('Section Search.\nVariables hash : N.\n' + s + 'End Search.\n')
def search_arg(u):
    d = holes(sl[0], u, [])
    return str([x for x in consts(u) if x > 1000000][0]) if all(x[0] == ('IConst', h0) for x in d) and len(d) <= 1 else None
fc = [y for y in walk(funcs[27][1]) if y and y[0][0] == 'IBlock' and y[-1][0] == 'IBrIf' and y[-3:-1] == [('IConst', 1114112), ('IBin', 'Eq')]]
def label(u): return [x for x in flat(u) if x[0] == 'IBrIf'][-1][1]
emit('first', fc[0], 'first_char'); s = text()
s = s.replace('IBrIf %d ' % label(fc[0]), 'IBrIf label ')
out.append('Section First.\nVariables label : nat.\n' + s + 'End First.\n')
param('search_loop', sl[0], search_arg)
param('first_char', fc[0], lambda u: str(label(u)) if all(x[0] == 'IBrIf' for x, _ in holes(fc[0], u, [])) else None)
rows = []
for i, (loc, body) in enumerate(funcs):
    d = holes(t4, body, [])
    if d is not None and {x[1] for x, _ in d} <= {24, 23, 1078080, 1078176}:
        c = consts(body); name = '(lookup_code %d %d %d)' % (c[3], c[6], c[15])
    elif holes(t12, body, []) is not None:
        c = consts(body); name = '(pair_code %d %d %d)' % (c[2], c[4], c[8])
    else:
        name = 'f%d' % i; count.clear(); emit(name, body, name); out.append(text())
    rows.append('Func %d %d %d %s' % (ftype[i] + (loc, name)))
out.append('Definition demo_funcs : list func := [\n  ' + ';\n  '.join(rows) + '].\n')
sys.stdout.write('\n'.join(out))

# The file: bytes around the data, and what the data are
import re, struct
HEAD, SEG1, SEG2 = 18081, 1587805, 23584
T = {}
for f in ['emoji', 'hanzi', 'bold', 'small', 'regular']:
    s = re.sub(r'//.*', '', open('/repo/src/fonts/%s.rs' % f).read())
    for m in re.finditer(r'(?:static|const) (\w+): *\[(?:u32|usize); *\d+\] *= *\[(.*?)\];', s, re.S):
        ws = [int(x, 0) for x in re.findall(r'0x[0-9a-fA-F]+|\d+', m.group(2))]
        T[f + '_' + m.group(1).lower()] = b''.join(struct.pack('<I', w) for w in ws)
d1 = b[HEAD:HEAD + SEG1]
STR = [('str_note', 40), ('str_sas1', 43), ('str_sas2', 32), ('str_sas3', 33), ('str_sas4', 30), ('str_wrap', 114), ('str_poem', 73)]
pieces = []; pos = 0; addrs = []
while pos < 2636016 - 1048576:
    addrs.append(1048576 + pos)
    c = [k for k, v in T.items() if len(v) >= 8 and d1.startswith(v, pos)]
    if c:
        k = max(c, key=lambda k: len(T[k])); pieces.append('Words (concat %s)' % k if k.endswith('_data') else 'Words ' + k); pos += len(T[k])
    else:
        assert d1[pos:pos + 4] == b'\xef\xbf\xbd\0'; pieces.append('Bytes (utf8 0xFFFD)'); pieces.append('Bytes [0]'); addrs.append(1048576 + pos + 3); pos += 4
for k, n in STR:
    addrs.append(1048576 + pos)
    pieces.append('Bytes (flat_map utf8 %s)' % k); pos += n
assert pos == SEG1
assert b[-SEG2:] == struct.pack('<I', 0xffff0000) * 5896
mid = b[HEAD + SEG1:-SEG2]
def nums(bs):
    return textwrap.fill('; '.join(map(str, bs)), 108, initial_indent='  ', subsequent_indent='  ')
with open('/verif/rocq/theories/DemoFile.v', 'w') as o:
    o.write('''(** * The file wasm_demo/demo.wasm, written by tools/gen_wasm.py

    %d bytes: those up to the contents of the first data segment, the contents of that segment, %d
    bytes between the segments, the contents of the second segment. *)
From Verif Require Import Prim Str Geom FontDefs Demo SpecCompiled.
From Verif Require Import FontSmall FontRegular FontBold FontEmoji FontHanzi.

(** Bytes 0-%d of the file *)
Definition demo_head : list N := [
%s].

(** The first data segment is the tables of src/fonts/*.rs that are not written into the code, the text
    "\\u{FFFD}" of src/blit.rs and the texts of src/demo.rs.  Tables that are the same in several fonts
    are there once. *)
Definition demo_pieces : list piece := [
  %s].

(** Where they are in memory *)
Definition demo_addrs : list N := [
%s].

(** Bytes %d-%d of the file *)
Definition demo_mid : list N := [%s].

Definition demo_file : list N :=
  demo_head ++ pieces_bytes demo_pieces ++ demo_mid ++ words_bytes new_fr_buf.
''' % (len(b), len(mid), HEAD - 1, nums(b[:HEAD]), ';\n  '.join(pieces), nums(addrs), HEAD + SEG1, len(b) - SEG2 - 1, '; '.join(map(str, mid))))
