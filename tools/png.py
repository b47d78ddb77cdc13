"""Minimal PNG decoder: returns width, height and, per row, the red value of each pixel
as Go's image/png and color.RGBA give it (16 bits, premultiplied by alpha)."""
import struct, zlib

def decode(path):
    b = open(path, "rb").read()
    assert b[:8] == b"\x89PNG\r\n\x1a\n"
    i, idat, plte, trns = 8, b"", None, None
    while i < len(b):
        n, = struct.unpack(">I", b[i:i+4]); t = b[i+4:i+8]; d = b[i+8:i+8+n]; i += 12 + n
        if t == b"IHDR":
            w, h, depth, ctype, comp, filt, inter = struct.unpack(">IIBBBBB", d)
            assert comp == 0 and filt == 0 and inter == 0
        elif t == b"PLTE": plte = [d[k:k+3] for k in range(0, n, 3)]
        elif t == b"tRNS": trns = d
        elif t == b"IDAT": idat += d
    chan = {0: 1, 2: 3, 3: 1, 4: 2, 6: 4}[ctype]
    bpp = max(1, chan * depth // 8)
    stride = (w * chan * depth + 7) // 8
    raw = zlib.decompress(idat)
    prev, rows = bytearray(stride), []
    for y in range(h):
        f = raw[y * (stride + 1)]
        cur = bytearray(raw[y * (stride + 1) + 1:(y + 1) * (stride + 1)])
        for k in range(stride):
            a = cur[k - bpp] if k >= bpp else 0
            u = prev[k]; c = prev[k - bpp] if k >= bpp else 0
            if f == 1: cur[k] = (cur[k] + a) & 255
            elif f == 2: cur[k] = (cur[k] + u) & 255
            elif f == 3: cur[k] = (cur[k] + (a + u) // 2) & 255
            elif f == 4:
                p = a + u - c; pa, pb, pc = abs(p - a), abs(p - u), abs(p - c)
                cur[k] = (cur[k] + (a if pa <= pb and pa <= pc else u if pb <= pc else c)) & 255
        prev = cur
        def sample(k):
            if depth == 8: return cur[k]
            if depth == 16: return cur[2*k] << 8 | cur[2*k+1]
            return cur[k * depth // 8] >> (8 - depth - k * depth % 8) & ((1 << depth) - 1)
        full = (1 << depth) - 1
        red = []
        for x in range(w):
            if ctype == 3:
                v = sample(x); r = plte[v][0]; al = trns[v] if trns and v < len(trns) else 255
                red.append(r * 257 * (al * 257) // 65535)
            elif ctype in (0, 2):
                assert trns is None
                red.append(sample(x * chan) * 65535 // full)
            else:
                red.append(sample(x * chan) * 65535 // full * (sample(x * chan + chan - 1) * 65535 // full) // 65535)
        rows.append(red)
    return w, h, rows, (depth, ctype, plte and [p.hex() for p in plte], trns)
