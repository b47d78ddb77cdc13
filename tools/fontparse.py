"""Parse the generated rust font files src/fonts/*.rs of /repo as text."""
import re, sys
NAMES = ["small", "regular", "bold", "emoji", "hanzi"]

def parse(name, root="/repo"):
    txt = open(f"{root}/src/fonts/{name}.rs", encoding="utf-8").read()
    body = txt.split("#[cfg(test)]")[0]
    f = {"name": name}
    f["max_height"] = int(re.search(r"MAX_HEIGHT: u8 = (\d+);", body).group(1))
    f["seed"] = int(re.search(r"M3_SEED: u32 = (\d+);", body).group(1))
    # strip // comments
    code = re.sub(r"//[^\n]*", "", body)
    arms = code[code.index("return match first_char"):]
    arms = arms[:arms.index("_ => Err")]
    blocks = []
    for m in re.finditer(r"0x([0-9A-F]+)\.\.=0x([0-9A-F]+) => \{(.*?)\n        \}", arms, re.S):
        lo, hi, b = int(m.group(1), 16), int(m.group(2), 16), m.group(3)
        calls = re.findall(r"find_(\w+)\(cluster, (\d+)\)", b)
        nm = {c[0] for c in calls}
        assert len(nm) == 1
        gd = set(re.findall(r"GlyphData::(\w+)\(offset\)", b))
        assert gd == {name.capitalize()}, (gd, name)
        blocks.append({"lo": lo, "hi": hi, "name": nm.pop(), "lens": [int(c[1]) for c in calls]})
    for b in blocks:
        up = b["name"].upper()
        m = re.search(r"const HASH_%s: \[u32; (\d+)\] = \[(.*?)\];" % up, code, re.S)
        b["hash"] = [int(x, 16) for x in re.findall(r"0x([0-9A-F]+)", m.group(2))]
        assert len(b["hash"]) == int(m.group(1))
        m = re.search(r"const OFFSET_%s: \[usize; (\d+)\] = \[(.*?)\];" % up, code, re.S)
        b["off"] = [int(x) for x in re.findall(r"(\d+)", m.group(2))]
        assert len(b["off"]) == int(m.group(1)) == len(b["hash"])
        # the find function really uses HASH_/OFFSET_ of the same name and M3_SEED
        fn = re.search(r"fn find_%s\(cluster: &str, limit: u32\).*?\n\}" % b["name"], code, re.S).group(0)
        assert ("HASH_%s.binary_search(&key)" % up) in fn and ("OFFSET_%s[index], bytes_hashed" % up) in fn and "M3_SEED, limit" in fn
    f["blocks"] = blocks
    assert code.count("const HASH_") == len(blocks)
    m = re.search(r"pub const DATA: \[u32; (\d+)\] = \[(.*?)\];", code, re.S)
    f["data"] = [int(x, 16) for x in re.findall(r"0x([0-9a-f]+)", m.group(2))]
    assert len(f["data"]) == int(m.group(1))
    return f
