#!/usr/bin/env python3
"""Test the theorems against wrong programs.

usage: mutate.py BASE SCRATCH MUTANTS.json LOG.jsonl [id ...]

BASE is a built copy of rocq/, SCRATCH a directory to work in (both outside /verif).
Each mutant is {id, file, old, new, claim}: in theories/<file> the text old becomes new.
The files that depend on it are compiled again.  Where the proof of a lemma fails, the
scratch copy gets "Admitted" for it and compilation goes on; in the end the assumptions
printed for each property theorem show which of them no longer hold without an admitted
lemma.  One line is appended to the log per mutant.
"""
import hashlib, json, os, re, shutil, subprocess, sys, time
from concurrent.futures import ThreadPoolExecutor, wait, FIRST_COMPLETED

SKIP = {"Conformance"}  # tests, not theorems
TIMEOUT = 300
START = re.compile(r"^[ \t]*(?:Local |Global )?(Lemma|Theorem|Example|Corollary|Fact|Remark|Definition|Fixpoint|Instance)\s+([\w']+)", re.M)

def deps(root):
    files = [f for f in os.listdir(root + "/theories") if f.endswith(".v")]
    out = subprocess.run(["coqdep", "-Q", "theories", "Verif"] + ["theories/" + f for f in files],
                         cwd=root, capture_output=True, text=True).stdout
    d = {}
    for line in out.splitlines():
        if ".vo " in line.split(":")[0] + " ":
            t, s = line.split(":", 1)
            t = t.split()[0]
            if t.endswith(".vo"):
                d[os.path.basename(t)[:-3]] = {os.path.basename(x)[:-3] for x in s.split() if x.endswith(".vo")}
    return d

USING = {}

def proof_using(base, only):
    """Which section hypotheses each lemma uses, so that admitting it keeps its type."""
    for m in sorted(only):
        text = open(f"{base}/theories/{m}.v").read()
        if not re.search(r"(?m)^ *Section ", text):
            continue
        cache = f"/tmp/using/{m}." + hashlib.sha1(text.encode()).hexdigest()
        if not os.path.exists(cache):
            r = subprocess.run(["coqc", "-q", "-set", "Suggest Proof Using", "-Q", "theories", "Verif",
                                "-o", f"/tmp/using/{m}.vo", f"theories/{m}.v"], cwd=base, capture_output=True, text=True)
            json.dump(re.findall(r"The proof of (\w+) should start with one of the following commands:\s*Proof using([^.]*)\.",
                                 r.stdout + r.stderr), open(cache, "w"))
        for n, u in json.load(open(cache)):
            USING[(m, n)] = u.strip()

def compile_file(root, mod, failed):
    """Compile, admitting what fails.  Returns (ok, output)."""
    path = f"{root}/theories/{mod}.v"
    for _ in range(60):
        try:
            r = subprocess.run(["coqc", "-q", "-Q", "theories", "Verif", f"theories/{mod}.v"], cwd=root,
                               capture_output=True, text=True, timeout=TIMEOUT)
            out, code = r.stdout + r.stderr, r.returncode
            if code == 0:
                return True, out
            m = None
            for m in re.finditer(r'File "[^"]*", line (\d+), characters (\d+)-', out):
                pass
            err = out[m.end():] if m else out
            line = int(m[1]) if m else None
        except subprocess.TimeoutExpired as e:
            err, line = "timeout", None
            # find the slow sentence
            p = subprocess.run(["timeout", str(TIMEOUT), "stdbuf", "-oL", "coqc", "-q", "-time", "-Q", "theories", "Verif",
                                f"theories/{mod}.v"], cwd=root, capture_output=True, text=True)
            cs = re.findall(r"^Chars (\d+) - (\d+) ", p.stdout, re.M)
            text = open(path, "rb").read()
            line = text[:int(cs[-1][1]) + 2].count(b"\n") + 1 if cs else None
        if line is None:
            return False, err
        text = open(path).read()
        pos = sum(len(l) + 1 for l in text.split("\n")[:line - 1])
        starts = [s for s in START.finditer(text) if s.start() <= pos + 1]
        if not starts:
            return False, err
        s = starts[-1]
        e = re.compile(r"\b(Qed|Defined)\.").search(text, s.end())
        pr = re.compile(r"\bProof\b[^.]*\.").search(text, s.end())
        if s[1] in ("Definition", "Fixpoint") or not e or not pr or pr.start() > e.start() or (mod, s[2]) in failed:
            # a Check or Print command: take it out
            chk = re.compile(r"^(Check|Print Assumptions|Compute)\b", re.M)
            cs = [c for c in chk.finditer(text) if c.start() <= pos]
            if cs and cs[-1].start() > s.start():
                end = text.index(".\n", cs[-1].start()) + 1
                failed[(mod, "Check at line %d" % line)] = err.strip()[:200]
                text = text[:cs[-1].start()] + "(* *)" + text[end:]
                open(path, "w").write(text)
                continue
            return False, f"{s[2]}: {err}"
        failed[(mod, s[2])] = err.strip()[:200]
        text = text[:pr.start()] + ("Proof using " + USING[(mod, s[2])] if (mod, s[2]) in USING else "Proof") + ". Admitted." + "\n" * text[pr.start():e.end()].count("\n") + text[e.end():]
        open(path, "w").write(text)
    return False, "too many failures"

def run(base, scratch, mut):
    shutil.rmtree(scratch, ignore_errors=True)
    shutil.copytree(base, scratch)
    path = f"{scratch}/theories/{mut['file']}"
    text = open(path).read()
    n = text.count(mut["old"])
    if n != 1:
        raise SystemExit(f"{mut['id']}: old text occurs {n} times in {mut['file']}")
    open(path, "w").write(text.replace(mut["old"], mut["new"]))
    d = deps(scratch)
    root = mut["file"][:-2]
    dirty = {root}
    while True:
        more = {m for m in d if m not in dirty and d[m] & dirty}
        if not more:
            break
        dirty |= more
    dirty -= SKIP
    proof_using(base, dirty)
    failed, blocked, outputs = {}, {}, {}
    todo, done, running = set(dirty), set(), {}
    with ThreadPoolExecutor(4) as ex:
        while todo or running:
            for m in sorted(todo):
                if d[m] & set(blocked):
                    blocked[m] = "depends on " + ", ".join(sorted(d[m] & set(blocked)))
                    todo.discard(m)
                elif not (d[m] & dirty) - done and len(running) < 4:
                    for ext in (".vo", ".vos", ".vok", ".glob"):
                        try: os.remove(f"{scratch}/theories/{m}{ext}")
                        except FileNotFoundError: pass
                    running[ex.submit(compile_file, scratch, m, failed)] = m
                    todo.discard(m)
            if not running:
                continue
            for f in wait(running, return_when=FIRST_COMPLETED)[0]:
                m = running.pop(f)
                ok, out = f.result()
                if ok:
                    done.add(m); outputs[m] = out
                else:
                    blocked[m] = out.strip()[:300]
    # which property theorems rest on an admitted lemma
    lost, total = [], 0
    admitted = {n for (_, n) in failed}
    for m in sorted(dirty):
        if not m.startswith("Props"):
            continue
        text = open(f"{base}/theories/{m}.v").read()
        names = re.findall(r"^Theorem (C\d+\w*)", text, re.M)
        total += len(names)
        if m in blocked:
            lost += names
            continue
        text = open(f"{scratch}/theories/{m}.v").read()
        pa = re.findall(r"^Print Assumptions (\w+)\.", text, re.M)
        blocks = re.split(r"(?m)^(Closed under the global context|Axioms:)$", outputs[m])[1:]
        blocks = [(blocks[i], blocks[i + 1]) for i in range(0, len(blocks), 2)]
        if len(blocks) != len(pa):
            raise SystemExit(f"{m}: {len(blocks)} outputs for {len(pa)} Print Assumptions")
        lost += [n for n, (h, _) in zip(pa, blocks) if h == "Axioms:" and n in names]
    examples = sorted(n for (m, n) in failed if m.startswith("Props") and n not in lost)
    return dict(lost=lost, lemmas=sorted(f"{m}.{n}" for (m, n) in failed), examples=examples,
                blocked=blocked, total=total)

def main():
    base, scratch, mutants, log = sys.argv[1:5]
    ids = sys.argv[5:]
    os.makedirs("/tmp/using", exist_ok=True)
    for mut in json.load(open(mutants)):
        if ids and mut["id"] not in ids:
            continue
        t = time.time()
        r = run(base, scratch, mut)
        entry = {"id": mut["id"], "definition": mut["definition"], "file": mut["file"],
                 "edit": {"from": mut["old"], "to": mut["new"]}, "breaks": mut["claim"],
                 "theorems_failed": r["lost"], "first_failed": r["lemmas"],
                 "not_compiled": r["blocked"], "theorems_tightened": mut.get("tightened", []),
                 "outcome": "caught" if r["lost"] else "survived"}
        with open(log, "a") as f:
            f.write(json.dumps(entry, ensure_ascii=False) + "\n")
        print(mut["id"], mut["definition"], entry["outcome"], len(r["lost"]), "of", r["total"], "|",
              " ".join(sorted({x[:3] for x in r["lost"]})), "|", len(r["lemmas"]), "lemmas | blocked:",
              {k: v[:100] for k, v in r["blocked"].items() if not v.startswith("depends")}, "%.0fs" % (time.time() - t), flush=True)

if __name__ == "__main__":
    main()
