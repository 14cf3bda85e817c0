#!/usr/bin/env python3
"""Apply each edit of a list to a scratch copy of the model, rebuild, and report which
statements no longer prove. A failing proof is replaced by Admitted in the scratch copy so
that the build goes on and every failing statement is found.

usage: mutate.py BASE edits.json out.jsonl     (BASE: a built copy of rocq/)
"""
import json, os, re, subprocess, sys, shutil, time
base, edits, out = sys.argv[1:4]
scratch = "/tmp/scratch_run"
START = re.compile(r'^\s*(?:Local |Global |#\[.*?\] *)*(Theorem|Lemma|Example|Corollary|Fact|Definition|Fixpoint|Inductive|Record|Instance|Notation|Context|Section|Ltac|Program Definition)\s+([A-Za-z0-9_\']+)?', re.M)

def stmts(text):
    ms = list(START.finditer(text))
    return [(m.start(), ms[i+1].start() if i+1 < len(ms) else len(text), m.group(1), m.group(2)) for i, m in enumerate(ms)]

def closure(root):
    body = {}
    kind = {}
    for d, _, fs in os.walk(root):
        for f in fs:
            if f.endswith(".v"):
                t = open(os.path.join(d, f)).read()
                for a, b, k, n in stmts(t):
                    if n:
                        body.setdefault(n, set()).update(re.findall(r"[A-Za-z_][A-Za-z0-9_']*", t[a:b]))
                        kind[n] = (k, f)
    return body, kind

def affected(failed, body, kind):
    """The Cnn_ theorems whose proofs rest on a failed statement."""
    fs, aff = set(failed), []
    for n, (k, f) in kind.items():
        if not re.match(r'C\d\d+_', n): continue
        seen, todo = set(), [n]
        while todo:
            x = todo.pop()
            if x in seen: continue
            seen.add(x)
            if x in fs: aff.append(n); break
            todo += [y for y in body.get(x, ()) if y in kind and kind[y][0] in ("Lemma", "Theorem", "Example", "Corollary", "Fact", "Instance")]
    return aff

def run(e):
    if os.path.exists(scratch): shutil.rmtree(scratch)
    subprocess.run(["cp", "-a", base, scratch], check=True)
    p = os.path.join(scratch, "theories", e["file"])
    s = open(p).read()
    for o, n in e["edits"]:
        if s.count(o) != 1:
            return {"error": f"{s.count(o)} occurrences of {o!r}"}
        s = s.replace(o, n)
    open(p, "w").write(s)
    body, kind = closure(os.path.join(base, "theories"))
    failed, t0 = [], time.time()
    broken = None
    ids = set(re.findall(r"C\d\d+", e["claim"]))
    props = os.path.join(scratch, "theories", "Props")
    targets = ["theories/Props/" + f[:-2] + ".vo" for f in sorted(os.listdir(props)) if f.endswith(".v")
               and any(i in ids for i in re.findall(r'^(?:Theorem|Lemma|Corollary)\s+(C\d\d+)_', open(os.path.join(props, f)).read(), re.M))]
    for it in range(40):
        # stop as soon as a theorem of the broken claim no longer proves
        if any(t.split("_")[0] in ids for t in affected(failed, body, kind)): break
        if time.time() - t0 > 1500: broken = "time"; break
        r = subprocess.run(["timeout", "900", "make", "-k", "-j3"] + targets, cwd=scratch, capture_output=True, text=True)
        if r.returncode == 0: break
        log = r.stdout + r.stderr
        errs = {}
        for m in re.finditer(r'File "\./(theories/[^"]+)", line (\d+), characters[^\n]*\n(?:Warning)?', log):
            if m.group(0).endswith("Warning"): continue
            errs.setdefault(m.group(1), int(m.group(2)))
        if not errs: broken = "no error located: " + log[-300:]; break
        stop = False
        for f, line in errs.items():
            fp = os.path.join(scratch, f)
            t = open(fp).read()
            pos = sum(len(x) + 1 for x in t.split("\n")[:line-1]) + len(t.split("\n")[line-1])
            st = [x for x in stmts(t) if x[0] <= pos]
            # the innermost statement that has a proof
            a, b, k, n = st[-1]
            seg = t[a:b]
            m = re.search(r'\bProof\b.*?\b(Qed|Defined)\.', seg, re.S)
            if k not in ("Theorem", "Lemma", "Example", "Corollary", "Fact", "Instance") or not m:
                broken = f"{f}:{line} in {k} {n}"; stop = True; continue
            failed.append(n)
            t = t[:a] + seg[:m.start()] + "Proof. Admitted." + seg[m.end():] + t[b:]
            open(fp, "w").write(t)
        if stop: break
    aff = affected(failed, body, kind)
    return {"failed": failed, "theorems": sorted(aff), "broken": broken, "secs": int(time.time() - t0)}

for e in json.load(open(edits)):
    r = run(e)
    claim = e["claim"]
    ids = re.findall(r"C\d\d+", claim)
    r["caught"] = any(t.split("_")[0] in ids for t in r.get("theorems", []))
    with open(out, "a") as f: f.write(json.dumps({**e, **r}) + "\n")
    print(e["name"], "caught" if r["caught"] else "NOT CAUGHT", r.get("error") or r.get("broken") or "", len(r.get("theorems", [])), flush=True)
