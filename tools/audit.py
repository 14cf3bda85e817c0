#!/usr/bin/env python3
"""Print Assumptions for every property theorem; writes /verif/ASSUMPTIONS.txt (needs a built rocq/)."""
import re, glob, os, subprocess, tempfile
os.chdir(os.path.join(os.path.dirname(__file__), "../rocq"))
names = []
for f in sorted(glob.glob('theories/Props/*.v')):
    t = open(f).read(); m = os.path.basename(f)[:-2]
    names += [(m, n) for n in re.findall(r'^(?:Theorem|Lemma|Corollary)\s+(C\d\d\w*)', t, re.M)]
o = "".join(f"From Verif.Props Require {m}.\n" for m in sorted({m for m, _ in names}))
o += "".join(f"Print Assumptions {m}.{n}.\n" for m, n in names)
d = tempfile.mkdtemp(); open(d + "/Audit.v", "w").write(o)
r = subprocess.run(["coqc", "-Q", "theories", "Verif", d + "/Audit.v"], capture_output=True, text=True)
lines = r.stdout.strip().split("\n")
assert len(lines) == len(names) and r.returncode == 0, (r.stdout[-500:], r.stderr[-500:])
open("../ASSUMPTIONS.txt", "w").write("".join(f"{m}.{n}: {l}\n" for (m, n), l in zip(names, lines)))
