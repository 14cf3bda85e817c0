#!/usr/bin/env python3
"""Regenerate /verif/MANIFEST.json from the theorem names in rocq/theories/Props/*.v and
the notes in tools/notes.json ({"C01": {"status": ..., "note": ...}})."""
import json, re, glob, os
root = os.path.dirname(os.path.dirname(os.path.abspath(__file__)))
notes = json.load(open(root + "/tools/notes.json"))
ths = {}
for f in sorted(glob.glob(root + "/rocq/theories/Props/*.v")):
    for m in re.finditer(r"^(?:Theorem|Lemma|Corollary)\s+((C\d\d+)_\w+)", open(f).read(), re.M):
        ths.setdefault(m.group(2), []).append(m.group(1))
props = [json.loads(l)["id"] for l in open(root + "/properties.jsonl") if l.strip()]
claims = []
for p in props:
    if p not in ths and p not in notes: continue
    n = notes.get(p, {})
    t = ths.get(p, [])
    st = n.get("status") or ("partial" if any(x.endswith("_partial") for x in t) or any(x.endswith("_refuted") for x in t) else "proved")
    claims.append({"property": p, "status": st, "theorems": t, "note": n.get("note", "")})
json.dump({"claims": claims}, open(root + "/MANIFEST.json", "w"), indent=1, ensure_ascii=False)
print(len(claims), "claims", sum(len(c["theorems"]) for c in claims), "theorems;", "missing:", [p for p in props if p not in ths])
