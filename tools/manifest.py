#!/usr/bin/env python3
"""Regenerate MANIFEST.json from the theorem names in rocq/theories/Props*.v and tools/notes.json.
A property is 'partial' when one of its theorems ends in _partial or notes.json says so."""
import glob, json, os, re
root = os.path.dirname(os.path.dirname(os.path.abspath(__file__)))
ids = [json.loads(l)["id"] for l in open(os.path.join(root, "properties.jsonl"))]
thms = {i: [] for i in ids}
for f in sorted(glob.glob(os.path.join(root, "rocq/theories/Props*.v"))):
    for m in re.finditer(r"^\s*Theorem (C\d+)_(\w+)", open(f).read(), re.M):
        thms[m.group(1)].append(f"{m.group(1)}_{m.group(2)}")
notes = json.load(open(os.path.join(root, "tools/notes.json")))
claims = []
for i in ids:
    n = notes.get(i, {})
    if not thms[i] and n.get("status") != "not_applicable":
        continue
    status = n.get("status") or ("partial" if any(t.endswith("_partial") for t in thms[i]) else "proved")
    claims.append({"property": i, "status": status, "theorems": thms[i], "note": n.get("note", "")})
json.dump({"claims": claims}, open(os.path.join(root, "MANIFEST.json"), "w"), indent=1)
print(len(claims), "claims; missing:", [i for i in ids if i not in {c["property"] for c in claims}])
