#!/usr/bin/env python3
"""Writes MANIFEST.json from the theorems found in rocq/theories/Prop*.v (names start with the id)."""
import glob, json, re, os
root = os.path.dirname(os.path.dirname(os.path.abspath(__file__)))
props = [json.loads(l) for l in open(os.path.join(root, "properties.jsonl"))]
exec(open(os.path.join(root, "tools", "notes.py")).read())  # NOTES, PARTIAL, NA
found = {}
for f in sorted(glob.glob(os.path.join(root, "rocq/theories/Prop*.v"))):
    for m in re.finditer(r"^Theorem\s+((C\d+)_\w+)", open(f).read(), re.M):
        found.setdefault(m.group(2), []).append(m.group(1))
claims = []
for p in props:
    i = p["id"]
    ths = found.get(i, [])
    if i in NA:
        claims.append({"property": i, "status": "not_applicable", "theorems": ths, "note": NA[i]})
    elif ths:
        st = "partial" if i in PARTIAL or any(t.endswith("_partial") for t in ths) else "proved"
        claims.append({"property": i, "status": st, "theorems": ths, "note": NOTES.get(i, PARTIAL.get(i, ""))})
    else:
        claims.append({"property": i, "status": "partial", "theorems": [], "note": "not proved yet"})
json.dump({"claims": claims}, open(os.path.join(root, "MANIFEST.json"), "w"), indent=1)
print(len(claims), "claims;", sum(1 for c in claims if c["theorems"]), "with theorems;",
      "missing:", [c["property"] for c in claims if not c["theorems"]])
