#!/usr/bin/env python3
"""Regenerate MANIFEST.json from the theorem names in rocq/theories/P_*.v.
A property is 'partial' when NOTES marks it so, or all its theorems end in _partial."""
import json, re, glob, os
root = os.path.dirname(os.path.dirname(os.path.abspath(__file__)))
notes = json.load(open(os.path.join(root, "tools", "notes.json")))
props = [json.loads(l)["id"] for l in open(os.path.join(root, "properties.jsonl")) if l.strip()]
th = {p: [] for p in props}
for f in sorted(glob.glob(os.path.join(root, "rocq/theories/P_*.v"))):
    for m in re.finditer(r"^Theorem\s+((C\d\d)_\w+)", open(f).read(), re.M):
        th[m.group(2)].append(m.group(1))
claims = []
for p in props:
    n = notes.get(p, {})
    if not th[p] and "status" not in n:
        continue
    status = n.get("status") or ("partial" if any(t.endswith("_partial") for t in th[p]) else "proved")
    claims.append({"property": p, "status": status, "theorems": th[p], "note": n.get("note", "")})
json.dump({"claims": claims}, open(os.path.join(root, "MANIFEST.json"), "w"), indent=1)
print(len(claims), "claims;", sum(len(c["theorems"]) for c in claims), "theorems; missing:",
      [p for p in props if p not in [c["property"] for c in claims]])
