#!/usr/bin/env python3
"""upd.py FILE.json : merge {id: {note, status, design, statement, quantifier, title, why_tests_cant, anchors}}
into notes.json, DESIGN.md (per-property line) and properties.jsonl."""
import json, os, re, sys
root = os.path.dirname(os.path.dirname(os.path.abspath(__file__)))
u = json.load(open(sys.argv[1]))
np = os.path.join(root, "tools", "notes.json"); notes = json.load(open(np))
pp = os.path.join(root, "properties.jsonl"); props = [json.loads(l) for l in open(pp) if l.strip()]
dp = os.path.join(root, "DESIGN.md"); d = open(dp).read()
for i, e in u.items():
    if "note" in e or "status" in e:
        n = notes.setdefault(i, {})
        for k in ("note", "status"):
            if k in e: n[k] = e[k]
    p = next((x for x in props if x["id"] == i), None)
    if p is None:
        p = {"id": i}; props.append(p)
    for k in ("title", "statement", "quantifier", "why_tests_cant", "anchors"):
        if k in e: p[k] = e[k]
    if "design" in e:
        line = "* **%s** %s. %s" % (i, p["title"].rstrip("."), e["design"])
        if re.search(r"(?m)^\* \*\*%s\*\* " % i, d):
            d = re.sub(r"(?m)^\* \*\*%s\*\* .*$" % i, lambda m: line, d)
        else:
            last = list(re.finditer(r"(?m)^\* \*\*C\d\d\*\* .*$", d))[-1]
            d = d[:last.end()] + "\n" + line + d[last.end():]
json.dump(notes, open(np, "w"), indent=1)
open(pp, "w").write("\n".join(json.dumps(p) for p in props) + "\n")
open(dp, "w").write(d)
