#!/usr/bin/env python3
"""Generate rocq/theories/M_Obs.v (table of stations) from /repo/src/obs.cc."""
import os, re
root = os.path.dirname(os.path.dirname(os.path.abspath(__file__)))
src = open("/repo/src/obs.cc").read().split("\n")
rows = []
for no, l in enumerate(src, 1):
    m = re.match(r'\s*\{"([^"]*)",\s*"([^"]*)",\s*(east|west)\(([^)]*)\),\s*(north|south)\(([^)]*)\),\s*(-?[0-9.]+)\},?\s*$', l)
    if m: rows.append((no,) + m.groups())
def dec(s):
    s = s.strip(); neg = s.startswith("-"); s = s.lstrip("-")
    i, _, f = s.partition("."); f = f.rstrip("0")
    z = int(i + f or "0") * (-1 if neg else 1)
    return z, -len(f)
def lit(s):
    z, e = dec(s)
    zs = str(z) if z >= 0 else "(%d)" % z
    return "(n_lit %s %s)" % (zs, "(%d)" % e if e < 0 else e)
def ang(fn, a):
    d, m, s = [x.strip() for x in a.split(",")]
    return "(%s %d %d %s)" % (fn, int(d), int(m), lit(s))
print(len(rows))
out = open(os.path.join(root, "tools", "obs_head.txt")).read()
body = []
for (no, i, nm, ew, a, ns, b, h) in rows:
    body.append('  (* obs.cc:%d *) Obs "%s" "%s" %s %s %s' % (no, i, nm, ang(ew, a), ang(ns, b), lit(h)))
out = out.replace("@TABLE@", " ::\n".join(body) + " :: nil")
open(os.path.join(root, "rocq", "theories", "M_Obs.v"), "w").write(out)
ids = [r[1] for r in rows]
for k, x in enumerate(ids):
    f = next(j for j, y in enumerate(ids) if y.startswith(x))
    if f != k: print("not own:", x, ids[f])
print(len(set(ids)))
for r in rows:
    for a in (r[4], r[6]):
        d, m, s = [float(x) for x in a.split(",")]
        if m >= 60 or s >= 60: print(r)
print(min(float(r[7]) for r in rows), max(float(r[7]) for r in rows))
