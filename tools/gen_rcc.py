#!/usr/bin/env python3
"""Generate rocq/theories/M_RccTab.v: the table of /repo/src/rcc.cc.

A decimal literal is written as the pair (m, e) that stands for m * 10^e; nothing is rounded or normalised."""
import re
def lit(x):
    m = re.match(r'^([+-]?)(\d+)\.(\d+)(?:[eE]([+-]?\d+))?$', x.strip()); assert m, x
    v = int(m.group(2) + m.group(3)); e = int(m.group(4) or 0) - len(m.group(3))
    return (-v if m.group(1) == '-' else v, e)
def z(n): return str(n) if n >= 0 else f'({n})'
src = open('/repo/src/rcc.cc').read()
m = re.search(r'static const double fb_coeffs\[787\]\[3\] = \{\n(.*?)\n    \};', src, re.S)
l0 = src[:m.start(1)].count('\n') + 1; l1 = src[:m.end(1)].count('\n') + 1
rows = re.findall(r'\{([^{}]*)\}', m.group(1))
assert len(rows) == 787
items = []
for r in rows:
    f = [lit(x) for x in r.split(',')]; assert len(f) == 3
    items.append('T ' + ' '.join(f'{z(a)} {z(e)}' for a, e in f))
body = ';\n'.join('   ' + '; '.join(items[i:i+2]) for i in range(0, len(items), 2))
open('/verif/rocq/theories/M_RccTab.v', 'w').write(f'''(** The table of /repo/src/rcc.cc.  Generated by tools/gen_rcc.py: the rows are
    the source's, in the source's order; the literal m * 10^e is the pair (m, e). *)
From Coq Require Import ZArith List.
From Verif Require Import M_EphTab.
Import ListNotations.
Open Scope Z_scope.

(** rcc.cc:{l0}-{l1}: (amplitude, frequency, phase). *)
Definition fb_coeffs : list term :=
  [
{body}
  ].
''')
