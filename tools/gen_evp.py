#!/usr/bin/env python3
"""Generate rocq/theories/M_EvpTab.v: the tables of /repo/src/evp.cc.

A decimal literal is written as the pair (m, e) that stands for m * 10^e; nothing is rounded or normalised."""
import re
def lit(x):
    m = re.match(r'^([+-]?)(\d+)\.(\d+)(?:[eE]([+-]?\d+))?f?$', x.strip()); assert m, x
    v = int(m.group(2) + m.group(3)); e = int(m.group(4) or 0) - len(m.group(3))
    return (-v if m.group(1) == '-' else v, e)
def z(n): return str(n) if n >= 0 else f'({n})'
def d(x): return '(%s, %s)' % tuple(map(z, lit(x)))
src = open('/repo/src/evp.cc').read()
out = ['''(** The tables of /repo/src/evp.cc.
    Generated by tools/gen_evp.py: the rows are the source's, in the source's
    order; the literal m * 10^e is the pair (m, e). *)
From Coq Require Import ZArith List.
From Verif Require Import M_EphTab.
Import ListNotations.
Open Scope Z_scope.
''']
for nm, rows, cols in [('DCFEL', 8, 3), ('DCEPS', 1, 3), ('CCSEL', 17, 3), ('DCARGS', 15, 2), ('CCAMPS', 15, 5), ('CCSEC', 4, 3),
                       ('DCARGM', 3, 2), ('CCAMPM', 3, 4), ('CCPAMV', 1, 4), ('CCPAM', 1, 4)]:
    dim = f'[{rows}][{cols}]' if rows > 1 else f'[{cols}]'
    m = re.search(r'static const (?:double|float) ' + nm + re.escape(dim) + r' = \{\n(.*?)\n    \};', src, re.S); assert m, nm
    l0 = src[:m.start(1)].count('\n') + 1; l1 = l0 + m.group(1).count('\n')
    if rows > 1:
        r = [x.split(',') for x in re.findall(r'\{([^{}]*)\}', m.group(1))]
        assert len(r) == rows and all(len(x) == cols for x in r), nm
        ty = {2: '(dec * dec)', 3: '(dec * dec * dec)', 4: '(dec * dec * dec * dec)', 5: '(dec * dec * dec * dec * dec)'}[cols]
        body = ';\n'.join('   (' + ', '.join(d(y) for y in x) + ')' for x in r)
        out.append(f'(** evp.cc:{l0}-{l1}. *)\nDefinition {nm.lower()} : list {ty}%type :=\n  [\n{body}\n  ].\n')
    else:
        r = m.group(1).split(','); assert len(r) == cols
        ty = {3: '(dec * dec * dec)%type', 4: 'list dec'}[cols]
        o, c, s = ('(', ')', ', ') if cols == 3 else ('[', ']', '; ')
        out.append(f'(** evp.cc:{l0}{"-" + str(l1) if l1 > l0 else ""}. *)\nDefinition {nm.lower()} : {ty} :=\n  {o}{s.join(d(y) for y in r)}{c}.\n')
open('/verif/rocq/theories/M_EvpTab.v', 'w').write('\n'.join(out))
