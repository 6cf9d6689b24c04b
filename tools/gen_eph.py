#!/usr/bin/env python3
"""Generate rocq/theories/M_EphTab.v: the tables of /repo/src/epv.cc, dmoon.cc and moon.cc.

A decimal literal is written as the pair (m, e) that stands for m * 10^e; nothing is rounded or normalised."""
import re
def lit(x):
    m = re.match(r'^([+-]?)(\d+)\.(\d+)(?:[eE]([+-]?\d+))?f?$', x.strip()); assert m, x
    v = int(m.group(2) + m.group(3)); e = int(m.group(4) or 0) - len(m.group(3))
    return (-v if m.group(1) == '-' else v, e)
def z(n): return str(n) if n >= 0 else f'({n})'
def chunks(items, per):
    return ';\n'.join('   ' + '; '.join(items[i:i+per]) for i in range(0, len(items), per))
out = ['''(** The tables of /repo/src/epv.cc, dmoon.cc and moon.cc.
    Generated by tools/gen_eph.py: the rows are the source's, in the source's
    order; the literal m * 10^e is the pair (m, e). *)
From Coq Require Import ZArith List.
Import ListNotations.
Open Scope Z_scope.

(** A decimal literal; the term (amplitude, phase, frequency) of a series. *)
Definition dec : Type := (Z * Z)%type.
Definition term : Type := (dec * dec * dec)%type.
Definition T (a ea b eb c ec : Z) : term := ((a, ea), (b, eb), (c, ec)).
''']
src = open('/repo/src/epv.cc').read()
cnt = {}
for m in re.finditer(r'constexpr int (N\w+) = (\d+), (N\w+) = (\d+), (N\w+) = (\d+), M', src):
    for i in (1, 3, 5): cnt[m.group(i)] = int(m.group(i + 1))
for b in 'ES':
    for p in '012':
        nm = b + p
        m = re.search(r'static const double ' + nm + r'\[3\]\[M' + nm + r'\]\[3\] = \{\n(.*?)\n    \};', src, re.S)
        body = m.group(1); off = m.start(1)
        blocks = re.findall(r'(?m)^        \{\n(.*?)^        \}', body, re.S)
        assert len(blocks) == 3
        for ax, blk in zip('XYZ', blocks):
            i0 = src.index(blk); l0 = src[:i0].count('\n') + 1; l1 = l0 + blk.rstrip('\n').count('\n')
            rows = re.findall(r'\{([^{}]*)\}', blk)
            assert len(rows) == cnt['N' + nm + ax], (nm, ax, len(rows))
            items = []
            for r in rows:
                f = [lit(x) for x in r.split(',')]; assert len(f) == 3
                items.append('T ' + ' '.join(f'{z(a)} {z(e)}' for a, e in f))
            out.append(f'(** epv.cc:{l0}-{l1}. *)\nDefinition epv_{nm}{ax.lower()} : list term :=\n  [\n' + chunks(items, 2) + '\n  ].\n')
def moon_tab(path, pref, names, cols):
    src = open('/repo/src/' + path).read()
    for nm in names:
        m = re.search(r'(?:static const )?(?:double|float) T' + nm + r'\[(\w+)\](?: = )?\{(.*?)\};', src, re.S)
        co = [lit(x) for x in m.group(2).replace('\n', ' ').split(',')]
        l0 = src[:m.start()].count('\n') + 1; l1 = src[:m.end()].count('\n') + 1
        m2 = re.search(r'static const int8_t IT' + nm + r'\[(\w+)\]\[(\d)\] = \{(.*?)\n    \};', src, re.S)
        assert m.group(1) == m2.group(1) and int(m2.group(2)) == cols
        k0 = src[:m2.start()].count('\n') + 1; k1 = src[:m2.end()].count('\n') + 1
        rows = [[int(x) for x in r.split(',')] for r in re.findall(r'\{([^{}]*)\}', re.sub(r'//.*', '', m2.group(3)))]
        n = m.group(1); n = int(n) if n.isdigit() else int(re.search(r'int ' + n + r' = (\d+);', src).group(1))
        assert len(rows) == len(co) == n and all(len(r) == cols for r in rows), (nm, len(rows), len(co), n)
        items = [f'(({z(a)}, {z(e)}), (' + ', '.join(z(x) for x in r) + '))' for (a, e), r in zip(co, rows)]
        ty = '(dec * (' + ' * '.join(['Z'] * cols) + '))%type'
        what = "M, M', d, f" + (', n' if cols == 5 else '')
        out.append(f'(** {path}:{l0}-{l1} (coefficient) and {path}:{k0}-{k1} ({what}). *)\nDefinition {pref}_{nm} : list {ty} :=\n  [\n' + chunks(items, 4) + '\n  ].\n')
moon_tab('dmoon.cc', 'dmoon', ['L', 'B', 'P'], 5)
moon_tab('moon.cc', 'moon', ['L', 'B', 'P'], 4)
open('/verif/rocq/theories/M_EphTab.v', 'w').write('\n'.join(out).rstrip() + '\n')
