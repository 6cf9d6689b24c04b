#!/usr/bin/env python3
"""Generate rocq/theories/M_Nutc.v from /repo/src/nutc.cc and nutc80.cc."""
import re, sys, os
sys.path.insert(0, os.path.dirname(os.path.abspath(__file__)))
from c2v import stmts, strip, wrap
src = open('/repo/src/nutc.cc').read()
def table(name):
    m = re.search(r'static const [\w ]+ ' + name + r'\[NUM_TERMS\]\[\d\] = \{(.*?)\n    \};', src, re.S)
    l0 = src[:m.start()].count('\n') + 1; l1 = src[:m.end()].count('\n') + 1
    return [[x.strip() for x in r.split(',')] for r in re.findall(r'\{([^{}]*)\}', m.group(1))], l0, l1
def tenths(x):
    m = re.match(r'^(-?)(\d+)\.(\d)$', x); assert m, x
    v = int(m.group(2)) * 10 + int(m.group(3)); return -v if m.group(1) else v
def emit(name, rows, cite, per=4):
    out = [f'(** {cite} *)', f'Definition {name} : list (list Z) :=', '  [']
    items = ['[' + '; '.join(str(x) if x >= 0 else f'({x})' for x in r) + ']' for r in rows]
    for i in range(0, len(items), per): out.append('   ' + '; '.join(items[i:i+per]) + (';' if i + per < len(items) else ''))
    out.append('  ]%Z.'); return '\n'.join(out)
fa, a0, a1 = table('fa_coef'); ps, p0, p1 = table('l_psi'); oe, o0, o1 = table('o_eps')
assert len(fa) == len(ps) == len(oe) == 194 and all(len(r) == 9 for r in fa) and all(len(r) == 4 for r in ps + oe)
L = src.split('\n')
def find(s, start=0): return next(i for i in range(start, len(L)) if s in L[i])
c0 = find('const double centuries'); lp = find('for (int i = NUM_TERMS - 1'); fin = find('change of units')
consts = 'const double DEGREES_2_RADIANS = 1.745329251994329576923691e-2; const double ARCSECS_2_RADIANS = 4.848136811095359935899141e-6;' \
         'const double ARCSECS_PER_CIRCLE = 1296000.0; const double J2000_EPOCH = 51544.5; const double DAYS_PER_JCENTURY = 36525.0;'
args = stmts(consts) + '\n' + stmts('\n'.join(L[c0:find('geodesic nutation')]))
dp0 = stmts('\n'.join(L[find('geodesic nutation'):find('double de = 0.0')]))
end = stmts(consts.split(';')[1] + ';' + '\n'.join(L[fin:find('}', fin)]))
src80 = open('/repo/src/nutc80.cc').read(); K = src80.split('\n')
b0 = next(i for i in range(len(K)) if K[i].startswith('void nutc80')); b1 = next(i for i in range(b0, len(K)) if K[i] == '}')
s0 = next(i for i in range(b0, b1) if 'multiples of arguments' in K[i]); s1 = next(i for i in range(s0, b1) if 'psi = ' in K[i])
while K[s1-1].strip() == '' or K[s1-1].strip().startswith('//'): s1 -= 1
k0 = next(i for i in range(b0, b1) if 'double centuries' in K[i])
const80 = '\n'.join(x for x in stmts('\n'.join(K[b0+1:k0])).split('\n') if 'TURNS' not in x); args80 = stmts('\n'.join(K[b0+1:s0])); ser80 = stmts('\n'.join(K[s0:s1])); end80 = stmts('\n'.join(K[s1:b1]))
o = f'''(** Models of the nutation routines, over any [Num].
    Generated by tools/gen_nutc.py from /repo/src/nutc.cc and nutc80.cc: the
    statements and table rows are the source's, in the source's order. *)
From Coq Require Import ZArith Bool List.
From Verif Require Import Num M_Angle.
Import ListNotations.
Open Scope num_scope.

{emit('fa_coef', [[int(x) for x in r] for r in fa], f'nutc.cc:{a0}-{a1}, coefficients of the fundamental angles.')}

{emit('l_psi', [[tenths(x) for x in r] for r in ps], f'nutc.cc:{p0}-{p1}, longitude series; every literal is written in tenths.', 5)}

{emit('o_eps', [[tenths(x) for x in r] for r in oe], f'nutc.cc:{o0}-{o1}, obliquity series, in tenths.', 5)}

Section Nutc.
Context {{N : Num}}.

(** nutc.cc:{c0+1}-{find('geodesic nutation')-1}: the interval in Julian centuries and the nine fundamental
    angles, in the order of the columns of fa_coef. *)
Definition nutc_args (tdb : N) : N * list N :=
{args}
  (centuries, [ma_moon; ma_sun; mla_moon; me_moon; ml_moon; ml_venus; ml_mars; ml_jupiter; ml_saturn]).

(** nutc.cc:{lp+2}-{lp+10}: theta, the sum over the nine columns, left to right.
    (The model starts the sum from the first product, as the source does.) *)
Definition nutc_theta (row : list Z) (angles : list N) : N :=
  match map (fun p => n_ofZ (fst p) * snd p) (combine row angles) with
  | [] => #0
  | x :: r => fold_left (fun a b => a + b) r x
  end.

(** nutc.cc:{lp+11}-{lp+14}: one summand of dp or de. *)
Definition nutc_term (coef : list Z) (centuries c s : N) : N :=
  match coef with
  | [c0; c1; c2; c3] =>
    (n_lit c0 (-1) + n_lit c2 (-1) * centuries) * c + (n_lit c1 (-1) + n_lit c3 (-1) * centuries) * s
  | _ => #0
  end.

(** nutc.cc:{lp+1}-{lp+15}: the loop, from the last row to the first. *)
Definition nutc_series (centuries : N) (angles : list N) (table : list (list Z)) (init : N) : N :=
  fold_right (fun p acc =>
    let theta := nutc_theta (fst p) angles in
    acc + nutc_term (snd p) centuries (n_cos theta) (n_sin theta)) init (combine fa_coef table).

(** nutc.cc:47-{find('}', fin)+1}: (psi, eps, eps0). *)
Definition nutc (tdb : N) : N * N * N :=
  let (centuries, angles) := nutc_args tdb in
  let ma_sun := nth 1 angles #0 in
{dp0}
  let dp := nutc_series centuries angles l_psi dp in
  let de := nutc_series centuries angles o_eps #0 in
{end}
  (psi, eps, eps0).

(** nutc80.cc:{b0+2}-{s0}: the interval in Julian centuries and the five
    fundamental arguments. *)
Definition nutc80_args (tdb : N) : N * N * N * N * N * N :=
{args80}
  (centuries, el, elp, f, d, om).

(** nutc80.cc:{s0+1}-{s1}: the series, in units of 0.0001 arcsecond. *)
Definition nutc80_series (centuries el elp f d om : N) : N * N :=
{ser80}
  (dp, de).

(** nutc80.cc:{b0+1}-{b1+1}: (psi, eps, eps0). *)
Definition nutc80 (tdb : N) : N * N * N :=
{const80}
  let '(centuries, el, elp, f, d, om) := nutc80_args tdb in
  let (dp, de) := nutc80_series centuries el elp f d om in
{end80}
  (psi, eps, eps0).

End Nutc.
'''
open(os.path.join(os.path.dirname(os.path.abspath(__file__)), '../rocq/theories/M_Nutc.v'), 'w').write(o)
