#!/usr/bin/env python3
"""Translate straight-line C++ double arithmetic into Gallina over Num.
Usage: c2v.py FILE FIRST LAST   prints one `let x := e in` per statement.
Only assignments, compound assignments and declarations are handled."""
import re, sys
FN = {'sin':'n_sin','cos':'n_cos','tan':'n_tan','asin':'n_asin','acos':'n_acos','atan':'n_atan','exp':'n_exp','log':'n_log',
      'sqrt':'n_sqrt','fabs':'n_abs','atan2':'n_atan2','fmod':'n_fmod','pow':'n_pow','trunc':'n_trunc','round':'n_round',
      'max':'n_max','min':'n_min'}
TOK = re.compile(r'\s*(?:(\d+\.\d*(?:[eE][-+]?\d+)?|\d+[eE][-+]?\d+|\.\d+|\d+)|([A-Za-z_][\w:]*)|(\+=|-=|\*=|/=|[-+*/()\[\],=<>]))')
def lit(s):
    m = re.match(r'^(\d*)\.?(\d*)(?:[eE]([-+]?\d+))?$', s)
    a, b, e = m.group(1) or '', m.group(2) or '', int(m.group(3) or 0)
    b2 = b.rstrip('0'); v = int((a + b2) or '0'); ex = e - len(b2)
    if v == 0: return '#0'
    while ex > 0 and ex <= 6: v *= 10; ex -= 1
    if ex == 0: return f'#{v}'
    return f'n_lit {v} ({ex})'
def toks(s):
    out = []; i = 0; s = s.strip()
    while i < len(s):
        m = TOK.match(s, i)
        if not m: raise SyntaxError(s[i:i+40])
        if m.group(1): out.append(('n', m.group(1)))
        elif m.group(2): out.append(('i', m.group(2)))
        else: out.append(('o', m.group(3)))
        i = m.end()
        while i < len(s) and s[i].isspace(): i += 1
    return out
class P:
    def __init__(self, t, ren): self.t, self.i, self.ren = t, 0, ren
    def pk(self): return self.t[self.i] if self.i < len(self.t) else (None, None)
    def nx(self): x = self.pk(); self.i += 1; return x
    def expr(self):
        a = self.term()
        while self.pk() in (('o','+'),('o','-')):
            o = self.nx()[1]; b = self.term(); a = (1, f'{self.p(a,1)} {o} {self.p(b,2)}')
        return a
    def term(self):
        a = self.unary()
        while self.pk() in (('o','*'),('o','/')):
            o = self.nx()[1]; b = self.unary(); a = (2, f'{self.p(a,2)} {o} {self.p(b,3)}')
        return a
    def unary(self):
        if self.pk() == ('o','-'):
            self.nx()
            if self.pk()[0] == 'n':
                s = lit(self.nx()[1]); 
                return (3.2, s if s == '#0' else (f'#(-{s[1:]})' if s[0] == '#' else 'n_lit (-' + s[6:].replace(' (', ') (', 1)))
            a = self.unary(); return (2.5, f'(- {self.p(a,4)})')
        if self.pk() == ('o','+'): self.nx(); return self.unary()
        return self.atom()
    def p(self, a, lvl): return a[1] if a[0] >= lvl else f'({a[1]})'
    def atom(self):
        k, v = self.nx()
        if k == 'n':
            return (3.2, lit(v))
        if k == 'i':
            name = v.replace('std::','').replace('sla::','')
            if self.pk() == ('o','('):
                self.nx(); args = []
                if self.pk() != ('o',')'):
                    while True:
                        args.append(self.expr())
                        if self.pk() == ('o',','): self.nx(); continue
                        break
                assert self.nx() == ('o',')'), (v, self.t[self.i-3:self.i+3])
                if name == 'double': return args[0] if args[0][0]>=3 else (4,f'({args[0][1]})')
                return (4, f'({FN.get(name,name)} ' + ' '.join(self.arg(a) for a in args) + ')')
            while self.pk() == ('o','['):
                self.nx(); k2, ix = self.nx(); assert k2 == 'n', ix; assert self.nx() == ('o',']'); name += '_'+ix
            return (4, self.ren.get(name, name))
        if (k, v) == ('o','('):
            a = self.expr(); assert self.nx() == ('o',')'), self.t[self.i-3:self.i+3]; return (4, f'({a[1]})')
        raise SyntaxError((k, v))
    def arg(self, a): return a[1] if a[0] == 4 or (a[0] == 3.2 and a[1][0] == '#') else f'({a[1]})'
def expr(s, ren={}):
    p = P(toks(s), ren); a = p.expr(); assert p.i == len(p.t), p.t[p.i:]; return a[1]
def strip(src):
    src = re.sub(r'/\*.*?\*/', lambda m: '\n'*m.group(0).count('\n'), src, flags=re.S)
    return re.sub(r'//[^\n]*', '', src)
def wrap(s, indent='  ', width=112):
    out = []; cur = ''
    for w in s.split(' '):
        if cur.strip() and len(cur) + 1 + len(w) > width: out.append(cur); cur = indent + '  ' + w
        else: cur = cur + ' ' + w if cur else w
    lead = len(s) - len(s.lstrip(' '))
    return '\n'.join([' ' * lead + out[0].strip() if out else ' ' * lead + cur.strip()] + out[1:] + ([cur] if out else []))
def stmts(src, ren={}, indent='  '):
    out = []
    for st in strip(src).split(';'):
        st = ' '.join(st.split())
        if not st: continue
        m = re.match(r'^(?:static |const |constexpr |double |float )*([A-Za-z_]\w*(?:\[\d+\])*) ?(=|\+=|-=|\*=|/=) ?(.*)$', st)
        if not m: raise SyntaxError('statement: ' + st)
        lhs = re.sub(r'\[(\d+)\]', r'_\1', m.group(1)); lhs = ren.get(lhs, lhs)
        e = expr(m.group(3), ren)
        if m.group(2) != '=':
            e = f'{lhs} {m.group(2)[0]} ({e})'
        out.append(wrap(f'{indent}let {lhs} := {e} in', indent))
    return '\n'.join(out)
if __name__ == '__main__':
    L = open(sys.argv[1]).read().split('\n')
    print(stmts('\n'.join(L[int(sys.argv[2])-1:int(sys.argv[3])])))
