#!/usr/bin/env python3
"""Translate the straight-line numeric parts of the Cpi-generated C files of
/repo into Gallina.  Usage: c2coq.py [/repo]   (writes rocq/theories/Gen*.v)

Every C statement in the configured line ranges is either translated or
matched by an explicit `skip` pattern; anything else is an error.

  double X = e;   X = e;   X op= e;      one Definition X (E : env) : R
  A[ijk] = e;                            one Definition out_A (E : env) : R
  B_U0D1[ijk]                            (B E 0 1), the array of field B_U0D1
                                         at the node the loop is at
  pow(x,n)  ->  x ^ n  (n a natural literal), Rpower x q otherwise
  decimal literal: the rational it denotes; a literal printed with 16 or more
  digits: the rational p/q, q <= 1000, of which it is the nearest double
  (0.33333333333333331 is 1/3).  M_PI is PI.
"""
import re, sys, os
from fractions import Fraction
REPO = sys.argv[1] if len(sys.argv) > 1 else '/repo'
OUT = os.environ.get('C2COQ_OUT') or os.path.join(os.path.dirname(os.path.abspath(__file__)), '..', 'rocq', 'theories')
RESERVED = {'R','E','PI','sqrt','exp','ln','sin','cos','pow','Rpower','env','mk','T1','T2','T3','T4',
            'nat','list','cos','tan','fst','snd','id','O','S','abs','Z','N','J','I'}
KW = {'double','const'}

class Err(Exception): pass

def strip_comments(t):
    def blank(m): return re.sub(r'[^\n]', ' ', m.group(0))
    t = re.sub(r'/\*.*?\*/', blank, t, flags=re.S)
    return re.sub(r'//[^\n]*', blank, t)

TOK = re.compile(r'\s*(\d+\.\d*(?:[eE][-+]?\d+)?|\.\d+|\d+|[A-Za-z_]\w*|==|\+=|-=|\*=|/=|->|[-+*/(),\[\]=;])')

def lex(s):
    out, p = [], 0
    s = s.strip()
    while p < len(s):
        m = TOK.match(s, p)
        if not m: raise Err('lex: ' + s[p:p+40])
        out.append(m.group(1)); p = m.end()
    return out

def lit(tok):
    if re.fullmatch(r'\d+', tok): return str(int(tok)), True
    f = Fraction(tok)
    digits = len(re.sub(r'[.eE].*|\D', '', tok)) + len(tok.split('.')[1]) if '.' in tok else len(tok)
    if digits >= 16:
        g = f.limit_denominator(1000)
        if float(g) != float(tok): raise Err('literal ' + tok)
        f = g
    if f.denominator == 1: return str(f.numerator), False
    return '(%d/%d)' % (f.numerator, f.denominator), False

class Parser:
    def __init__(self, toks, name): self.t, self.i, self.name = toks, 0, name
    def pk(self): return self.t[self.i] if self.i < len(self.t) else None
    def nx(self):
        x = self.pk(); self.i += 1; return x
    def ex(self, x):
        y = self.nx()
        if y != x: raise Err('expected %s got %s' % (x, y))
    def expr(self):
        a, ia = self.term()
        while self.pk() in ('+', '-'):
            o = self.nx(); b, ib = self.term(); a, ia = '(%s %s %s)' % (a, o, b), ia and ib
        return a, ia
    def term(self):
        a, ia = self.unary()
        while self.pk() in ('*', '/'):
            o = self.nx(); b, ib = self.unary()
            if o == '/' and ia and ib: raise Err('integer division')
            a, ia = '(%s %s %s)' % (a, o, b), ia and ib
        return a, ia
    def unary(self):
        if self.pk() == '-':
            self.nx(); a, ia = self.unary(); return '(- %s)' % a, ia
        if self.pk() == '+':
            self.nx(); return self.unary()
        return self.prim()
    def prim(self):
        x = self.nx()
        if x == '(':
            a = self.expr(); self.ex(')'); return a
        if x is None: raise Err('eof')
        if re.match(r'[\d.]', x): return lit(x)
        if x == 'M_PI': return 'PI', False
        if x in ('pow', 'sqrt', 'exp', 'log', 'fabs', 'Pow2', 'POW2'):
            self.ex('('); a, _ = self.expr()
            if x == 'pow':
                self.ex(','); j = self.i; b, ib = self.expr(); tb = self.t[j:self.i]; self.ex(')')
                if len(tb) == 1 and re.fullmatch(r'\d+', tb[0]): return '(%s ^ %s)' % (a, tb[0]), False
                if len(tb) == 2 and tb[0] == '-' and re.fullmatch(r'\d+', tb[1]): return '(/ (%s ^ %s))' % (a, tb[1]), False
                return '(Rpower %s %s)' % (a, b), False
            self.ex(')')
            if x in ('Pow2', 'POW2'): return '(%s ^ 2)' % a, False
            return '(%s %s)' % ({'sqrt': 'sqrt', 'exp': 'exp', 'log': 'ln', 'fabs': 'Rabs'}[x], a), False
        if self.pk() == '[':
            self.nx(); j = self.i
            while self.nx() != ']': pass
            ix = ''.join(self.t[j:self.i-1])
            return self.name(x, ix), False
        if self.pk() == '(':
            self.nx(); args = []; cur = ''; d = 0
            while True:
                y = self.nx()
                if y == ')' and d == 0: break
                if y == '(': d += 1
                if y == ')': d -= 1
                if y == ',' and d == 0: args.append(cur); cur = ''
                else: cur += y
            args.append(cur)
            return self.name(x, args), False
        return self.name(x, None), False

def split(n):
    m = re.fullmatch(r'(\w*?)_((?:[UD]\d)+)', n)
    if not m: return n, None, None
    return m.group(1), [int(c) for c in m.group(2)[1::2]], m.group(2)[0::2]

class Gen:
    def __init__(self, cfg):
        self.cfg = cfg; self.defs = []; self.env = {}; self.names = set(); self.kinds = {}
    def fld(self, base, arity, ud):
        if base in self.env and self.env[base] != arity: raise Err('arity of ' + base)
        if base in self.kinds and self.kinds[base] != ud: raise Err('index kind of ' + base)
        self.env[base] = arity; self.kinds[base] = ud
    def ename(self, b): return b + '_' if b in RESERVED else b
    def fresh(self, n):
        while n in self.names or n in RESERVED or n in self.envnames: n += '_'
        self.names.add(n); return n
    def run(self):
        src = open(os.path.join(REPO, self.cfg['src'])).read()
        clean = strip_comments(src)
        lines = clean.split('\n')
        self.envnames = set()
        for it in (0, 1):     # pass 0 collects the environment, pass 1 emits
            self.defs = []; self.names = set(); self.shared = {}
            for part in self.cfg['parts']: self.part(part, lines)
            self.envnames = {self.ename(b) for b in self.env}
        return self.emit()
    def part(self, part, lines):
        lo, hi = part['lines']; pre = part.get('prefix', '')
        skip = [re.compile(s) for s in part.get('skip', []) + self.cfg.get('skip', [])]
        loc = self.shared if part.get("share") else {}
        # statements with their first line
        buf = ''; start = None; stm = []
        for ln in range(lo, hi + 1):
            l = lines[ln - 1]
            if not buf.strip():
                start = ln
                if any(r.fullmatch(l.strip()) for r in skip) or not l.strip(): continue
            buf += l + '\n'
            while ';' in buf:
                a, buf = buf.split(';', 1)
                stm.append((start, ln, a.strip()))
                start = ln
            if not buf.strip(): buf = ''
        if buf.strip(): raise Err('trailing: ' + buf)
        def name(x, ix):
            if isinstance(ix, list):
                r = self.cfg.get('calls', {}).get(x)
                if r is None: raise Err('call ' + x)
                k, v = r(ix)
                if k == 'fld':
                    self.fld(v[0], v[1], None)
                    return '(%s E%s)' % (self.ename(v[0]), ''.join(' %s' % a for a in v[2]))
                return v
            if ix is not None:
                if x == 'kd':
                    self.fld('kd', 0, None); return '(kd E)'
                if ix not in self.cfg.get('ix', ['ijk']): raise Err('index %s[%s]' % (x, ix))
                if ('out', x) in loc: return '(%s E)' % loc[('out', x)]
            elif x in loc: return '(%s E)' % loc[x]
            elif x not in self.cfg.get('scalars', []) : raise Err('unknown name ' + x)
            b, idx, ud = split(x)
            if idx is None or b in self.cfg.get('nosplit', []):
                self.fld(x, 0, None); return '(%s E)' % self.ename(x)
            self.fld(b, len(idx), ud)
            return '(%s E%s)' % (self.ename(b), ''.join(' %d' % k for k in idx))
        for (l0, l1, s) in stm:
            if any(r.fullmatch(re.sub(r'\s+', ' ', s)) for r in skip): continue
            m = re.fullmatch(r'(?:const\s+)?(?:double\s+)?(\w+)\s*(?:\[([^\]]*)\])?(?:\[([^\]]*)\])?\s*([-+*/]?=)\s*(.*)', s, flags=re.S)
            try:
                if not m: raise Err('statement')
                n, ix, ix2, op, e = m.groups()
                p = Parser(lex(e), name); v, _ = p.expr()
                if p.pk() is not None: raise Err('rest of expression')
                key = ('out', n) if ix is not None else n
                if op != '=': v = '(%s %s %s)' % (name(n, ix), op[0], v)
                c = self.fresh(pre + (('out_' + n) if ix is not None else n))
                self.defs.append((l0, l1, c, v)); loc[key] = c
            except Err as ex:
                raise Err('%s:%d: %s\n   in %s' % (self.cfg['src'], l0, ex, s[:200]))
    def emit(self):
        o = []
        o.append('(* Generated by tools/c2coq.py from /repo/%s: do not edit.' % self.cfg['src'])
        o.append('   %s *)' % self.cfg['doc'])
        o.append('Require Import Reals.\nLocal Open Scope R_scope.\n')
        o.append('(* /repo/%s:%s: the values the loop body reads at its node%s: field B_U0D1 is B 0 1 *)'
                 % (self.cfg['src'], '%d-%d' % (self.cfg['parts'][0]['lines'][0], self.cfg['parts'][-1]['lines'][1]), self.cfg.get('envdoc', '')))
        o.append('Record env : Type := mk {')
        fs = []
        for b in sorted(self.env):
            fs.append('  %s : %sR' % (self.ename(b), 'nat -> ' * self.env[b]))
        o.append(';\n'.join(fs) + ' }.\n')
        for (l0, l1, c, v) in self.defs:
            o.append('(* /repo/%s:%s *)' % (self.cfg['src'], '%d' % l0 if l0 == l1 else '%d-%d' % (l0, l1)))
            o.append('Definition %s (E : env) : R :=' % c)
            w = v[1:-1] if v.startswith('(') and bal(v[1:-1]) else v
            line = ' '
            for tok in w.split(' '):
                if len(line) + len(tok) > 96: o.append(line); line = ' '
                line += ' ' + tok
            o.append(line + '.\n')
        # tensors written
        fam = {}
        for (l0, l1, c, v) in self.defs:
            m = re.fullmatch(r'(?:d_|v_)?out_(\w*?)_((?:[UD]\d)+)', c)
            if m: fam.setdefault(m.group(1), []).append((c, [int(x) for x in m.group(2)[1::2]], l0, l1))
        for b in sorted(fam):
            n = len(fam[b][0][1]); vs = ['i', 'j', 'k', 'l'][:n]
            o.append('(* /repo/%s:%d-%d: the arrays %s_.. after the loop body; the others keep their value *)'
                     % (self.cfg['src'], min(x[2] for x in fam[b]), max(x[3] for x in fam[b]), b))
            o.append('Definition store_%s (E : env) (old : %sR) : %sR :=' % (b, 'nat -> ' * n, 'nat -> ' * n))
            o.append('  fun %s => match %s with' % (' '.join(vs), ', '.join(vs)))
            for (c, ix, _, _) in fam[b]:
                o.append('  | %s => %s E' % (', '.join(('%d%%nat' % x) for x in ix), c))
            o.append('  | %s => old %s\n  end.\n' % (', '.join('_' * n), ' '.join(vs)))
        return '\n'.join(o)

def bal(s):
    d = 0
    for c in s:
        if c == '(': d += 1
        if c == ')':
            d -= 1
            if d < 0: return False
    return d == 0

from c2coq_cfg import CONFIGS
if __name__ == '__main__':
    for c in CONFIGS:
        t = Gen(c).run()
        p = os.path.join(OUT, c['mod'] + '.v')
        if not os.path.exists(p) or open(p).read() != t: open(p, 'w').write(t)
        print(c['mod'], len(t.split('\n')))
