#!/usr/bin/env python3
"""Translate the analytic Kerr-Schild functions of /repo (Free_Data/fd_KerrSchild_*.c)
into Gallina.  Usage: ks2coq.py [/repo]   (writes rocq/theories/GenKs*.v)

  KS_func_def_macro(F) KS_func_args_macro { return e; }   Definition ks_F (P : kspar) (f : ksarg) : R
  _dgamma_D0D1D2[ijk] = e;                                Definition ks_dgamma_D0D1D2
  fd_ks_X(x,y,z), fd_ks_dX_D0_, x                         the fields fX, fdX0, fx of f (fd_KerrSchild_header.h:64-86)
  fd_ks_H(x,y,z), fd_ks_dH_D0 KS_func_pass_args_macro     (ks_H P f), (ks_dH_D0 P f)
  pow/Power(e,n), n natural: e ^ n;  (e,0.5) (e,1.5) (e,2.5): sqrt e, (sqrt e)^3, (sqrt e)^5;
  (e,-0.5): / sqrt e      (pow of a non-negative base)
  literals: 1., 2., 0.5 ... the rational;  0.707106781186548 -> phs P, the value the
  code uses for 1/sqrt(2);  1.4142135623731 -> 2 * phs P;  2.121320343559644 -> 3 * phs P
Anything else is an error.
"""
import re, sys, os
from fractions import Fraction
REPO = sys.argv[1] if len(sys.argv) > 1 else '/repo'
OUT = os.environ.get('C2COQ_OUT') or os.path.join(os.path.dirname(os.path.abspath(__file__)), '..', 'rocq', 'theories')
D = 'Src/Main/Modules/Physics/Free_Data/'
GLOB = {'M_BH': '(pM P)', 'a_BH': '(pa P)', 'phiy': '(pphiy P)', 'phiz': '(pphiz P)', 'Bx': '(pBx P)',
        'By': '(pBy P)', 'Bz': '(pBz P)', 'B2': '(pB2 P)', 'Lambda': '(pL P)'}
class Err(Exception): pass
def clean(t):
    bl = lambda m: re.sub(r'[^\n]', ' ', m.group(0))
    t = re.sub(r'/\*.*?\*/', bl, t, flags=re.S)
    return re.sub(r'//[^\n]*', bl, t)
TOK = re.compile(r'\s*(\d+\.\d*|\d+|[A-Za-z_]\w*|[-+*/(),])')
def lex(s):
    out, p = [], 0; s = s.strip()
    while p < len(s):
        m = TOK.match(s, p)
        if not m: raise Err('lex ' + s[p:p+30])
        out.append(m.group(1)); p = m.end()
    return out
def lit(t):
    sp = {'0.707106781186548': '(phs P)', '1.4142135623731': '(2 * phs P)', '2.121320343559644': '(3 * phs P)'}
    if t in sp: return sp[t]
    f = Fraction(t)
    if f.denominator == 1: return str(f.numerator)
    if f.denominator > 8: raise Err('literal ' + t)
    return '(%d/%d)' % (f.numerator, f.denominator)
class P:
    def __init__(s, t): s.t, s.i = t, 0
    def pk(s): return s.t[s.i] if s.i < len(s.t) else None
    def nx(s): s.i += 1; return s.t[s.i-1]
    def ex(s, x):
        if s.nx() != x: raise Err('expected %s near %s' % (x, s.t[s.i-3:s.i+3]))
    def expr(s):
        a = s.term()
        while s.pk() in ('+', '-'):
            o = s.nx(); a = '(%s %s %s)' % (a, o, s.term())
        return a
    def term(s):
        a = s.un()
        while s.pk() in ('*', '/'):
            o = s.nx(); b = s.un()
            if o == '/' and re.fullmatch(r'\d+', a) and re.fullmatch(r'\d+', b): raise Err('int div')
            a = '(%s %s %s)' % (a, o, b)
        return a
    def un(s):
        if s.pk() == '-': s.nx(); return '(- %s)' % s.un()
        return s.prim()
    def xyz(s):
        for k in ('(', 'x', ',', 'y', ',', 'z', ')'): s.ex(k)
    def prim(s):
        x = s.nx()
        if x == '(':
            a = s.expr(); s.ex(')'); return a
        if re.match(r'\d', x): return lit(x)
        if x in GLOB: return GLOB[x]
        if x in ('x', 'y', 'z'): return '(f%s f)' % x
        if x == 'Pattern':
            for k in ('(', 'a', ',', 'BH', ')'): s.ex(k)
            return GLOB['a_BH']
        if x == 'Hold':
            s.ex('('); a = s.expr(); s.ex(')'); return a
        if x in ('Sin', 'Cos', 'sin', 'cos', 'sqrt'):
            s.ex('('); a = s.expr(); s.ex(')'); return '(%s %s)' % (x.lower(), a)
        if x in ('pow', 'Power'):
            s.ex('('); a = s.expr(); s.ex(','); j = s.i; s.expr(); e = ''.join(s.t[j:s.i]); s.ex(')')
            if re.fullmatch(r'\d+', e): return '(%s ^ %s)' % (a, e)
            r = {'0.5': '(sqrt %s)', '1.5': '((sqrt %s) ^ 3)', '2.5': '((sqrt %s) ^ 5)', '-0.5': '(/ (sqrt %s))'}
            if e not in r: raise Err('exponent ' + e)
            return r[e] % a
        m = re.fullmatch(r'fd_ks_(\w+)', x)
        if m:
            n = m.group(1)
            if n in ('X', 'Y', 'Z', 'R'): s.xyz(); return '(f%s f)' % n
            q = re.fullmatch(r'd([XYZ])_D(\d)_', n)
            if q: return '(fd%s%s f)' % q.groups()
            if s.pk() == 'KS_func_pass_args_macro': s.nx()
            elif n in ('H', 'k0', 'k1', 'k2', 'kt', 'c', 'K0', 'K1', 'K2'): s.xyz()
            else: raise Err('name ' + x)
            return '(ks_%s P f)' % n
        raise Err('token ' + x)
def emit(n, cite, e):
    p = P(lex(e)); v = p.expr()
    if p.pk() is not None: raise Err('rest')
    if v.startswith('(') and v.endswith(')') and bal(v[1:-1]): v = v[1:-1]
    o = ['(* %s *)' % cite, 'Definition ks_%s (P : kspar) (f : ksarg) : R :=' % n]
    line = ' '
    for tok in v.split(' '):
        if len(line) + len(tok) > 100: o.append(line); line = ' '
        line += ' ' + tok
    o.append(line + '.'); return '\n'.join(o)
def bal(s):
    d = 0
    for c in s:
        d += (c == '(') - (c == ')')
        if d < 0: return False
    return d == 0
def funs(fn):
    src = open(os.path.join(REPO, D + fn)).read(); t = clean(src); out = []
    for m in re.finditer(r'KS_func_def_macro\((\w+)\)\s*KS_func_args_macro\s*\{(.*?)\n\}', t, flags=re.S):
        b = m.group(2).strip()
        if not (b.startswith('return') and b.endswith(';')): raise Err(m.group(1))
        l0 = t.count('\n', 0, m.start()) + 1; l1 = t.count('\n', 0, m.end()) + 1
        out.append((m.group(1), '/repo/%s:%d-%d' % (D + fn, l0, l1), b[6:-1]))
    if len(out) != t.count('return'): raise Err('functions missed in ' + fn)
    return out
def gams(fn):
    src = open(os.path.join(REPO, D + fn)).read(); t = clean(src); out = []
    for m in re.finditer(r'\b_(d*gamma_[D0-9]+)\[ijk\]\s*=(.*?);', t, flags=re.S):
        l0 = t.count('\n', 0, m.start()) + 1; l1 = t.count('\n', 0, m.end()) + 1
        out.append((m.group(1), '/repo/%s:%d-%d' % (D + fn, l0, l1), m.group(2)))
    if len(out) != t.count('[ijk]=') + t.count('[ijk] ='): raise Err('stores')
    return out
HDR = '''(* Generated by tools/ks2coq.py from %s: do not edit. *)
From Coq Require Import Reals.
%sLocal Open Scope R_scope.

'''
REC = '''(* /repo/%sfd_KerrSchild_params.c:24-29: the global parameters; [phs] is the value the code
   uses for 1/sqrt(2), written 0.707106781186548 *)
Record kspar : Type := mkpar { pM : R; pa : R; pphiy : R; pphiz : R; pBx : R; pBy : R; pBz : R;
  pB2 : R; pL : R; phs : R }.
(* struct Analytic_Func_Arg_S (Src/Main/Modules/Physics/Free_Data/fd_header.h:19-26) as filled by KS_set_args *)
Record ksarg : Type := mkarg { fx : R; fy : R; fz : R; fX : R; fY : R; fZ : R; fR : R;
  fdX0 : R; fdX1 : R; fdX2 : R; fdY0 : R; fdY1 : R; fdY2 : R; fdZ0 : R; fdZ1 : R; fdZ2 : R }.

''' % D
def write(mod, t):
    p = os.path.join(OUT, mod + '.v')
    if not os.path.exists(p) or open(p).read() != t: open(p, 'w').write(t)
    print(mod, len(t))
def tab(base, names):
    o = []
    def pat(n): return [int(c) for c in re.search(r'_((?:D\d)+)$', n).group(1)[1::2]]
    for k in (0, 1, 2, 3):
        ns = [n for n in names if re.fullmatch('d' * k + re.escape(base) + (r'_(D\d)+' if k or base == 'gamma' else ''), n)]
        if not ns or (k == 0 and base != 'gamma'): continue
        m = len(pat(ns[0])); vs = 'ijklm'[:m]
        o.append('(* the functions %s by their indices *)' % ('d' * k + base + '_D..'))
        o.append('Definition kst_%s%s (P : kspar) (f : ksarg) (%s : nat) : R :=' % ('d' * k, base, ' '.join(vs)))
        o.append('  match %s with' % ', '.join(vs))
        for n in sorted(ns, key=pat): o.append('  | %s => ks_%s P f' % (', '.join('%d%%nat' % c for c in pat(n)), n))
        o.append('  | %s => 0\n  end.' % ', '.join('_' * m))
    return '\n'.join(o) + '\n'
if __name__ == '__main__':
    a = funs('fd_KerrSchild_R_X_Y_Z.c'); b = funs('fd_KerrSchild_H_K0_K1_K2.c')
    c = funs('fd_KerrSchild_c_k0_k1_k2_kt.c'); g = gams('fd_KerrSchild_g_dg_ddg_dddg.c')
    order = lambda l: sorted(l, key=lambda q: len(re.match('d*', q[0]).group(0)))
    xyz = [q for q in a if re.fullmatch(r'd*[XYZ](_\w+)?', q[0])]; r = [q for q in a if q not in xyz]
    def mod(m, imp, fns, fs, bases, rec=''):
        t = HDR % (fs, ''.join('Require Import Verif.%s.\n' % i for i in imp)) + rec
        t += '\n\n'.join(emit(*q) for q in order(fns)) + '\n\n' + '\n'.join(tab(x, [q[0] for q in fns]) for x in bases)
        write(m, t)
    mod('GenKsX', [], xyz, 'fd_KerrSchild_R_X_Y_Z.c', ['X', 'Y', 'Z'], REC)
    mod('GenKsR', ['GenKsX'], r, 'fd_KerrSchild_R_X_Y_Z.c', ['R'])
    mod('GenKsH', ['GenKsX', 'GenKsR'], b, 'fd_KerrSchild_H_K0_K1_K2.c', ['H', 'K0', 'K1', 'K2'])
    mod('GenKsK', ['GenKsX', 'GenKsR', 'GenKsH'], c, 'fd_KerrSchild_c_k0_k1_k2_kt.c', ['c', 'k0', 'k1', 'k2', 'kt'])
    mod('GenKsG', ['GenKsX', 'GenKsR', 'GenKsH', 'GenKsK'], g, 'fd_KerrSchild_g_dg_ddg_dddg.c', ['gamma'])
