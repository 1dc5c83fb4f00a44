#!/usr/bin/env python3
"""Generate rocq/theories/GenObsDisp.v from the if/else chains of obs_calculate.c (calc_ADM_P, calc_ADM_J, calc_ADM_mass,
calc_Kommar_mass).  Each function has four chains: which patches are collected, the check in the volume loop, the flags in the
surface loop, and the formula called at the end.  The loops themselves are modelled by hand in ObsDispModel.v."""
import re, sys
SRC = '/repo/Src/Main/Modules/Physics/Observe/obs_calculate.c'
raw = open(SRC).read()
# blank out comments, keep line structure
txt = re.sub(r'/\*.*?\*/', lambda m: re.sub(r'[^\n]', ' ', m.group(0)), raw, flags=re.S)
line = lambda pos: txt.count('\n', 0, pos) + 1

def match(s, i, o, c):
    d = 0; q = False
    while True:
        if s[i] == '"': q = not q
        elif not q:
            if s[i] == o: d += 1
            elif s[i] == c:
                d -= 1
                if d == 0: return i
        i += 1
def skip(s, i):
    while i < len(s) and s[i].isspace(): i += 1
    return i
MACROS = ('Collect_outermost_S_V_SplitCS', 'Set_outermost_integral_S_SplitCS', 'READ_v', 'SET_MSG')
def parse_block(i, end):
    out = []
    i = skip(txt, i)
    while i < end:
        st, i = parse_stmt(i)
        out.append(st)
        i = skip(txt, i)
    return out
def parse_body(i):
    i = skip(txt, i)
    if txt[i] == '{':
        j = match(txt, i, '{', '}')
        return parse_block(i + 1, j), j + 1
    st, j = parse_stmt(i)
    return [st], j
def parse_stmt(i):
    p = i
    m = re.compile(r'(if|IFsc|IFss|for)\s*\(').match(txt, i)
    if m:
        j = match(txt, m.end() - 1, '(', ')')
        cond = txt[m.end():j]
        body, k = parse_body(j + 1)
        if m.group(1) == 'for': return ('for', cond, body, p, k), k
        if m.group(1) in ('IFsc', 'IFss'): cond = '%s(%s)' % (m.group(1), cond)
        k2 = skip(txt, k)
        if txt.startswith('else', k2):
            els, k = parse_body(k2 + 4)
        else: els = None
        return ('if', cond, body, els, p, k), k
    for M in MACROS:
        if txt.startswith(M, i):
            j = i + len(M)
            if txt[skip(txt, j)] == '(': j = match(txt, skip(txt, j), '(', ')') + 1
            k = skip(txt, j)
            if txt[k] == ';': j = k + 1
            return ('macro', txt[i:j].strip(), p, j), j
    j = i; q = False; d = 0
    while q or d or txt[j] != ';':
        if txt[j] == '"': q = not q
        elif not q and txt[j] in '({': d += 1
        elif not q and txt[j] in ')}': d -= 1
        j += 1
    return ('stmt', re.sub(r'\s+', ' ', txt[i:j].strip()), p, j + 1), j + 1
def function(name):
    m = re.search(r'static void %s\(Observe_T \*const obs\)\s*\{' % name, txt)
    i = m.end() - 1
    return parse_block(i + 1, match(txt, i, '{', '}')), m.start()

KINDS = {'Grid_SplitCubedSpherical_' + k: 'K_SCS_' + k for k in ('BHNS', 'NSNS', 'BHBH', 'SNS', 'SBH')}
def cond(c):
    c = re.sub(r'\s+', ' ', c.strip())
    if 'grid->kind' in c:
        parts = [x.strip() for x in c.split('||')]
        ks = []
        for x in parts:
            m = re.fullmatch(r'grid->kind == (\w+)', x); ks.append(KINDS[m.group(1)])
        return 'kind_in k [%s]' % '; '.join(ks), False
    m = re.fullmatch(r'IFsc\("([^"]*)"\)', c)
    if m: return 'is q "%s"' % m.group(1), False
    m = re.fullmatch(r'IsIt\("([^"]*)"\)', c)
    if m: return 'is m "%s"' % m.group(1), False
    m = re.fullmatch(r'IsItCovering\(patch,"([^"]*)"\)', c)
    if m: return 'cov (S_ "%s")' % m.group(1), True
    raise SystemExit('condition? ' + c)
def lines(a, b): return '%d-%d' % (line(a), line(b - 1))
def emit(sts, leaf, ind):
    """sts: a block that is either one if-chain or a leaf"""
    if len(sts) == 1 and sts[0][0] == 'if':
        _, c, body, els, a, b = sts[0]
        g, mon = cond(c)
        t = emit(body, leaf, ind + '  ')
        e = emit(els, leaf, ind) if els is not None else ind + leaf([])
        if mon: return '%sdo b <- %s;\n%sif b then\n%s\n%selse\n%s' % (ind, g, ind, t, ind, e)
        return '%sif %s then\n%s\n%selse\n%s' % (ind, g, t, ind, e)
    return ind + leaf(sts)
def err(sts):
    return len(sts) == 1 and sts[0][0] == 'stmt' and sts[0][1].startswith('Error0(')
def opt(r): return 'None' if r is None else 'Some (S_ "%s")' % r
def leaf_collect(sts):
    if err(sts): return 'Abort'
    reg = {}; cur = None
    for s in sts:
        if s[0] == 'macro':
            assert s[1] == 'Collect_outermost_S_V_SplitCS' and len(sts) == 1
            return 'collect_outermost n1'
        m = re.fullmatch(r'region = "([^"]*)"', s[1])
        if m: cur = m.group(1); continue
        m = re.fullmatch(r'patches([12]) = collect_patches\(grid,region,&N([12])\)', s[1])
        assert m and m.group(1) == m.group(2) and m.group(1) not in reg, s
        reg[m.group(1)] = cur
    assert reg
    return 'Ok (%s, %s)' % (opt(reg.get('1')), opt(reg.get('2')))
def leaf_vol(sts):
    if err(sts): return 'Abort'
    assert all(s[1] == '' for s in sts), sts
    return 'Ok tt'
def leaf_surf(sts):
    if err(sts): return 'Abort'
    if all(s[0] == 'stmt' and s[1] == '' for s in sts): return 'Ok None'
    flg = z = False; K = nrm = None
    for s in sts:
        if s[0] == 'macro':
            assert re.fullmatch(r'Set_outermost_integral_S_SplitCS\((adm|Komar)\)', s[1]), s
            flg = z = True; K = 'split_face n1'; continue
        x = re.sub(r'^(adm|Komar)\[n\]->', '', s[1])
        if x == 'surface_integration_flg = 1': flg = True
        elif x == 'Z_surface = 1': z = True
        elif x == 'K = 0': K = 'First'
        elif x == 'K = patch->n[2]-1': K = 'Last'
        else:
            m = re.fullmatch(r'n_(physical|conformal)_metric_around\((adm|Komar)\[n\],_c_\)', s[1])
            assert m, s
            nrm = {'physical': 'Phys', 'conformal': 'Conf'}[m.group(1)]
    assert flg and z and K and nrm
    return 'Ok (Some (%s, %s))' % (K, nrm)
def leaf_formula(sts):
    if not sts: return 'Ok NoFormula'
    if err(sts): return 'Abort'
    assert len(sts) == 1
    m = re.fullmatch(r'(obs->ret\[0\] = )?(obs_\w+)\(obs\)', sts[0][1])
    return 'Ok F_%s' % m.group(2)
def last_if(sts): return [s for s in sts if s[0] == 'if'][-1]

forms = []
out = []
def defn(name, args, ty, node, leaf):
    body = emit([node], leaf, '  ')
    for f in re.findall(r'F_(obs_\w+)', body):
        if f not in forms: forms.append(f)
    out.append('(* obs_calculate.c:%s *)\nDefinition %s %s : %s :=\n%s.\n' % (lines(node[-2], node[-1]), name, args, ty, body))
for fn, tag in (('calc_ADM_P', 'P'), ('calc_ADM_J', 'J'), ('calc_ADM_mass', 'M'), ('calc_Kommar_mass', 'K')):
    sts, pos = function(fn)
    ifs = [s for s in sts if s[0] == 'if']; fors = [s for s in sts if s[0] == 'for']
    assert len(ifs) == 2 and len(fors) == 2, (fn, len(ifs), len(fors))
    assert fors[0][1].replace(' ', '') == 'n=0;n<N1;++n' and fors[1][1].replace(' ', '') == 'n=N1;n<N1+N2;++n'
    defn('collect_' + tag, '(k : kind) (q m : str) (n1 : bool)', 'outcome (option str * option str)', ifs[0], leaf_collect)
    vi = [s for s in fors[0][2] if s[0] == 'if']
    if vi: defn('volcheck_' + tag, '(k : kind) (q : str)', 'outcome unit', vi[0], leaf_vol)
    else: out.append('(* obs_calculate.c:%s: no check *)\nDefinition volcheck_%s (k : kind) (q : str) : outcome unit := Ok tt.\n' % (lines(fors[0][-2], fors[0][-1]), tag))
    si = [s for s in fors[1][2] if s[0] == 'if']; assert len(si) == 1
    defn('surf_' + tag, '(k : kind) (q m : str) (n1 : bool) (cov : str -> outcome bool)', 'outcome (option (face * metric))', si[0], leaf_surf)
    defn('formula_' + tag, '(k : kind) (m : str)', 'outcome formula', ifs[1], leaf_formula)
head = '''(* Generated by tools/obsdisp.py from %s: do not edit. *)
From Verif Require Import Base TextModel RegionModel.
Open Scope string_scope.

(* IFsc / IsIt, obs_calculate.h:10,13 *)
Definition is (s : str) (x : string) : bool := strcmp_i (Some s) (Some (S_ x)).
(* obs_calculate.h:16-33, n1: grid_SplitCS_Nsplit_c == 1 *)
Definition collect_outermost (n1 : bool) : outcome (option str * option str) :=
  if n1 then Ok (None, Some (S_ "outermost_OB")) else Ok (Some (S_ "outermost_OB"), Some (S_ "outermost_OB")).
(* K = 0 or K = n[2]-1 *)
Inductive face := First | Last.
(* obs_calculate.h:36-48 *)
Definition split_face (n1 : bool) : face := if n1 then Last else First.
(* metric psi^4 gConf or gConf *)
Inductive metric := Phys | Conf.
(* the functions called at the end of the four functions *)
Inductive formula := NoFormula%s.

''' % (SRC, ''.join(' | F_' + f for f in forms))
open(sys.argv[1] if len(sys.argv) > 1 else '/verif/rocq/theories/GenObsDisp.v', 'w').write(head + '\n'.join(out))
