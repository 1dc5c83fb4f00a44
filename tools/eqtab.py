#!/usr/bin/env python3
"""Writes rocq/theories/GenEqTable.v: the add_eq calls of eq_main.c (set_equation_params) in order."""
import re, os, sys
REPO = sys.argv[1] if len(sys.argv) > 1 else '/repo'
SRC = 'Src/Main/Modules/Physics/Equation/eq_main.c'
txt = open(os.path.join(REPO, SRC)).read()
DB = ['eq_global_field_eq', 'eq_global_bc_eq', 'eq_global_jacobian_field_eq', 'eq_global_jacobian_bc_eq']
rows = []
for m in re.finditer(r'add_eq\(&(\w+)\s*,\s*(\w+)\s*,\s*"([^"]*)"\s*\);', txt):
    rows.append((txt.count('\n', 0, m.start()) + 1, DB.index(m.group(1)), m.group(2), m.group(3)))
assert len(rows) == txt.count('add_eq(')
defs = re.findall(r'Pset_default\(P_"((?:phi|phi1|phi2|psi|alphaPsi|B0_U\d))","([^"]*)"\);', txt)
d0 = [i for i, l in enumerate(txt.split('\n'), 1) if 'Pset_default(P_"phi"' in l or 'Pset_default(P_"B0_U2"' in l]
o = open(os.path.join(os.path.dirname(__file__), '../rocq/theories/GenEqTable.v'), 'w')
o.write('(** GENERATED by tools/eqtab.py from %s. *)\nFrom Coq Require Import String List.\nImport ListNotations.\nOpen Scope string_scope.\n' % SRC)
o.write('(** %s:%d-%d: every call add_eq(&db,function,"name"), in the order of the text.  The number is the database:\n    0 field equations, 1 boundary conditions, 2 Jacobians of the field equations, 3 Jacobians of the boundary conditions. *)\n' % (SRC, rows[0][0], rows[-1][0] + 1))
o.write('Definition add_eq_calls : list (nat * string * string) := [\n' + ';\n'.join('  (%d, "%s", "%s")' % (d, f, n) for _, d, f, n in rows) + '].\n')
o.write('(** %s:%d-%d: the default of the parameter "EQ_<field>" *)\n' % (SRC, d0[0], d0[-1]))
o.write('Definition eq_defaults : list (string * string) := [\n' + ';\n'.join('  ("%s", "%s")' % r for r in defs) + '].\n')
