#!/usr/bin/env python3
"""Writes rocq/theories/GenCmd.v: the commands of physics_lib.h and the switches they go through."""
import re, sys
R = sys.argv[1] if len(sys.argv) > 1 else '/repo'
P = R + '/Src/Main/Modules/'
def rd(f): return re.sub(r'/\*.*?\*/', '', open(P + f).read(), flags=re.S)
def line(f, pat):
    for i, l in enumerate(open(P + f), 1):
        if pat in l: return i
enum = re.search(r'typedef enum CMD_T\s*\{(.*?)\}cmd_T', rd('Includes/physics_lib.h'), re.S).group(1)
names = [x.strip() for x in enum.replace('= 0', '').split(',') if x.strip()]
def switch(txt, head):
    body = txt[txt.index(head):]
    body = body[body.index('switch'):]
    body = body[:body.index('default:')]
    out, pend = [], []
    for m in re.finditer(r'case\s+(\w+)\s*:|ret\s*=\s*(\w+)\(phys\)|break', body):
        if m.group(1): pend.append(m.group(1))
        elif m.group(2): fn = m.group(2)
        else:
            out += [(c, fn) for c in pend]; pend = []
    return out
main = switch(rd('Physics/phys_main.c'), 'int physics_main(')
mods = [('star_main', 'Physics/Star/star_main.c'), ('Tij_main', 'Physics/StressEnergy_Tensor/Tij_main.c'), ('bh_main', 'Physics/BlackHole/bh_main.c'),
        ('fd_main', 'Physics/Free_Data/fd_main.c'), ('sys_main', 'Physics/System/sys_main.c'), ('adm_main', 'Physics/ADM/adm_main.c'),
        ('observe_main', 'Physics/Observe/obs_main.c'), ('eq_main', 'Physics/Equation/eq_main.c')]
def tab(l): return '[\n  ' + ';\n  '.join('("%s", "%s")' % x for x in l) + '].\n'
o = '(** GENERATED by tools/cmdtab.py from Src/Main/Modules/Includes/physics_lib.h, Physics/phys_main.c and the main files of its modules. *)\n'
o += 'From Coq Require Import String List.\nImport ListNotations.\nOpen Scope string_scope.\n'
o += '(** enum CMD_T, physics_lib.h:%d: the position in the list is the number *)\n' % line('Includes/physics_lib.h', 'typedef enum CMD_T')
o += 'Definition cmd_names : list string := [\n  ' + ';\n  '.join('"%s"' % n for n in names) + '].\n'
o += '(** the switch of physics_main, phys_main.c:%d: command, module *)\n' % line('Physics/phys_main.c', 'int physics_main(')
o += 'Definition physics_switch : list (string * string) := ' + tab(main)
o += '(** the switches of the modules: command, function called *)\nDefinition module_switches : list (string * list (string * string)) := [\n'
o += ';\n'.join(' (* %s:%d *) ("%s", %s)' % (f, line(f, 'int %s(' % m), m, tab(switch(rd(f), 'int %s(' % m)).rstrip()[:-1]) for m, f in mods) + '].\n'
open('/verif/rocq/theories/GenCmd.v', 'w').write(o)
