"""Regenerate AXIOMS.md: what Print Assumptions says for each property theorem (run after a build).  With file names: only these."""
import re,glob,subprocess,os,sys
os.chdir('/verif/rocq/theories')
out=[]
only=sys.argv[1:]
for f in sorted(only or glob.glob('Props_*.v')):
    names=re.findall(r'^Print Assumptions (\S+?)\.\s*$',open(f).read(),re.M)
    log=subprocess.run(['coqc','-Q','.','Verif','-o','/tmp/ax.vo' if False else f[:-2]+'.vo',f],capture_output=True,text=True).stdout
    blocks=[]; cur=None
    for l in log.splitlines():
        if l.startswith('Closed under'): blocks.append([]); cur=None
        elif l.startswith('Axioms:'): cur=[]; blocks.append(cur)
        elif cur is not None:
            m=re.match(r'^([A-Za-z_][\w.\']*)\s*(:|$)',l)
            if m: cur.append(m.group(1).split('.')[-1])
    assert len(blocks)==len(names),(f,len(blocks),len(names))
    for n,b in zip(names,blocks): out.append((n,', '.join(sorted(b)) or 'none (closed under the global context)'))
if only:
    new={n for n,_ in out}
    for l in open('/verif/AXIOMS.md'):
        m=re.match(r'\| (C\w+) \| (.*) \|$',l)
        if m and m.group(1) not in new: out.append((m.group(1),m.group(2)))
out.sort()
with open('/verif/AXIOMS.md','w') as g:
    g.write('# Print Assumptions, theorem by theorem\n\nGenerated by tools/axioms.py. All names are axioms of the Coq standard library.\n\n| theorem | axioms |\n|---|---|\n')
    for n,b in out: g.write('| %s | %s |\n'%(n,b))
print(len(out), set(b for _,b in out))
