import json,re,glob,os
# maintained by hand: property -> status, note ; theorem names found automatically by prefix Cxx_
notes=json.load(open('/verif/tools/notes.json'))
th={}
for f in sorted(glob.glob('/verif/rocq/theories/Props_*.v')):
    for m in re.finditer(r'^Theorem (C\d\d+)_(\w+)',open(f).read(),re.M):
        th.setdefault(m.group(1),[]).append(m.group(1)+'_'+m.group(2))
ids=[json.loads(l)['id'] for l in open('/verif/properties.jsonl')]
claims=[]
for i in ids:
    n=notes.get(i)
    if i in th and n: claims.append({"property":i,"status":n[0],"theorems":th[i],"note":n[1]})
    elif n and n[0]=='not_applicable': claims.append({"property":i,"status":n[0],"theorems":[],"note":n[1]})
    else: print('missing',i, i in th, bool(n))
json.dump({"claims":claims},open('/verif/MANIFEST.json','w'),indent=1)
