import json,sys
# usage: from a list P of dicts, append to properties.jsonl if id absent; N dict of notes
def add(P,N):
    ids=[json.loads(l)['id'] for l in open('/verif/properties.jsonl')]
    with open('/verif/properties.jsonl','a') as f:
        for p in P:
            if p['id'] not in ids: f.write(json.dumps(p)+'\n')
    n=json.load(open('/verif/tools/notes.json')); n.update(N); json.dump(n,open('/verif/tools/notes.json','w'),indent=1)
