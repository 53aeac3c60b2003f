#!/usr/bin/env python3
"""Regenerate MANIFEST.json and rocq/_CoqProject from the Props files and notes.json."""
import json,re,glob,os
root=os.path.dirname(os.path.dirname(os.path.abspath(__file__)))
props=[json.loads(l) for l in open(root+'/properties.jsonl')]
notes=json.load(open(root+'/tools/notes.json'))
th={}
for f in sorted(glob.glob(root+'/rocq/theories/*Props.v')):
    for m in re.finditer(r'^Theorem (C\d\d+)_(\w+)',open(f).read(),re.M):
        th.setdefault(m[1],[]).append(m[1]+'_'+m[2])
claims=[]
for p in props:
    i=p['id']; t=th.get(i,[]); n=notes.get(i,'')
    if not t:
        claims.append({"property":i,"status":"partial","theorems":[],"note":n or "not yet modelled"}); continue
    part=any(x.endswith('_partial') or x.endswith('_refuted') for x in t)
    claims.append({"property":i,"status":"partial" if part else "proved","theorems":t,"note":n})
json.dump({"claims":claims},open(root+'/MANIFEST.json','w'),indent=1)
fs=sorted(os.path.basename(f) for f in glob.glob(root+'/rocq/theories/*.v'))
open(root+'/rocq/_CoqProject','w').write('-Q theories Verif\n\n'+''.join('theories/%s\n'%f for f in fs))
print(sum(c['status']=='proved' for c in claims),'proved',sum(bool(c['theorems']) for c in claims),'covered of',len(claims))
