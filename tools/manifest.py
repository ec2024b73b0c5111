#!/usr/bin/env python3
"""Collect theorem names Cnn_* from rocq/theories/*Theorems.v and write MANIFEST.json.
Notes come from tools/notes.json ({"C01": "..."}) ."""
import json,re,glob,os
base=os.path.dirname(os.path.dirname(os.path.abspath(__file__)))
thms={}
for f in sorted(glob.glob(base+'/rocq/theories/*Theorems.v')):
    for m in re.finditer(r'^(?:Theorem|Corollary|Lemma)\s+((C\d\d)_\w+)',open(f).read(),re.M):
        thms.setdefault(m.group(2),[]).append(m.group(1))
notes=json.load(open(base+'/tools/notes.json')) if os.path.exists(base+'/tools/notes.json') else {}
claims=[]
for line in open(base+'/properties.jsonl'):
    p=json.loads(line)['id']
    n=notes.get(p,{})
    t=thms.get(p,[])
    if not t and n.get('status')!='not_applicable': 
        claims.append({"property":p,"status":"partial","theorems":[],"note":n.get('note','not yet modelled')}) if n.get('list') else None
        continue
    st=n.get('status') or ('partial' if any(x.endswith(('_partial','_refuted')) for x in t) else 'proved')
    claims.append({"property":p,"status":st,"theorems":t,"note":n.get('note','')})
json.dump({"claims":claims},open(base+'/MANIFEST.json','w'),indent=1)
print([(c['property'],c['status'],len(c['theorems'])) for c in claims])
