#!/usr/bin/env python3
"""Regenerates MANIFEST.json: theorem names are collected from theories/Props_*.v by their Cnn_ prefix."""
import re,json,glob,os
root=os.path.dirname(os.path.dirname(os.path.abspath(__file__)))
props=[json.loads(l) for l in open(root+'/properties.jsonl')]
notes=json.load(open(root+'/tools/notes.json'))
th={}
for f in sorted(glob.glob(root+'/rocq/theories/Props_*.v')):
    for m in re.finditer(r'^\s*Theorem\s+((C\d+)_\w+)',open(f).read(),re.M):
        th.setdefault(m.group(2),[]).append(m.group(1))
claims=[]
for p in props:
    i=p['id']; t=th.get(i,[]); n=notes.get(i,{})
    status=n.get('status') or ('proved' if t and not any(x.endswith('_partial') or x.endswith('_refuted') for x in t) else 'partial' if t else 'not_applicable')
    if not t and not n.get('status'): continue
    claims.append(dict(property=i,status=status,theorems=t,note=n.get('note','' if t else 'not modelled yet')))
json.dump(dict(claims=claims),open(root+'/MANIFEST.json','w'),indent=1)
print(sum(len(c['theorems']) for c in claims),'theorems;',[c['property'] for c in claims if not c['theorems']])
