#!/usr/bin/env python3
"""Regenerates MANIFEST.json from the theorem names in rocq/theories/*Props.v and the notes below."""
import re,json,glob,os
root=os.path.dirname(os.path.dirname(os.path.abspath(__file__)))
props=[json.loads(l) for l in open(root+'/properties.jsonl')]
thms={}
for f in sorted(glob.glob(root+'/rocq/theories/*.v')):
    for m in re.finditer(r'^Theorem\s+(C\d\d)(_\w+)',open(f).read(),re.M):
        thms.setdefault(m.group(1),[]).append(m.group(1)+m.group(2))
notes=json.load(open(root+'/tools/notes.json'))
claims=[]
for p in props:
    i=p['id']; n=notes.get(i,{})
    t=thms.get(i,[])
    st=n.get('status') or ('proved' if t and not any(x.endswith('_partial') or x.endswith('_refuted') for x in t) else 'partial')
    claims.append(dict(property=i,status=st,theorems=t,note=n.get('note','') if t else (n.get('note') or 'Not modelled yet.')))
json.dump({'claims':claims},open(root+'/MANIFEST.json','w'),indent=1)
print({c['property']:(c['status'],len(c['theorems'])) for c in claims})
