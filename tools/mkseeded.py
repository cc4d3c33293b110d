#!/usr/bin/env python3
"""mkseeded.py RESULTS.jsonl... : append new mutation results to /verif/seeded/LOG.jsonl
(one line per attempt; lines already present are kept)."""
import json,sys,os
BENIGN=json.load(open('/verif/tools/benign.json'))
TIGHT=json.load(open('/verif/tools/tightened.json'))
LOG='/verif/seeded/LOG.jsonl'
seen={}
if os.path.exists(LOG):
    for l in open(LOG):
        l=l.strip()
        if l: d=json.loads(l); seen[(d['definition'],d['edit'],d['outcome'])]=d
out=list(seen.values())
for f in sys.argv[1:]:
    for l in open(f):
        d=json.loads(l)
        if d['status'] not in ('killed','SURVIVED','timeout'): continue
        defn=f"{d['file']}:{d['def']}"
        edit=f"replace `{d['old']}` by `{d['new']}`"+(f" in `{d['ctx']}`" if d.get('ctx') else '')
        key=f"{d['file']} {d['def']} {d['old']}->{d['new']}"
        st=d['status']
        e={'definition':defn,'edit':edit}
        claim=d.get('claim')
        if not claim or claim=='auto':
            fs=sorted({t[:3] for t in d.get('failed_theorems',[])})
            claim=('claims '+', '.join(fs)) if fs else 'see note'
        e['claim_broken']=claim
        e['outcome']={'killed':'theorems failed','SURVIVED':'survived','timeout':'theorems failed (proof did not terminate)'}[st]
        e['theorems_failed']=d.get('failed_theorems',[])
        e['first_failures']=d.get('first_failures',[])
        e['theorems_tightened']=[]
        if st=='SURVIVED':
            if key in TIGHT: e['theorems_tightened']=TIGHT[key]; e['note']='survived before the tightening; re-run afterwards: see the later line for the same edit'
            elif key in BENIGN: e['note']='no theorem is too weak: '+BENIGN[key]
            else: print('UNCLASSIFIED',key,d.get('ctx'))
        k=(e['definition'],e['edit'],e['outcome'])
        if k in seen: continue
        seen[k]=e; out.append(e)
with open(LOG,'w') as g:
    for e in out: g.write(json.dumps(e)+'\n')
print(len(out),'lines')
