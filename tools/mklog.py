#!/usr/bin/env python3
"""mklog.py RESULTS.jsonl... : append the seeded-bug attempts to /verif/seeded/LOG.jsonl,
one line per attempt (an id + edit already logged is skipped)."""
import json,sys,os
P='/verif/seeded/LOG.jsonl'
T={}
try: T=json.load(open('/tmp/m/tightened.json'))
except Exception: pass
seen=set()
if os.path.exists(P):
    for l in open(P):
        d=json.loads(l); seen.add((d['id'],d['outcome'],d['edit']['new']))
out=open(P,'a')
for f in sys.argv[1:]:
    for l in open(f):
        r=json.loads(l)
        oc=r['status']
        oc={'killed+broken':'killed','bad-edit':'invalid edit','broken':'build broken before any property theorem was reached'}.get(oc,oc)
        if oc=='invalid edit': continue
        k=(r['id'],oc,r['new'])
        if k in seen: continue
        seen.add(k)
        d={'id':r['id'],'definition':r['file']+':'+r['def'],'edit':{'old':r['old'],'new':r['new']},
           'claim':r['claim'],'breaks':r['breaks'],'outcome':oc,
           'theorems_failed':r.get('failed',[]),'first_failing_lemmas':[a[:120] for a in r.get('admitted',[])][:4],
           'theorems_tightened':T.get(r['id'],{}).get('theorems',[]) }
        if r['id'] in T and 'note' in T[r['id']]: d['note']=T[r['id']]['note']
        out.write(json.dumps(d)+'\n')
