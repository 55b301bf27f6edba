#!/usr/bin/env python3
"""Collect the mutation results (tools/mutate.py) into seeded/LOG.jsonl. Notes on tightened theorems: seeded/tightened.json {name: {tightened, note}}."""
import json,glob,os,sys
res=sys.argv[1] if len(sys.argv)>1 else '/tmp/mut/results'
log='/verif/seeded/LOG.jsonl'
tn='/verif/seeded/tightened.json'
T=json.load(open(tn)) if os.path.exists(tn) else {}
old={}
if os.path.exists(log):
    for l in open(log):
        r=json.loads(l); old[r['name']]=r
for f in sorted(glob.glob(res+'/*.json')):
    r=json.load(open(f))
    n=r['name']
    e=r['edits']
    old[n]={'name':n,'definition':r.get('definition') or sorted(set(x['file'] if isinstance(x,dict) else x[0] for x in e)),
      'edit':e,'claim':r['claim'],'failed_lemmas':r['admitted'],'theorems_failed':r['lost'],'tightened':T.get(n,{}).get('tightened',[]),'note':T.get(n,{}).get('note','')}
import re
def defname(file,text):
    try: src=open('/verif/rocq/theories/'+file).read()
    except OSError: return None
    k=src.find(text)
    if k<0: return None
    m=list(re.finditer(r'^\s*(?:Definition|Fixpoint|Inductive|Record|CoFixpoint|CoInductive)\s+([\w\']+)',src[:k+len(text)],re.M))
    m=[x for x in m if x.start()<=k] or m[:1]
    return m[-1].group(1) if m else None
for n in old:
    d=[]
    for x in old[n]['edit']:
        f,o=(x['file'],x['old']) if isinstance(x,dict) else (x[0],x[1])
        q=defname(f,o); d.append(f+': '+q if q else f)
    if any(':' in y for y in d): old[n]['definition']=sorted(set(d))
for n in old:
    if n in T: old[n]['tightened']=T[n].get('tightened',[]); old[n]['note']=T[n].get('note','')
os.makedirs('/verif/seeded',exist_ok=True)
with open(log,'w') as o:
    for n in sorted(old): o.write(json.dumps(old[n])+'\n')
print(len(old))
