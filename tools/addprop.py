#!/usr/bin/env python3
"""usage: addprop.py FILE.json ; keys: prop (properties.jsonl object), how [modelled, proof], files (list for _CoqProject), body: list of [old,new] for design_body.md"""
import json,sys
d=json.load(open(sys.argv[1]))
p=d['prop']; cid=p['id']
lines=[l for l in open('/verif/properties.jsonl').read().splitlines() if l.strip()]
lines=[l for l in lines if json.loads(l)['id']!=cid]+[json.dumps(p)]
open('/verif/properties.jsonl','w').write("\n".join(lines)+"\n")
import os
hp='/verif/tools/how.json'
h=json.load(open(hp)) if os.path.exists(hp) else {}
h[cid]=d['how']; json.dump(h,open(hp,'w'),indent=0)
b=open('/verif/tools/design_body.md').read()
for o,n in d.get('body',[]):
    if o not in b: print("NOT FOUND:",o[:60]); continue
    if n in b: continue
    b=b.replace(o,n,1)
open('/verif/tools/design_body.md','w').write(b)
c=open('/verif/rocq/_CoqProject').read().rstrip("\n")+"\n"
for f in d['files']:
    l="theories/%s.v\n"%f
    if l not in c: c+=l
open('/verif/rocq/_CoqProject','w').write(c)
