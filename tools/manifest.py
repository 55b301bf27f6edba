#!/usr/bin/env python3
"""Write MANIFEST.json from properties.jsonl, the Props files and tools/notes.json (notes and non-default statuses)."""
import json,re,os,glob
root=os.path.join(os.path.dirname(os.path.abspath(__file__)),'..')
ths={}
for f in sorted(glob.glob(f'{root}/rocq/theories/Props*.v'),key=lambda f:int(re.search(r'Props(\d+)',f).group(1))):
    for n in re.findall(r'^Theorem (C\d\d_\w+)',open(f).read(),re.M): ths.setdefault(n[:3],[]).append(n)
notes=json.load(open(f'{root}/tools/notes.json')) if os.path.exists(f'{root}/tools/notes.json') else {}
claims=[]
for l in open(f'{root}/properties.jsonl'):
    if not l.strip(): continue
    i=json.loads(l)['id']; n=notes.get(i,{})
    if isinstance(n,str): n={'note':n}
    if i in ths:
        st='partial' if any(t.endswith('_partial') for t in ths[i]) else 'proved'
        claims.append({"property":i,"status":n.get('status',st),"theorems":ths[i],"note":n.get('note','')})
    elif 'status' in n: claims.append({"property":i,"status":n['status'],"theorems":[],"note":n.get('note','')})
    else: print('no theorem yet for',i)
json.dump({"claims":claims},open(f'{root}/MANIFEST.json','w'),indent=1)
