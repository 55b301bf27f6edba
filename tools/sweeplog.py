#!/usr/bin/env python3
"""Add the results of an automatic mutation sweep (one small edit in each definition of the model) to seeded/LOG.jsonl. Usage: sweeplog.py PREFIX sweep.json sweep.log
The sweep stops at the first proof that breaks; theorems_failed = the property theorems whose proofs use it, from the .glob files of the build."""
import json,sys,re,glob,os
pre,js,lg=sys.argv[1:]
T='/verif/rocq/theories/'
# graph: (module,name) -> set of used
pos={};uses={}
for g in glob.glob(T+'*.glob'):
    m=os.path.basename(g)[:-5]; cur=None; items=[]
    for l in open(g):
        p=l.split()
        if not p: continue
        if l[0]=='R' and len(p)>=5: items.append((int(re.match(r'R(\d+)',p[0]).group(1)),'R',p[1],p[3]))
        elif p[0] in('prf','def','thm','ind','rec','scheme','ex','ax','defax','constr','proj','inst') and len(p)>=4: items.append((int(p[1].split(':')[0]),'D',p[2],p[3]))
    items.sort()
    for o,k,a,b in items:
        if k=='D': cur=(m,b); pos.setdefault(m,[]).append((o,b)); uses.setdefault(cur,set())
        elif cur and a.startswith('Verif.'): uses[cur].add((a[6:],b))
rev={}
for k,v in uses.items():
    for u in v: rev.setdefault(u,set()).add(k)
def dependents(x):
    seen={x};st=[x]
    while st:
        for y in rev.get(st.pop(),()):
            if y not in seen: seen.add(y);st.append(y)
    return seen
claims=json.load(open('/verif/MANIFEST.json'))['claims']
thms={t:c['property'] for c in claims for t in c['theorems']}
todo={f"{t['file']}:{t['def']}":t for t in json.load(open(js))}
log='/verif/seeded/LOG.jsonl'
old=[json.loads(l) for l in open(log)]
old=[r for r in old if not re.fullmatch(pre+r'\d+',r['name'])]
# a lemma nothing uses: with it removed, the next one breaks
EXTRA={'le_bytes_load':'le_bytes_lxor'}
NOTE={'Vector.v:le_load':'Survives, and no claim becomes false: the edit adds 256^n to the value of an n-byte word, which is cut off again when the word is stored.',
'Vector.v:pshufb':'Survives, and no claim becomes false: the high-bit case of PSHUFB is never reached, the control bytes being nibbles.',
'Pool.v:growcap117':'Survives, and no claim becomes false: the claims hold for every growth policy that satisfies grow_ok, and the edited one does.',
'MathRand.v:seedWords':'Survives, and no claim becomes false: the claims about math/rand hold for any table of words.'}
n=0;miss=[]
for l in open(lg):
    m=re.match(r'(KILLED|SURVIVED) (\S+) (.*)$',l)
    if not m: continue
    st,key,rest=m.groups()
    t=todo[key]; c=None
    for a,b,new in t['cands']:
        d=f"`{t['body'][max(0,a-25):b+15]}` -> `{new}`".replace('\n',' ')
        if rest.startswith(d): c=(a,b,new);tail=rest[len(d):];break
    if not c: miss.append(key);continue
    a,b,new=c; fails=[]; lost=[]
    q=re.search(r'File "\./theories/(\w+)\.v", line (\d+)',tail) or re.search(r'(\w+)\.v line (\d+)',tail)
    if st=='KILLED' and not q: miss.append(key+tail[:80]); continue
    if st=='KILLED':
        mod,ln=q.group(1),int(q.group(2))
        src=open(T+mod+'.v','rb').read().split(b'\n'); off=sum(len(x)+1 for x in src[:ln-1])+len(src[ln-1])
        nm=[b2 for o,b2 in pos.get(mod,[]) if o<=off]
        # last proof-bearing name
        best=None
        for k in range(ln-1,-1,-1):
            z=re.match(rb"\s*(?:Local |#\[.*\] )?(?:Lemma|Theorem|Example|Corollary|Fact|Remark|Definition|Fixpoint|Instance|Program|Add (?:Ring|Field))\s+([\w']+)",src[k])
            if z: best=z.group(1).decode();break
        if not best: miss.append(key);continue
        fails=[f'{mod}.v:{best}']
        ds=dependents((mod,best))
        if best in EXTRA: fails.append(f'{mod}.v:{EXTRA[best]}'); ds|=dependents((mod,EXTRA[best]))
        lost=sorted({y for (_,y) in ds if y in thms},key=lambda y:(thms[y],y))
    n+=1
    ps=sorted({thms[x] for x in lost})
    old.append({'name':f'{pre}{n:03d}','definition':[f"{t['file']}: {t['def']}"],
      'edit':[{'name':f'{pre}{n:03d}','file':t['file'],'old':t['body'],'new':t['body'][:a]+new+t['body'][b:]}],
      'claim':'automatic sweep: one small edit of this definition, '+rest[:rest.index(tail)] if tail else 'automatic sweep: '+rest,
      'properties':ps,
      'failed_lemmas':fails,'theorems_failed':lost,'tightened':[],
      'note':NOTE.get(key,'Survived') if st=='SURVIVED' else ('The sweep stops at the first proof that breaks; the theorems listed are those whose proofs use it.' if lost else 'The sweep stops at the first proof that breaks; here it is one that no property theorem uses directly (an example or check beside them).')})
with open(log,'w') as o:
    for r in sorted(old,key=lambda r:r['name']): o.write(json.dumps(r)+'\n')
print(n,len(old),'unmatched',miss)
print('no theorems:',[(r['name'],r['definition'],r['failed_lemmas']) for r in old if re.fullmatch(pre+r'\d+',r['name']) and r['failed_lemmas'] and not r['theorems_failed']])
