#!/usr/bin/env python3
"""Run wrong-program experiments: mutate.py SPEC.json [names...]

SPEC.json is a list of {"name","file","old","new","claim"}; each is applied to a scratch copy of a built tree (/tmp/mut/base, a
copy of /verif/rocq after make). The tree is rebuilt; whenever a lemma no longer proves, its proof is replaced by Admitted in the
scratch copy and the build goes on, so that in the end Print Assumptions shows which theorems no longer have a proof.
Results go to /tmp/mut/results/NAME.json."""
import json,re,os,subprocess,sys,shutil,concurrent.futures as cf,time
BASE='/tmp/mut/base'; OUT='/tmp/mut/results'; os.makedirs(OUT,exist_ok=True)
LEM=re.compile(r'^\s*(?:Local )?(Lemma|Theorem|Example|Corollary|Fact|Remark|Definition|Fixpoint|Inductive|Record|Instance|Goal) ?([\w\']*)')
def enclosing(lines,n):
    for i in range(n,-1,-1):
        m=LEM.match(lines[i])
        if m: return i,m.group(1),m.group(2)
    return None
def admit(path,line):
    lines=open(path).read().split('\n')
    e=enclosing(lines,line-1)
    if e is None: return None
    i,kind,name=e
    if kind in('Definition','Fixpoint','Inductive','Record','Instance'): return ('DEF',name)
    j=i
    while j<len(lines) and not re.search(r'\bProof\.',lines[j]): j+=1
    k=j
    while k<len(lines) and not re.search(r'\b(Qed|Defined)\.',lines[k]): k+=1
    if k>=len(lines): return ('DEF',name)
    if line-1<j: return ('DEF',name)
    head=lines[j][:re.search(r'\bProof\.',lines[j]).start()]
    lines[j:k+1]=[head+'Proof. Admitted.']+['']*(k-j)
    open(path,'w').write('\n'.join(lines)); return ('LEM',name)
def run(m):
    t0=time.time(); w=f'/tmp/mut/w_{m["name"]}'
    shutil.rmtree(w,ignore_errors=True); subprocess.run(['cp','-a',BASE,w],check=True)
    edits=m.get('edits') or [m]
    for e in edits:
        p=f'{w}/theories/{e["file"]}'; s=open(p).read()
        if s.count(e['old'])!=1:
            r={'name':m['name'],'error':f'old string occurs {s.count(e["old"])} times'}
            json.dump(r,open(f'{OUT}/{m["name"]}.json','w'),indent=1); return r
        open(p,'w').write(s.replace(e['old'],e['new']))
    admitted=[]; broken=[]; 
    env=dict(os.environ)
    for it in range(60):
        pr=subprocess.run(f'ulimit -v 9000000; make -k -j2 COQEXTRAFLAGS=\'-set "Default Timeout=240"\'',shell=True,cwd=w,capture_output=True,text=True,env=env)
        out=pr.stdout+pr.stderr
        if pr.returncode==0: break
        errs=re.findall(r'File "\./theories/(\w+\.v)", line (\d+), characters [\d-]+:\n(Error:?.*(?:\n.*)?)',out)
        errs=[(f,int(l),t) for f,l,t in errs]
        if not errs: broken.append('no error location: '+out[-400:]); break
        stop=False; seen=set()
        for f,l,t in errs:
            if f in seen: continue
            seen.add(f)
            r=admit(f'{w}/theories/{f}',l)
            if r is None or r[0]=='DEF': broken.append(f'{f}:{l} {r} {t[:200]}'); stop=True
            else: admitted.append(f'{f}:{r[1]}')
        if stop: break
    lost=[]; closed=0
    if not broken:
        for f in sorted(os.listdir(f'{w}/theories')):
            if re.match(r'Props\d+\.v$',f):
                names=re.findall(r'^Print Assumptions (\w+)\.',open(f'{w}/theories/{f}').read(),re.M)
                if os.path.getmtime(f'{w}/theories/{f}o')<t0: closed+=len(names); continue   # not rebuilt: does not depend on the edit
                open(f'{w}/chk.v','w').write(f'From Verif Require Import {f[:-2]}.\n'+''.join(f'Print Assumptions {n}.\n' for n in names))
                pr=subprocess.run(['coqc','-Q','theories','Verif','chk.v'],cwd=w,capture_output=True,text=True)
                parts=re.split(r'(?m)^(?=Closed under|Axioms:)',pr.stdout)
                parts=[p for p in parts if p.startswith(('Closed','Axioms'))]
                if len(parts)!=len(names): broken.append(f'{f}: {len(parts)} vs {len(names)}')
                for n,p in zip(names,parts):
                    if p.startswith('Axioms'): lost.append(n)
                    else: closed+=1
    r={'name':m['name'],'claim':m['claim'],'edits':edits,'admitted':admitted,'lost':lost,'closed':closed,'broken':broken,'secs':int(time.time()-t0)}
    json.dump(r,open(f'{OUT}/{m["name"]}.json','w'),indent=1)
    shutil.rmtree(w,ignore_errors=True)
    print(m['name'],'lost',lost,'admitted',admitted,'broken',broken,r['secs'],flush=True); return r
if __name__=='__main__':
    ms=json.load(open(sys.argv[1])); sel=set(sys.argv[2:])
    ms=[m for m in ms if (not sel or m['name'] in sel) and not (not sel and os.path.exists(f'{OUT}/{m["name"]}.json'))]
    with cf.ThreadPoolExecutor(2) as ex: list(ex.map(run,ms))
