#!/usr/bin/env python3
"""Model files: list definitions without a comment that cites /repo, and citations whose lines do not exist or do not name the bracketed function."""
import re,os,sys
T='/verif/rocq/theories/'
MODEL='Galois Vector Csprng Randomizer RandomizerNew Pool Polynomial Shamir SplitP Krawczyk Worker Main Libs Memory Concurrency MathRand Asm MemCalls KrMem KrSplitMem SplitPMem Trace TraceMore IntWidth ConcAll ConcRand RandCalls'.split()
CITE=re.compile(r'\b([\w]+/[\w]+\.(?:go|s)|\w+\.go|csprng\.go|main\.go):(\d+)(?:-(\d+))?')
for f in MODEL:
    p=T+f+'.v'
    if not os.path.exists(p): print('no file',f); continue
    s=open(p).read()
    for m in CITE.finditer(s):
        r='/repo/'+m.group(1)
        if not os.path.exists(r): print(f,'citation of missing file',m.group(0)); continue
        n=len(open(r).read().split('\n')); hi=int(m.group(3) or m.group(2))
        if hi>n: print(f,'line out of range',m.group(0),n)
    # comments with [name]
    for m in re.finditer(r'\(\*\*(.*?)\*\)\s*(?:Definition|Fixpoint|Inductive|Record) (\w+)',s,flags=re.S):
        c=m.group(1); cs=list(CITE.finditer(c))
        names=re.findall(r'\[(\w+)\]',c)
        if cs and names:
            x=cs[0]; r='/repo/'+x.group(1)
            if os.path.exists(r):
                L=open(r).read().split('\n')[max(0,int(x.group(2))-2):int(x.group(3) or x.group(2))]
                if names[0] not in '\n'.join(L): print(f,m.group(2),'first bracketed name',names[0],'not in',x.group(0))
    for m in re.finditer(r'(\(\*\*(?:(?!\*\)).)*\*\)\s*)?^(?:Definition|Fixpoint|Inductive|Record) ([\w\']+)',s,flags=re.S|re.M):
        if not m.group(1) or not CITE.search(m.group(1)): print(f,m.group(2),'UNCITED', '' if not m.group(1) else '(has comment)')
