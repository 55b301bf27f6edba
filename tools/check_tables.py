#!/usr/bin/env python3
"""Compare the tables transcribed into GaloisTables.v and ShamirTables.v with the literals in /repo, entry by entry."""
import re,sys
def go_tables(path):
    s=re.sub(r'//[^\n]*','',open(path).read()); out={}
    for m in re.finditer(r'\b(\w+) = \[\d*\](?:\[\d+\])?(?:byte|uint8)\{',s):
        i=m.end(); d=1; j=i
        while d: d+={'{':1,'}':-1}.get(s[j],0); j+=1
        out[m.group(1)]=[int(x,0) for x in re.findall(r'0x[0-9a-fA-F]+|\d+',s[i:j])]
    return out
def coq_tables(path):
    s=re.sub(r'\(\*.*?\*\)','',open(path).read(),flags=re.S); out={}
    for m in re.finditer(r'Definition (\w+) : [^:]*:=(.*?)\.\s*(?=Definition|$)',s,flags=re.S):
        out[m.group(1)]=[int(x,16) for x in re.findall(r'\bx([0-9a-f]{2})\b',m.group(2))]
    return out
bad=0
for go,coq in (('galois','GaloisTables'),('shamir','ShamirTables')):
    g=go_tables(f'/repo/{go}/tables.go'); c=coq_tables(f'/verif/rocq/theories/{coq}.v')
    for n in c:
        ok=g.get(n)==c[n]; bad+=not ok; print(go,n,len(c[n]),'same' if ok else 'DIFFERENT')
    for n in g:
        if n not in c: print(go,n,'not modelled')
sys.exit(bad!=0)
