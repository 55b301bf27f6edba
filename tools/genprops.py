#!/usr/bin/env python3
"""Generate rocq/theories/PropsN.v from rocq/theories/PfN.v.

A Pf file holds, besides auxiliary lemmas, one lemma Cxx_name_pf per theorem; the Props file restates each of them as
Theorem Cxx_name, closed by the proved lemma, with Print Assumptions, and holds the non-vacuity examples (COPY blocks)."""
import re,sys,os
here=os.path.join(os.path.dirname(os.path.abspath(__file__)),'..','rocq','theories')
def gen(n):
    s=open(f'{here}/Pf{n}.v').read()
    m=re.search(r'\(\*PROPS\n(.*?)\*\)',s,re.S)
    title=re.match(r'\(\*\*\s*(.*?)\*\)',s,re.S).group(1).strip()
    title=re.sub(r'^Proofs of','Theorems:',title)
    out=[f'(** {title}\n    Generated from Pf{n}.v by tools/genprops.py: every theorem is proved there as the lemma of the same name with suffix _pf. *)\n'+m.group(1)]
    names=[]
    pat=re.compile(r'\(\*COPY\n(?P<copy>.*?)END\*\)|(?P<doc>\(\*\*(?:(?!\*\)).)*\*\)\n)?Lemma (?P<name>C\d\d_\w+)_pf(?P<rest>.*?)\nProof\.',re.S)
    for k in pat.finditer(s):
        if k.group('copy') is not None: out.append(k.group('copy'))
        else:
            nm=k.group('name'); names.append(nm)
            out.append((k.group('doc') or '')+f"Theorem {nm}{k.group('rest')}\nProof. exact {nm}_pf. Qed.\nPrint Assumptions {nm}.\n")
    open(f'{here}/Props{n}.v','w').write('\n'.join(out))
    return names
if __name__=='__main__':
    for f in sorted(os.listdir(here)):
        k=re.match(r'Pf(\d+)\.v$',f)
        if k and (len(sys.argv)<2 or k.group(1) in sys.argv[1:]): print(f, *gen(k.group(1)))
