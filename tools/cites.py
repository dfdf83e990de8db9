#!/usr/bin/env python3
"""Checks the citations of the model: every definition of a model file is preceded (or followed on its line) by a
comment that cites a file of /repo with lines, or says that it is "not code" or belongs to disco; every cited file
exists under /repo/src/ENDFtk (or /repo, if it begins with python/) and has those lines."""
import re,sys,os
SRC=R='/repo/src/ENDFtk/'; PY='/repo/'; T='/verif/rocq/theories'
MODEL='Base Disco Records Tree Nested Sections Sec1 Sec451 Typed Sec9 Sec4 Sec6 Sec33 Sec8 Sec7 Sec2 Sec28 Sec32 Views Parts Equal Fission Law1 Make Parse Descr Py PyTree TypedEdit Classes SecKit'.split()
CITE=re.compile(r'([A-Za-z0-9_/.]*[A-Za-z0-9_]\.[hc]pp)((?::[0-9]+(?:-[0-9]+)?(?:, ?[0-9]+(?:-[0-9]+)?(?![0-9A-Za-z/.]))*)?)')
def comments(src):
    res=[];i=0
    while True:
        a=src.find('(*',i)
        if a<0: return res
        d=0;j=a
        while True:
            if src.startswith('(*',j): d+=1;j+=2
            elif src.startswith('*)',j):
                d-=1;j+=2
                if d==0: break
            else: j+=1
        res.append((a,j,src[a:j])); i=j
bad=total=cites=0
for m in sys.argv[1:] or MODEL:
    src=open(f'{T}/{m}.v').read(); cs=comments(src)
    for a,b,t in cs:
        for f,l in CITE.findall(t):
            if f.startswith('tools/disco') or 'disco' in t and not os.path.exists(R+f): continue
            f=f.replace('/repo/src/ENDFtk/','')
            cites+=1
            R=PY if f.startswith('python/') else SRC
            if not os.path.exists(R+f): print(m,'no such file:',f); bad+=1; continue
            n=len(open(R+f).read().split('\n'))
            if not l: print(m,'no lines:',f); bad+=1
            if any(int(x)>n for x in re.findall('[0-9]+',l)): print(m,'beyond the end:',f,l,n); bad+=1
    ds=[(x.start(1),x.group(2)) for x in re.finditer(r"(?:^|(?<=\. ))[ ]*((?:Definition|Fixpoint|Record|Inductive|Variant)\s+([A-Za-z_0-9']+))",src,re.M)]
    ds=[(p,n) for p,n in ds if not any(a<=p<b for a,b,_ in cs)]
    total+=len(ds)
    for k,(p,n) in enumerate(ds):
        end=ds[k+1][0] if k+1<len(ds) else len(src)
        near=[];q=p
        for a,b,t in reversed([c for c in cs if c[1]<=p]):
            if src[b:q].strip()=='': near.append(t); q=a
            else: break
        near+=[t for a,b,t in cs if p<a<end and '\n' not in src[p:a]]
        if not any(re.search(r'\.[hc]pp:[0-9]|not code|disco',t) for t in near): print(m,'no citation:',n); bad+=1
print(total,'definitions,',cites,'citations,',bad,'problems')
