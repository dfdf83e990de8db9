#!/usr/bin/env python3
"""Writes ASSUMPTIONS.txt: what Print Assumptions says of every theorem of MANIFEST.json (needs a built rocq/)."""
import json, re, glob, subprocess, os, tempfile
V='/verif'
m=json.load(open(V+'/MANIFEST.json'))
names=[t for c in m['claims'] for t in c['theorems']]
where={}
for f in glob.glob(V+'/rocq/theories/*.v'):
    mod=os.path.basename(f)[:-2]
    for t in re.findall(r'^ *(?:Theorem|Corollary|Lemma)\s+(\w+)',open(f).read(),re.M): where.setdefault(t,mod)
mods=sorted(set(where[n] for n in names))
d=tempfile.mkdtemp()
with open(d+'/A.v','w') as o:
    o.write('From Verif Require %s.\n'%' '.join(mods))
    for n in names: o.write('Print Assumptions %s.%s.\n'%(where[n],n))
r=subprocess.run(['coqc','-Q',V+'/rocq/theories','Verif',d+'/A.v'],capture_output=True,text=True)
assert r.returncode==0, r.stderr
out=re.split(r'(?=^Closed under the global context|^Axioms:)',r.stdout,flags=re.M)
out=[x.strip() for x in out if x.strip()]
assert len(out)==len(names),(len(out),len(names))
with open(V+'/ASSUMPTIONS.txt','w') as o:
    o.write('What Print Assumptions lists for each theorem of MANIFEST.json (written by tools/assumptions.py).\n\n')
    for n,x in zip(names,out): o.write('%s.%s: %s\n'%(where[n],n,x))
print(len(names),set(out))
