# appends the results of am.py (arguments: its output files) to seeded/LOG.jsonl as lines A0001, ...; run after seedlog.py.
# The broken claim is given by the property whose theorem or lemma failed first: the properties of the Prop file it is in,
# or those of the Prop files that rest on the proof file.
import json,sys,re,glob,os
T='/verif/rocq/theories/'
props={p['id']:p['title'] for p in map(json.loads,open('/verif/properties.jsonl'))}
ids={}
for f in glob.glob(T+'*.v'):
    ids[os.path.basename(f)[:-2]]=sorted(set(re.findall(r'^(?:Theorem|Corollary|Example) (C\d\d)_',open(f).read(),re.M)))
dep={}
for f in glob.glob(T+'*.v'):
    n=os.path.basename(f)[:-2]
    dep[n]={w for m in re.findall(r'From Verif Require Import ([^.]*)\.',open(f).read()) for w in m.split()}
def claims(x):
    f,_,th=x.partition('.'); f=f.split()[0]
    m=re.match(r'(C\d\d)_',th)
    if m: return [m.group(1)]
    if ids.get(f): return ids[f]
    c=sorted({i for g in dep if f in dep[g] for i in ids[g]})
    return c[:4]
tight=json.load(open('/verif/tools/tightened_am.json'))
log=[l for l in open('/verif/seeded/LOG.jsonl') if l.strip() and not json.loads(l)['id'].startswith('A')]
n=0; open_=[]
for f in sys.argv[1:]:
    for l in open(f):
        d=json.loads(l)
        if d.get('none'): continue
        n+=1
        old=d['old']; a,b=old.split('[[',1); b,c=b.split(']]',1)
        edit=re.sub(r'\s+',' ',f"{a}{b}{c}  ->  {a}{d['new']}{c}")
        k=d['killed']
        if k and 'timeout' in k: k=None
        e={"id":"A%04d"%n,"definition":d['file']+'.'+d['def'],"edit":edit}
        if k:
            cs=claims(k); e["claim"]='; '.join(f'{i} {props.get(i,"")}' for i in cs); e["failed"]=[k.split('.')[-1] if '.' in k else k]; e["tightened"]=[]
        else:
            t=tight.get('|'.join((d['file']+'.'+d['def'],d['old'],d['new'])),tight.get(d['file']+'.'+d['def'],{}))
            e["claim"]=t.get('claim','no claim is broken'); e["failed"]=[]; e["tightened"]=t.get('tightened',[])
            if 'note' in t: e["note"]=t['note']
            if not t: open_.append(e)
        log.append(json.dumps(e)+'\n')
open('/verif/seeded/LOG.jsonl','w').write(''.join(log))
for e in open_: print(e['definition'],'|',e['edit'])
print(n,len(log))
