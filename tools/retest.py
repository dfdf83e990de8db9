# writes tightened_am.json: for each edit that survived, the theorem that was tightened or added afterwards and rejects it
# (arguments: output files of the re-test, with the field killed_after), or why no claim is broken
import json,sys,re,glob,os
T='/verif/rocq/theories/'
props={p['id']:p['title'] for p in map(json.loads,open('/verif/properties.jsonl'))}
where={}
for f in glob.glob(T+'*.v'):
    for m in re.finditer(r"^(?:Theorem|Corollary|Lemma|Example) ([\w']+)",open(f).read(),re.M): where[m.group(1)]=os.path.basename(f)[:-2]
same=json.load(open('/verif/tools/equivalent.json'))
out=dict(same)
for a in sys.argv[1:]:
    for l in open(a):
        q=json.loads(l); k=q['killed_after']
        if not k: continue
        key='|'.join((q['file']+'.'+q['def'],q['old'],q['new']))
        if 'timeout' in k:
            out[key]={"claim":"not decided: the proofs of "+k.split()[0]+" did not end within the time limit","tightened":[]}; continue
        th=k.split('.')[-1]; m=re.match(r'(C\d\d)_',th)
        c=[m.group(1)] if m else sorted(set(re.findall(r'^(?:Theorem|Corollary) (C\d\d)_',open(T+k.split('.')[0]+'.v').read(),re.M)))[:2]
        out[key]={"claim":'; '.join(f'{i} {props[i]}' for i in c),"tightened":[th],"note":"survived when first tried; rejected since the named theorem (or the one that uses the named lemma) was added or tightened"}
json.dump(out,open('/verif/tools/tightened_am.json','w'),indent=0)
