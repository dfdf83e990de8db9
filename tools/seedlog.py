# merges the results of mutate.py (arguments: its output files) into seeded/LOG.jsonl; the last result of an id
# comes last, earlier results (before a theorem was tightened) are kept
import json,sys
tight=json.load(open('/verif/tools/tightened.json'))
out=[]
seen={}
for f in sys.argv[1:]:
    for l in open(f):
        d=json.loads(l)
        caught=bool(d['broken'] or d['failed_theorems'] or d['rest_on_broken'])
        e={"id":d['id'],"definition":d['definition'],"edit":d['edit'],"claim":d['claim'],
           "failed":d['broken']+[t for t in d['failed_theorems'] if t not in d['broken']],
           "claims_resting_on_failed":d['rest_on_broken'],
           "tightened":[] if caught else tight.get(d['id'],[])}
        if e not in out: out.append(e)
open('/verif/seeded/LOG.jsonl','w').write('\n'.join(json.dumps(e) for e in out)+'\n')
print(len(out),[ (e['id'],e['edit'],e['tightened']) for e in out if not e['failed'] and not e['claims_resting_on_failed']])
