#!/usr/bin/env python3
"""mutate.py MUTS.json OUT.jsonl : apply each wrong edit to a scratch copy of the
model, replay every proof, and report which theorems no longer hold.

A proof that breaks is replaced by Admitted in the scratch copy so that the files
after it can be replayed too; at the end Print Assumptions tells which of the
theorems of MANIFEST.json rest on a broken proof.  The scratch copy is never
committed."""
import json,os,re,shutil,subprocess,sys,time
SRC='/verif/rocq/theories'; W=os.environ.get('MUTW','/tmp/mut/w'); BASE=os.environ.get('MUTB','/tmp/mut/base')
def sh(c,t=None,cwd=W):
    try:
        r=subprocess.run(c,shell=True,cwd=cwd,capture_output=True,text=True,timeout=t)
        return r.returncode,r.stdout,r.stderr
    except subprocess.TimeoutExpired as e:
        return 'timeout',(e.stdout or b'').decode(),''
def deps():
    rc,o,e=sh("coqdep -Q . Verif *.v",cwd=BASE)
    d={}
    for l in o.splitlines():
        a,b=l.split(':',1)
        v=[x for x in a.split() if x.endswith('.vo')]
        if v: d[v[0][:-3]]={x[:-3] for x in b.split() if x.endswith('.vo')}
    return d
HEADRE=re.compile(r'^\s*(?:Local |Global )?(Theorem|Lemma|Corollary|Example|Fact|Remark|Instance|Goal)\s+([\w\']+)',re.M)
def order(d):
    out=[];seen=set()
    def go(x):
        if x in seen: return
        seen.add(x)
        for y in sorted(d[x]): go(y)
        out.append(x)
    for x in sorted(d): go(x)
    return out
def compile(f):
    """returns list of broken lemmas, or None when a definition breaks"""
    broken=[]
    for _ in range(60):
        rc,o,e=sh(f"ulimit -v 7000000; coqc -time -Q . Verif {f}.v",240)
        if rc==0: return broken,None
        s=open(f'{W}/{f}.v','rb').read()
        if rc=='timeout' or not re.search(r'characters (\d+)',e):
            m=re.findall(r'Chars (\d+) - (\d+)',o)
            pos=int(m[-1][1])+2 if m else 0
        else:
            m=re.findall(r'line (\d+), characters (\d+)-(\d+)',e)
            ln=int(m[-1][0]); 
            pos=sum(len(x)+1 for x in s.split(b'\n')[:ln-1])+int(m[-1][1])
        t=s.decode()
        # byte offset -> str offset
        pos=len(s[:pos].decode(errors='ignore'))
        h=[m for m in HEADRE.finditer(t) if m.start()<=pos]
        if not h: return broken,f'{f}: error at {pos}: {e[-300:]}'
        h=h[-1]; name=h.group(2)
        p=re.compile(r'\bProof\b').search(t,h.end())
        q=re.compile(r'\b(Qed|Defined|Admitted)\.').search(t,h.end())
        if not p or not q or q.group(1)=='Admitted' or pos>q.end():
            return broken,f'{f}.{name}: {e[-300:]}'
        if pos<p.start():
            # the statement itself no longer type checks
            t=t[:h.start()]+t[q.end():]; broken.append(name+' (statement)')
        else:
            t=t[:p.start()]+'Admitted.'+t[q.end():]; broken.append(name)
        open(f'{W}/{f}.v','w').write(t)
    return broken,'too many'
def main():
    muts=json.load(open(sys.argv[1])); out=open(sys.argv[2],'a')
    sel=set(sys.argv[3:])
    claims=json.load(open('/verif/MANIFEST.json'))['claims']
    d=deps(); od=order(d)
    where={}
    for f in od:
        for m in HEADRE.finditer(open(f'{BASE}/{f}.v').read()): where.setdefault(m.group(2),f)
    for n,m in enumerate(muts):
        if sel and m['id'] not in sel: continue
        t0=time.time()
        shutil.rmtree(W,ignore_errors=True); shutil.copytree(BASE,W)
        eds=m['edits'] if 'edits' in m else [[m['file'],m['old'],m['new']]]
        ok=True
        for f,a,b in eds:
            s=open(f'{W}/{f}.v').read()
            if s.count(a)!=1: print(m['id'],'bad pattern',f,s.count(a),a,flush=True); ok=False; break
            open(f'{W}/{f}.v','w').write(s.replace(a,b))
        if not ok: continue
        dirty={f for f,_,_ in eds}
        for f in od:
            if d[f]&dirty: dirty.add(f)
        broken=[];err=None;dead=set();errs=[]
        for f in od:
            if f not in dirty: continue
            if d[f]&dead: dead.add(f); continue
            os.path.exists(f'{W}/{f}.vo') and os.remove(f'{W}/{f}.vo')
            b,er=compile(f); broken+=b
            if er: errs.append(er); dead.add(f)
        # which theorems rest on broken proofs
        names=sorted({t for c in claims for t in c['theorems']})
        live=[t for t in names if where.get(t) in dirty and where[t] not in dead and t not in broken]
        lost=[t for t in names if where.get(t) in dead]
        fs=sorted({where[t] for t in live})
        rest=[]
        def assumptions(groups):
            """which of the groups of theorems rest on an admitted one"""
            if not groups: return []
            fs=sorted({where[t] for g in groups for t in g})
            chk=''.join(f'From Verif Require {f}.\n' for f in fs)
            for i,g in enumerate(groups):
                chk+=f'Definition zz{i} := (tt, '+', '.join(f'@Verif.{where[t]}.{t}' for t in g)+f').\nPrint Assumptions zz{i}.\n'
            open(f'{W}/zz_chk.v','w').write(chk)
            rc,o,e=sh('coqc -Q . Verif zz_chk.v',900)
            parts=re.split(r'(?m)^(?=Closed under|Axioms:)',o)[1:]
            if len(parts)!=len(groups): errs.append('assumptions? %d %d %s'%(len(parts),len(groups),e[-300:]))
            return [i for i,p in enumerate(parts) if p.startswith('Axioms')]
        if live and broken:
            gs=[[t for t in c['theorems'] if t in live] for c in claims]
            gi=[(c['property'],g) for c,g in zip(claims,gs) if g]
            hit=assumptions([g for _,g in gi])
            if len(hit)<=8:
                cand=[t for i in hit for t in gi[i][1]]
                rest=[cand[i] for i in assumptions([[t] for t in cand])]
            else: rest=['some of '+gi[i][0] for i in hit]
        direct=[b for b in broken if b in names]
        r=dict(id=m['id'],definition=m['definition'],edit=m['edit'],claim=m['claim'],broken=broken,failed_theorems=direct,rest_on_broken=rest,unbuildable=lost,errors=errs,secs=round(time.time()-t0))
        out.write(json.dumps(r)+'\n'); out.flush()
        print(m['id'],m['edit'],'| broken',len(broken),'direct',len(direct),'rest',len(rest),'dead',len(lost),r['secs'],'s',flush=True)
main()
