#!/usr/bin/env python3
"""am.py WORKER NWORKERS OUT SEED FILES... : systematic token mutations, stop at the first proof that breaks"""
import signal,json,os,re,shutil,subprocess,sys,time,random
BASE='/tmp/am/base'; k,n,out,seed=int(sys.argv[1]),int(sys.argv[2]),sys.argv[3],int(sys.argv[4]); FILES=sys.argv[5:]
PER=int(os.environ.get('PER','2'))
W='/tmp/am/w_'+os.path.basename(out)+str(k)
def sh(c,t=None,cwd=W):
    pr=subprocess.Popen(c,shell=True,cwd=cwd,stdout=subprocess.PIPE,stderr=subprocess.PIPE,text=True,start_new_session=True)
    try:
        o,e=pr.communicate(timeout=t); return pr.returncode,o,e
    except subprocess.TimeoutExpired:
        os.killpg(pr.pid,signal.SIGKILL); pr.communicate(); return 'timeout','',''
d={}
rc,o,e=sh("coqdep -Q . Verif *.v",cwd=BASE)
for l in o.splitlines():
    a,b=l.split(':',1); v=[x for x in a.split() if x.endswith('.vo')]
    if v: d[v[0][:-3]]={x[:-3] for x in b.split() if x.endswith('.vo')}
def closure(f):
    s={f}; ch=True
    while ch:
        ch=False
        for x in d:
            if x not in s and d[x]&s: s.add(x); ch=True
    return s
size={x:os.path.getsize(f'{BASE}/{x}.v') for x in d}
def order(f):
    s=closure(f); outl=[f]; done={f}
    while len(outl)<len(s):
        c=[x for x in s if x not in done and (d[x]&s)<=done]
        # prefer proofs files depending on fewest
        x=min(c,key=lambda x:size[x]+(0 if x.startswith(f) or 'Prop'+f in x else 30000))
        outl.append(x); done.add(x)
    return outl
SWAP=[('lL1','lL2'),('lL2','lL1'),('lN2','lL2'),('lC1','lC2'),('lC2','lC1'),('l1','l2'),('l2','l1'),('n1','n2'),('n2','n1'),('c1','c2'),('c2','c1'),('fst','snd'),('snd','fst'),('true','false'),('false','true'),
 ('tL1','tL2'),('tL2','tL1'),('tC1','tC2'),('tC2','tC1'),('Undef','Throw EStd'),('firstn','skipn'),('skipn','firstn'),('EStd','EOther')]
SYM=[('<?','<=?'),('<=?','<?'),('=?','<=?'),('=?','<?'),('&&','||'),('||','&&'),(' + ',' - '),(' - ',' + '),(' * ',' + '),('negb ',''),(' ++ ',' ++ rev '),('app ','rev ')]
DEF=re.compile(r'^\s*(?:Local )?(Definition|Fixpoint)\s+([\w\']+)',re.M)
def strip_comments(t):
    # positions in comments
    res=[False]*len(t); depth=0;i=0
    while i<len(t):
        if t.startswith('(*',i): depth+=1; res[i]=res[i+1]=True; i+=2; continue
        if t.startswith('*)',i) and depth: res[i]=res[i+1]=True; depth-=1; i+=2; continue
        if depth: res[i]=True
        i+=1
    return res
def mutants(f):
    t=open(f'{BASE}/{f}.v').read(); com=strip_comments(t)
    ms=[m for m in DEF.finditer(t) if not com[m.start(2)]]
    for i,m in enumerate(ms):
        # end of definition : ". \n" outside comment
        j=m.end()
        while not(t[j]=='.' and not com[j] and (j+1>=len(t) or t[j+1] in ' \n')): j+=1
        body0=t.find(':=',m.end(),j)
        if body0<0: continue
        c=[]
        seg=t[body0+2:j]; off=body0+2
        for a,b in SWAP:
            for x in re.finditer(r'(?<![\w\'])'+re.escape(a)+r'(?![\w\'])',seg): c.append((off+x.start(),off+x.end(),b))
        for a,b in SYM:
            for x in re.finditer(re.escape(a)+r'(?![?])' if a in('=?','<?') else re.escape(a),seg):
                if a=='=?' and seg[x.start()-1:x.start()]=='<': continue
                c.append((off+x.start(),off+x.end(),b))
        for x in re.finditer(r'(?<![\w\'%.])(\d+)(?![\w\'])',seg):
            c.append((off+x.start(),off+x.end(),str(int(x.group())+1)))
            if int(x.group())>0: c.append((off+x.start(),off+x.end(),str(int(x.group())-1)))
        # swap of two adjacent simple arguments
        for x in re.finditer(r'(?<=[\w\)] )([a-z]\w*) ([a-z]\w*)(?=[ \)])',seg):
            if x.group(1)!=x.group(2) and not {x.group(1),x.group(2)}&{'then','else','in','let','if','match','with','fun','end','return','as'}: c.append((off+x.start(),off+x.end(),x.group(2)+' '+x.group(1)))
        # conditions made constant
        for x in re.finditer(r'\bif (.+?) then',seg): c.append((off+x.start(1),off+x.end(1),'true')); c.append((off+x.start(1),off+x.end(1),'false'))
        # a variable for another variable of the same definition
        ids_=sorted(set(re.findall(r"(?<![\w'.])([a-z]\w{0,5})(?![\w'])",t[m.end():body0]))-{'Z','list','out','nat','bool','text','real','fun','in','let','M','struct','option','res'})
        if len(ids_)>1:
            for x in re.finditer(r"(?<![\w'.])([a-z]\w{0,5})(?![\w'])",seg):
                if x.group() in ids_:
                    o_=[z for z in ids_ if z!=x.group()]
                    c.append((off+x.start(),off+x.end(),o_[hash(str(x.start()))%len(o_)] if False else o_[x.start()%len(o_)]))
        # dropped parts
        for x in re.finditer(r' \+\+ ([\w\']+|\([^()]*\))',seg): c.append((off+x.start(),off+x.end(),''))
        for x in re.finditer(r'([\w\']+|\([^()]*\)) \+\+ ',seg): c.append((off+x.start(),off+x.end(),''))
        for x in re.finditer(r'([\w\']+|\([^()]*\)) :: (?!_)',seg): c.append((off+x.start(),off+x.end(),''))
        for x in re.finditer(r' (&&|\|\|) ([\w\']+|\([^()]*\))',seg): c.append((off+x.start(),off+x.end(),''))
        if os.environ.get('LIT'):
            c=[]
            for z in re.finditer(r'\b(?:mk(?:cont|tab1|tab2|iseq|dir)|make_tab1|make_tab2)\b',seg):
                e=seg.find('\n',z.end()); e=len(seg) if e<0 else e
                for x in re.finditer(r'(?<![\w\'%.])(0|1|rzero)(?![\w\'%])',seg[z.end():e]):
                    v={'0':'1','1':'2','rzero':'(of_int 1)'}[x.group()]
                    c.append((off+z.end()+x.start(),off+z.end()+x.end(),v))
            c=sorted(set(c))
        c=[q for q in c if not com[q[0]]]
        yield m.group(2),c,t
rnd=random.Random(seed)
jobs=[]
for f in FILES:
    for name,c,t in mutants(f):
        if not os.environ.get('LIT'): rnd.shuffle(c)
        jobs.append((f,name,c[:PER*4],t))
cache={}
done=set()
if os.path.exists(out):
    for l in open(out): q=json.loads(l); done.add((q['file'],q['def']))
fo=open(out,'a')
for i,(f,name,c,t) in enumerate(jobs):
    if i%n!=k or (f,name) in done: continue
    if f not in cache: cache[f]=order(f)
    got=0
    for a,b,new in c:
        if got>=PER: break
        t0=time.time()
        shutil.rmtree(W,ignore_errors=True); os.mkdir(W)
        sh(f'cp -s {BASE}/* {W}/',cwd='/')
        for x in cache[f]:
            for ext in('.vo','.vok','.vos','.glob'):
                try: os.remove(f'{W}/{x}{ext}')
                except FileNotFoundError: pass
        os.remove(f'{W}/{f}.v'); open(f'{W}/{f}.v','w').write(t[:a]+new+t[b:])
        rc,o,e=sh(f'coqc -Q . Verif {f}.v',120)
        if rc!=0:
            # a broken lemma in the model file itself counts as a kill only if not a type error in a definition
            continue
        got+=1
        killed=None
        for x in cache[f][1:]:
            rc,o,e=sh(f'ulimit -v 6000000; coqc -Q . Verif {x}.v',400)
            if rc!=0:
                mm=re.findall(r'line (\d+), characters',e)
                nm=''
                if mm:
                    L=open(f'{BASE}/{x}.v').read().split('\n')[:int(mm[-1])]
                    for l in reversed(L):
                        q=re.match(r'\s*(?:Local |Global )?(Theorem|Lemma|Corollary|Example|Fact|Remark|Definition|Instance)\s+([\w\']+)',l)
                        if q: nm=q.group(2); break
                killed=f'{x}.{nm}' if rc!='timeout' else f'{x} timeout'; break
        ln=t[:a].count('\n')+1
        r=dict(file=f,**{'def':name},line=ln,old=t[a-25:a]+'[['+t[a:b]+']]'+t[b:b+25],new=new,killed=killed,sec=round(time.time()-t0))
        fo.write(json.dumps(r)+'\n'); fo.flush()
        if not killed: print('SURVIVED',r,flush=True)
    if not got: fo.write(json.dumps(dict(file=f,**{'def':name},none=1,killed='n/a'))+'\n'); fo.flush()
