#!/usr/bin/env python3
"""Automatic seeded faults: automut.py SEED WORKERS OUT [names...].
One small syntactic change per definition of the model files (of those without an entry
in seeded/LOG.jsonl, or the named ones); reports which proofs fail, or SURVIVED."""
import sys,os,subprocess,re,json,random,glob,shutil,threading
from concurrent.futures import ThreadPoolExecutor
seed,workers,out=int(sys.argv[1]),int(sys.argv[2]),sys.argv[3]
only=set(sys.argv[4:])
SRC=os.environ.get('AMSRC','/verif/rocq')
logged=set()
for l in open('/verif/seeded/LOG.jsonl'):
    logged|=set(re.findall(r"[\w']+",str(json.loads(l).get('definition'))))
rng=random.Random(seed)
def strip_comments(s):
    # blank out comments, same length
    o=list(s);d=0;i=0
    while i<len(s):
        if s[i:i+2]=='(*' : d+=1; o[i]=o[i+1]=' '; i+=2; continue
        if s[i:i+2]=='*)' and d: d-=1; o[i]=o[i+1]=' '; i+=2; continue
        if d and s[i]!='\n': o[i]=' '
        i+=1
    return ''.join(o)
def sites(body):
    c=[]
    for m in re.finditer(r'(?<![\w.])(\d+)(?![\w.])',body):
        n=int(m.group(1)); c.append((m.start(1),m.end(1),str(n+1)))
        if n>0: c.append((m.start(1),m.end(1),str(n-1)))
    for a,b in [('<?','<=?'),('<=?','<?'),('&&','||'),('||','&&'),(' true',' false'),(' false',' true'),('negb ',''),(' + 1',''),('firstn','skipn'),('skipn','firstn'),('fst ','snd '),('snd ','fst '),(' + ',' - '),(' - ',' + '),('S ',''),('rev ',''),('N.min','N.max'),('N.max','N.min'),('Nat.min','Nat.max'),('N.land','N.lor'),('N.lor','N.land'),('N.shiftl','N.shiftr'),('N.shiftr','N.shiftl'),('=?','<=?'),('tl ',''),('removelast ','tl ')]:
        for m in re.finditer(re.escape(a),body):
            if a=='S ' and m.start() and (body[m.start()-1].isalnum() or body[m.start()-1]=='_'): continue
            if a=='=?' and m.start() and body[m.start()-1]=='<': continue
            if a=='<?' and False: continue
            c.append((m.start(),m.end(),b))
    for m in re.finditer(r'\bif (.+?) then\b',body): c.append((m.start(1),m.end(1),'negb (%s)'%m.group(1)))
    for m in re.finditer(r'(\w+) \+\+ (\w+)',body): c.append((m.start(),m.end(),'%s ++ %s'%(m.group(2),m.group(1))))
    for m in re.finditer(r'(\w+) (\w+)(?=[);|.])',body):
        c.append((m.start(1),m.end(1),m.group(2))) if False else None
    return c
jobs=[]
for f in sorted(glob.glob(SRC+'/theories/*Model*.v')):
    s=open(f).read(); t=strip_comments(s)
    for m in re.finditer(r'^(?:Local )?(?:Definition|Fixpoint|with|Function)\s+([\w\']+)(.*?:=)(.*?)\.(?=\s)',t,re.M|re.S):
        n=m.group(1)
        if only and n not in only: continue
        if not only and n in logged: continue
        c=sites(m.group(3)); 
        # a reproducible shuffle per definition
        random.Random(seed*7919+hash(n)%1000003 if False else (seed,n).__repr__()).shuffle(c)
        if c: jobs.append((os.path.basename(f),n,m.start(3),c))
        else: jobs.append((os.path.basename(f),n,m.start(3),[]))
lock=threading.Lock()
done=set()
if os.path.exists(out):
    for l in open(out):
        r=json.loads(l); done.add((r['file'],r['def']))
local=threading.local(); cnt=[0]
def wdir():
    if not hasattr(local,'w'):
        with lock: cnt[0]+=1; local.w=f'/tmp/am/w{cnt[0]}_{seed}'
    return local.w
def emit(r):
    with lock:
        open(out,'a').write(json.dumps(r)+'\n')
def run(j):
    f,n,off,c=j
    if (f,n) in done: return
    w=wdir()
    if not c: emit(dict(file=f,**{'def':n},res='NOSITE')); return
    for k,(a,b,new) in enumerate(c[:8]):
        (shutil.rmtree(w,ignore_errors=True),subprocess.run(['cp','-a',SRC,w]))
        p=f'{w}/theories/{f}'; s=open(p).read()
        s2=s[:off+a]+new+s[off+b:]
        ls=s.rfind('\n',0,off+a)+1; le=s.find('\n',off+b); le=len(s) if le<0 else le
        edit=s[ls:le].strip()+'  ->  '+s2[ls:le+len(s2)-len(s)].strip()
        open(p,'w').write(s2)
        r=subprocess.run(['timeout','120','make','-C',w,f'theories/{f}o'],capture_output=True,text=True)
        if r.returncode: continue
        r=subprocess.run(f'ulimit -v 7000000; exec timeout 1500 make -C {w}',shell=True,capture_output=True,text=True)
        fails=[]
        for m in re.finditer(r'File "\./theories/(\w+)\.v", line (\d+), characters [\d-]+:\s*\n\s*Error',r.stdout+r.stderr):
            lines=open(f'{w}/theories/{m.group(1)}.v').read().split('\n')
            name='?'
            for q in range(int(m.group(2))-1,-1,-1):
                mm=re.match(r'\s*(Theorem|Lemma|Example|Definition|Fixpoint|Corollary)\s+(\w+)',lines[q])
                if mm: name=mm.group(2);break
            fails.append(f'{m.group(1)}.{name}')
        emit(dict(file=f,**{'def':n},edit=edit,res='KILLED' if fails else ('SURVIVED' if r.returncode==0 else 'TIMEOUT'),failed=fails)); return
    emit(dict(file=f,**{'def':n},res='NOTYPE'))
with ThreadPoolExecutor(workers) as ex: list(ex.map(run,jobs))
