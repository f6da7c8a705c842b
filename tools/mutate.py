#!/usr/bin/env python3
"""Run seeded faults: mutate.py muts.py -> appends to /verif/seeded/LOG.jsonl.
muts.py defines M = [(file, definition, old, new, claim, tightened), ...]."""
import sys,os,shutil,subprocess,re,json
from concurrent.futures import ThreadPoolExecutor
ns={}
exec(open(sys.argv[1]).read(),ns)
M=ns['M']
SRC='/tmp/mut/snapshot'
shutil.rmtree(SRC,ignore_errors=True); shutil.copytree('/verif/rocq',SRC)
def run(i):
    f,d,old,new,claim,tight=M[i]
    w=f'/tmp/mut/{i}'
    shutil.rmtree(w,ignore_errors=True)
    shutil.copytree(SRC,w)
    p=f'{w}/theories/{f}'
    s=open(p).read()
    if s.count(old)<1: return (i,'NOMATCH',[])
    s=s.replace(old,new,1)
    open(p,'w').write(s)
    r=subprocess.run(['timeout','900','make','-k','-C',w],capture_output=True,text=True)
    fails=[]
    for m in re.finditer(r'File "\./theories/(\w+)\.v", line (\d+), characters [\d-]+:\s*\n\s*Error',r.stdout+r.stderr):
        lines=open(f'{w}/theories/{m.group(1)}.v').read().split('\n')
        k=int(m.group(2))
        name='?'
        for j in range(k-1,-1,-1):
            mm=re.match(r'\s*(Theorem|Lemma|Example|Definition|Fixpoint|Corollary)\s+(\w+)',lines[j])
            if mm: name=mm.group(2);break
        fails.append(f'{m.group(1)}.{name}')
    # property files that could not be rebuilt
    dep=[]
    for g in sorted(os.listdir(f'{w}/theories')):
        if g.endswith('Props.v'):
            vo=f'{w}/theories/{g}o'
            if not os.path.exists(vo) or os.path.getmtime(vo)<os.path.getmtime(p): 
                # stale?
                q=subprocess.run(['make','-q','-C',w,f'theories/{g}o'],capture_output=True)
                if q.returncode!=0: dep.append(g[:-2])
    shutil.rmtree(w,ignore_errors=True)
    return (i,'ok' if not fails else 'FAILS',fails,dep)
os.makedirs('/tmp/mut',exist_ok=True)
with ThreadPoolExecutor(4) as ex:
    for r in ex.map(run,range(len(M))):
        i=r[0]; f,d,old,new,claim,tight=M[i]
        if r[1]=='NOMATCH': print(i,'NOMATCH',d); continue
        print(i,r[1],d,'|',claim,'|',r[2],r[3],flush=True)
        if '--log' in sys.argv:
            with open('/verif/seeded/LOG.jsonl','a') as o:
                o.write(json.dumps(dict(definition=f'{f[:-2]}.{d}',edit=f'{old.strip()}  ->  {new.strip()}',claim=claim,failed=r[2],property_files_not_rebuilt=r[3],survived=not r[2],tightened=tight))+'\n')
