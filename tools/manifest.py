import json,re,glob
M={}
def c(p,status,ths,note): M[p]=dict(property=p,status=status,theorems=ths.split(),note=note)
exec(open('/tmp/gen/claims.py').read())
props=[json.loads(l)['id'] for l in open('/verif/properties.jsonl')]
alltxt=''.join(open(f).read() for f in glob.glob('/verif/rocq/theories/*Props*.v'))
names=set(re.findall(r'^Theorem\s+(\w+)',alltxt,re.M))
out=[];used=set()
for p in props:
    m=M.get(p,dict(property=p,status='partial',theorems=[],note='planned'))
    for t in m['theorems']:
        if t not in names: print('MISSING',t)
        used.add(t)
    out.append(m)
for t in sorted(names-used): print('UNLISTED',t)
json.dump({"claims":out},open('/verif/MANIFEST.json','w'),indent=1)
