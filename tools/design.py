import json,re
props=[json.loads(l) for l in open('/verif/properties.jsonl')]
claims={c['property']:c for c in json.load(open('/verif/MANIFEST.json'))['claims']}
plan={}
for l in open('/tmp/gen/plan.txt'):
    l=l.rstrip('\n')
    if not l.strip(): continue
    k,t=l.split(' ',1); plan[k]=t
head=open('/tmp/gen/design_head.md').read(); tail=open('/tmp/gen/design_tail.md').read()
out=[head,'\n## Properties\n\nFor each property: what is modelled and how it is proved, then the result.\n']
for p in props:
    i=p['id']; c=claims[i]
    out.append('\n### %s %s\n'%(i,p['title']))
    out.append('*Model and proof:* %s\n'%plan[i])
    st={'proved':'proved','partial':'proved in part','not_applicable':'not applicable'}[c['status']]
    out.append('\n*Result:* %s. %s Theorems: %s.\n'%(st,c['note'],', '.join('`%s`'%t for t in c['theorems'])))
out.append('\n'+tail)
open('/verif/DESIGN.md','w').write(''.join(out))
