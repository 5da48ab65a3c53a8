"""Regenerates MANIFEST.json: collects the property theorems by name from theories/Properties."""
import json,re,glob,os
root=os.path.dirname(os.path.dirname(os.path.abspath(__file__)))
props=[json.loads(l)['id'] for l in open(root+'/properties.jsonl')]
names={}
for f in sorted(glob.glob(root+'/rocq/theories/Properties/*.v')):
    for m in re.finditer(r'^(?:Theorem|Corollary) ([A-Za-z0-9_\']+)',open(f).read(),re.M):
        n=m.group(1)
        ids=re.match(r'((?:C\d\d_)+)',n)
        if not ids: continue
        ids=ids.group(1).strip('_').split('_')
        if len(ids)==2 and not n.startswith('C13_C'): # a range C08_C12 covers both ends and everything between
            a,b=int(ids[0][1:]),int(ids[1][1:]); ids=['C%02d'%i for i in range(a,b+1)]
        for i in ids: names.setdefault(i,[]).append(n)
notes=json.load(open(root+'/tools/notes.json'))
claims=[]
for p in props:
    th=names.get(p,[])
    nt=notes.get(p,{})
    good=[t for t in th if not t.endswith('_refuted')]
    st=nt.get('status') or ('proved' if good and not any(t.endswith('_partial') for t in th) else ('partial' if th else 'partial'))
    if not th and st!='not_applicable': 
        continue
    claims.append(dict(property=p,status=st,theorems=th,note=nt.get('note','')))
json.dump(dict(claims=claims),open(root+'/MANIFEST.json','w'),indent=1)
print(len(claims),'claims;', 'missing', [p for p in props if p not in names])
