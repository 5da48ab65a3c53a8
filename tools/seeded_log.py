#!/usr/bin/env python3
"""Regenerate seeded/LOG.jsonl from the mutants and the results of rebuilding them
(usage: seeded_log.py mutants.json results.jsonl [more results...]).
Later results for the same mutant (after tightening) are added as further lines."""
import json,re,subprocess,sys,os
root='/verif/rocq'
ms={m['id']:m for m in json.load(open(sys.argv[1]))}
vs=[l.strip() for l in open(root+'/_CoqProject') if l.strip().endswith('.v')]
deps={}
out=subprocess.run(['coqdep','-Q','theories','Verif']+vs,cwd=root,capture_output=True,text=True).stdout
for line in out.splitlines():
    m=re.match(r'^(\S+\.vo) \S+.*?: (.*)$',line)
    if not m: continue
    deps[m.group(1)[:-1]]=[d[:-1] for d in m.group(2).split() if d.endswith('.vo')]
rev={}
def closure(f):
    seen={f}; todo=[f]
    users={}
    for a,ds in deps.items():
        for d in ds: users.setdefault(d,[]).append(a)
    while todo:
        x=todo.pop()
        for u in users.get(x,[]):
            if u not in seen: seen.add(u); todo.append(u)
    return seen
thms={}
for v in vs:
    if 'Properties/' in v:
        thms[v]=re.findall(r'^(?:Theorem|Lemma|Corollary)\s+(C\d\d_\w+)',open(root+'/'+v).read(),re.M)
extra={}
p='/verif/seeded/notes.json'
if os.path.exists(p): extra=json.load(open(p))
with open('/verif/seeded/LOG.jsonl','w') as o:
    recs=[]
    for i,res in enumerate(sys.argv[2:]):
        for l in open(res):
            r=json.loads(l); m=ms[r['id']]
            e=r['errors'][0] if r['errors'] else None
            rec={'id':r['id'],'definition':'%s.v: %s'%(m['file'],m['defn']),'edit':m['desc'],
                 'diff':{'old':m['old'],'new':m['new']},'claim_broken':m['claim'],'round':i+1}
            if r['rc']==0:
                rec['theorems_failed']=[]; rec['verdict']='survived'
            else:
                f=e['file'] if e else ''
                f=f.replace('./','')
                if not f.startswith('theories'): f='theories/'+f
                own=[]
                mm=re.findall(r'C\d\d',m['claim'])
                for q in sorted(closure(f)):
                    for t in thms.get(q,[]):
                        if any(t.startswith(c+'_') for c in mm): own.append(t)
                rec['first_failure']='%s:%s %s'%(e['file'],e['line'],e['lemma']) if e else '?'
                rec['theorems_failed']=own or [e['lemma'] if e else '?']
                rec['verdict']='caught'
            n=extra.get(r['id'],{})
            rec['theorems_tightened']=n.get('tightened',[]) if r['rc']==0 else []
            if r['rc']==0 and 'note' in n: rec['note']=n['note']
            recs.append(rec)
    # a survivor that a later round catches: name the theorems that now fail
    for k,rec in enumerate(recs):
        if rec['verdict']!='survived' or 'note' in rec: continue
        later=[x for x in recs[k+1:] if x['id']==rec['id'] and x['verdict']=='caught']
        if later:
            rec['theorems_tightened']=later[-1]['theorems_failed']
            rec['note']='no theorem spoke about this yet; the theorems named were added or tightened, and fail in round %d'%later[-1]['round']
    for rec in recs: o.write(json.dumps(rec)+'\n')
