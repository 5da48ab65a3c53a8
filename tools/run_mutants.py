import json,os,re,subprocess,sys,shutil,random,fcntl,time
worker=sys.argv[1]; mfile=sys.argv[2] if len(sys.argv)>2 else '/tmp/mut/mutants.json'
M=json.load(open(mfile)); out='/tmp/mut/results4.jsonl'
order=list(range(len(M))); random.Random(7).shuffle(order)
W='/tmp/mut/w%s'%worker
def lemma_at(path,line):
    name=None
    for i,l in enumerate(open(path,errors='replace'),1):
        if i>line: break
        mm=re.match(r'\s*(?:#\[[^\]]*\]\s*)?(?:Local |Global |Program )?(Lemma|Theorem|Corollary|Definition|Fixpoint|Instance|Example|Fact|Remark|Proposition)\s+([A-Za-z0-9_\']+)',l)
        if mm: name=mm.group(2)
    return name
for i in order:
    x=M[i]
    lock='/tmp/mut/claimed_%s'%x['id']
    try: fd=os.open(lock,os.O_CREAT|os.O_EXCL)
    except FileExistsError: continue
    os.close(fd)
    shutil.rmtree(W,ignore_errors=True)
    subprocess.run(['cp','-a','/tmp/mut/base',W],check=True)
    p='%s/theories/Model/%s.v'%(W,x['file'])
    s=open(p).read()
    if s.count(x['old'])!=1: print('BAD',x['id']); continue
    open(p,'w').write(s.replace(x['old'],x['new']))
    t0=time.time()
    r=subprocess.run("make -j1 COQC='timeout 900 coqc' 2>&1",shell=True,cwd=W,capture_output=True,text=True,errors='replace')
    log=r.stdout
    errs=[]
    lines=log.split('\n')
    for j,l in enumerate(lines):
        mm=re.match(r'File "\.?/?([^"]*)", line (\d+)',l)
        if mm and any('Error' in q for q in lines[j+1:j+3]):
            errs.append(dict(file=mm.group(1).replace('theories/',''),line=int(mm.group(2)),lemma=lemma_at(W+'/'+mm.group(1),int(mm.group(2))),msg=' '.join(lines[j+1:j+4])[:200]))
    tm=re.findall(r'\*\*\* \[[^\]]*: (\S+)\] Error (\d+)',log)
    res=dict(id=x['id'],rc=r.returncode,secs=round(time.time()-t0),errors=errs,targets=tm)
    with open(out,'a') as f:
        fcntl.flock(f,fcntl.LOCK_EX); f.write(json.dumps(res)+'\n')
